(** [predict_all_sites] and [predict_all_sites_samples] succeed for well-posed problems. *)
From Coq Require Import Reals Lra String Bool ZArith List Permutation Lia Sorted.
From Verif.Model Require Import Base Num XFloat Frame Arr Expand Aggregate Scale Prog Likelihood Effect Trend TrendProg Engine Predict Forecaster Tensors.
From Verif.Spec Require Import FrameSpec ScaleSpec ProgSpec PredictSpec EffectSpec TrendSpec ForecasterSpec AlignSpec ShapeSpec SiteSpec PosteriorSpec TotalSpec.
From Verif.Facts Require Import BaseFacts NumFacts OrderFacts FrameFacts FrameProps ArrFacts ProgFacts MeanFacts LikelihoodFacts EffectPredict PredictFacts ForecasterFacts ForecasterInv
  ForecasterProps ModelProps EngineFacts ShapeFacts SiteFacts ComponentFacts AlikeFacts TotalFacts TotalTrend TotalFit TotalForecast PosteriorFacts.
Import ListNotations.
Local Open Scope string_scope.

Lemma bind_ok {A B} (m : res A) (f : A -> res B) b : bind m f = Ok b -> exists a, m = Ok a /\ f a = Ok b.
Proof. destruct m; cbn; [eauto|discriminate]. Qed.

(** * Programs whose sites are latent *)
Fixpoint latent_only {A} (p : prog A) : Prop :=
  match p with
  | Ret _ | Raise _ => True
  | Sample _ _ _ None k => forall v, latent_only (k v)
  | Sample _ _ _ (Some _) _ | Det _ _ _ => False
  | Plate _ _ k => latent_only k
  end.
Lemma latent_bind {A B} (p : prog A) (f : A -> prog B) : latent_only p -> (forall a, latent_only (f a)) -> latent_only (pbind p f).
Proof. induction p as [a|x|n d sh [o|] k IH|n w k IH|n s k IH]; cbn [pbind latent_only]; intros H K; auto; contradiction. Qed.
Lemma latent_lift {A} (m : res A) : latent_only (lift_res m).
Proof. destruct m; exact I. Qed.
Definition is_latent (x : string * site) : Prop := match snd x with SSample _ _ false | SPlate _ => True | _ => False end.
Lemma latent_eval {A} e (p : prog A) : forall a l, latent_only p -> eval e p = Ok (a, l) -> Forall is_latent l.
Proof.
  induction p as [a|x|n d sh [o|] k IH|n w k IH|n s k IH]; intros a' l L H; cbn [latent_only eval] in *; try contradiction; try discriminate.
  - injection H as _ <-. constructor.
  - destruct (eval e (k _)) as [[b l']|] eqn:E; [|discriminate]. cbn [bind] in H. injection H as _ <-. constructor; [exact I|]. eapply IH; eauto.
  - destruct (eval e k) as [[b l']|] eqn:E; [|discriminate]. cbn [bind] in H. injection H as _ <-. constructor; [exact I|]. eapply IH; eauto.
Qed.

Lemma mode_latent m raw pe : latent_only raw -> latent_only (predict_mode m raw pe).
Proof. intros H. unfold predict_mode. apply latent_bind; [apply latent_lift|]. intros t. apply latent_bind; [exact H|]. intros x. apply latent_bind; [apply latent_lift|]. intros z. destruct m; [exact I|apply latent_lift]. Qed.
Lemma linear_latent prior d : latent_only (linear_raw prior d).
Proof. unfold linear_raw. destruct d as [|a|]; try exact I. destruct (rev (a_shape a)) as [|[|k] l]; try exact I. cbn. intros v. apply latent_lift. Qed.
Lemma log_latent p q d : latent_only (log_raw p q d).
Proof. unfold log_raw. destruct d; try exact I. cbn. auto. Qed.
Lemma hill_latent p q r d : latent_only (hill_raw p q r d).
Proof. unfold hill_raw. destruct d as [|a|]; try exact I. cbn. intros. apply latent_bind; [apply latent_lift|]. intros; exact I. Qed.
Lemma rates_latent f k : (forall o c, latent_only (k o c)) -> latent_only (rates_prog f k).
Proof. intros K. unfold rates_prog. apply latent_bind; [apply latent_lift|]. intros locs. cbn. intros v. apply latent_bind; [destruct (Nat.eqb _ _); exact I|]. intros _. cbn. auto. Qed.
Lemma trend_latent t td e v l : eval e (trend_predict t td) = Ok (v, l) -> Forall is_latent l.
Proof.
  destruct t as [p c b [f|]|s b [loc|]|ef], td as [m|a|d]; cbn [trend_predict]; intros Y; try discriminate Y.
  - eapply latent_eval; [|exact Y]. unfold piecewise_prog. destruct (pw_logistic (pf_params f)).
    + cbn [plate pbind latent_only sample]. intros w. apply (rates_latent f (fun o c => lift_res (logistic_predict (pw_squeeze (pf_params f)) (pf_n_series f) m (a_flat w) o c))). intros. apply latent_lift.
    + apply (rates_latent f (fun o c => lift_res (piecewise_predict (pw_squeeze (pf_params f)) (pf_n_series f) m o c))). intros. apply latent_lift.
  - eapply latent_eval; [|exact Y]. unfold flat_prog. destruct (flat_prior loc s). cbn. auto.
  - exfalso. eapply effect_trend_fails. apply eval_yields. eauto.
Qed.

(** * Lift tests are observed once per date *)
Fixpoint lifts (T : nat) (d : edata) : Prop := match d with ELift d l => List.length l = T /\ lifts T d | _ => True end.
Definition fits (T : nat) (x : string * site) : Prop :=
  match snd x with SSample _ v true => prod_shape (a_shape v) = T /\ arr_wf v | SDet _ => False | _ => True end.
Lemma latent_fits T l : Forall is_latent l -> Forall (fits T) l.
Proof. intros H. eapply Forall_impl; [|exact H]. intros [n [d v []|v|s]]; cbn; tauto. Qed.
Lemma predict_fits T ef : forall e d pe v l, lifts T d -> eval e (predict ef d pe) = Ok (v, l) -> Forall (fits T) l.
Proof.
  induction ef as [m p b|m p q b|m p q r b|inner IH tab ps b s|sp tl ps m b ff x ll]; intros e d pe v l LF H; cbn [predict] in H.
  - apply latent_fits. eapply latent_eval; [|exact H]. apply mode_latent, linear_latent.
  - apply latent_fits. eapply latent_eval; [|exact H]. apply mode_latent, log_latent.
  - apply latent_fits. eapply latent_eval; [|exact H]. apply mode_latent, hill_latent.
  - destruct d as [|a|d lift]; try discriminate. destruct LF as [LL LF]. rewrite eval_bind in H. destruct (eval e (predict inner d pe)) as [[x lx]|] eqn:E; [|discriminate]. cbn [bind] in H. cbn [observe pbind eval bind] in H. injection H as <- <-.
    apply Forall_app. split; [eapply IH; eauto|]. constructor; [|constructor]. cbn. unfold arr_wf. cbn [a_flat a_shape]. rewrite map_length. unfold prod_shape. cbn. lia.
  - destruct ll as [[mm bb]|]; [|discriminate]. apply latent_fits. eapply latent_eval; [|exact H]. apply mode_latent, linear_latent.
Qed.
Lemma inner_lifts ef : forall X fh d, inner_transform ef X fh = Ok d -> lifts (List.length fh) d.
Proof.
  induction ef as [m p b|m p q b|m p q r b|inner IH tab ps b s|sp tl ps m b ff x ll]; intros X fh d H; cbn [inner_transform] in H.
  1-3: inv_bind H; injection H as <-; exact I.
  - inv_bind H. inv_bind H. injection H as <-. cbn. rewrite map_length. split; [reflexivity|]. eapply IH; eauto.
  - apply bind_ok in H. destruct H as (z & _ & H). apply bind_ok in H. destruct H as (z1 & _ & H). apply bind_ok in H. destruct H as (z2 & _ & H). apply bind_ok in H. destruct H as ([z3 b'] & _ & H).
    unfold linear_transform in H. apply bind_ok in H. destruct H as (g & _ & H). destruct (negb g); [discriminate|]. apply bind_ok in H. destruct H as (sk & _ & H). destruct sk; [injection H as <-; exact I|].
    apply bind_ok in H. destruct H as (g1 & _ & H). apply bind_ok in H. destruct H as (g2 & _ & H). apply bind_ok in H. destruct H as (g3 & _ & H). injection H as <-. exact I.
Qed.

Lemma transform_lifts ef X fh d : transform ef X fh = Ok d -> lifts (List.length fh) d.
Proof.
  unfold transform. intros H. apply bind_ok in H as (g & _ & H). destruct (negb g); [discriminate|]. apply bind_ok in H as (sk & _ & H). destruct sk; [injection H as <-; exact I|].
  apply bind_ok in H as (cols & _ & H). destruct X as [X|]; [|discriminate]. apply bind_ok in H as (X' & _ & H). eapply inner_lifts; eauto.
Qed.
Lemma effects_lifts (fitted : list fitted_effect) X fh data : transform_effects fitted X fh = Ok data -> forall n d, dict_get data n = Some d -> lifts (List.length fh) d.
Proof.
  unfold transform_effects. assert (G : forall out, (forall n d, dict_get out n = Some d -> lifts (List.length fh) d) ->
    foldM (fun out (f : fitted_effect) => let '(name, e, cols) := f in skip <- should_skip_predict e ;; if (skip : bool) then Ok out else XC <- select_columns 0%R X cols ;; d <- transform e (Some XC) fh ;; Ok (dict_set out name d)) out fitted = Ok data ->
    forall n d, dict_get data n = Some d -> lifts (List.length fh) d).
  { induction fitted as [|[[name ef] cols] fs IH]; intros out H F; cbn [foldM] in F; [injection F as <-; exact H|].
    apply bind_ok in F as (out' & E & F). refine (IH out' _ F). apply bind_ok in E as (sk & _ & E). destruct sk; [injection E as <-; exact H|].
    apply bind_ok in E as (XC & _ & E). apply bind_ok in E as (d0 & Ed & E). injection E as <-. intros n d. rewrite dict_get_set.
    destruct (String.eqb _ _); [|apply H]. intros [= <-]. eapply transform_lifts; eauto. }
  apply G. intros n d [=].
Qed.

(** * All recorded sites *)
Definition good (T : nat) (x : string * site) : Prop :=
  match snd x with SSample _ v true | SDet v => prod_shape (a_shape v) = T /\ arr_wf v | _ => True end.
Lemma fits_good T l : Forall (fits T) l -> Forall (good T) l.
Proof. intros H. eapply Forall_impl; [|exact H]. intros [n [d v []|v|s]]; cbn; tauto. Qed.

Lemma chain_good T e (data : dict edata) p : (forall n d, dict_get data n = Some d -> lifts T d) ->
  forall pe vs gs, chain e data pe (effect_fns p) vs gs -> forall t, dict_get pe "trend" = Some t -> arr_wf t -> prod_shape (a_shape t) = T ->
  Forall (fun v => prod_shape (a_shape v) = T) vs -> Forall (good T) (concat gs).
Proof.
  intros LD. induction p as [|[name ef] p IH]; intros pe vs gs C t Gt Wt St F; cbn [effect_fns map fst snd] in C.
  - inversion C; constructor.
  - inversion C as [|pe' name' eff effs d v l vs' gs' Gd E C' E1 E2 E3 E4]. clear C. symmetry in E3, E4. subst vs gs. inversion F as [|v' vs'' Sv F' E5]. subst. cbn [concat].
    assert (Wv : arr_wf v) by (eapply predict_wf; [exact Wt|exact Gt|apply eval_yields; eauto]).
    rewrite <- app_assoc. apply Forall_app. split.
    { apply Forall_map. assert (Q : Forall (good (prod_shape (a_shape t))) l) by (apply fits_good; eapply predict_fits; [eapply LD; eauto|eauto]). eapply Forall_impl; [|exact Q]. intros [n s]. exact (fun h => h). }
    cbn [app]. constructor; [split; assumption|].
    destruct (String.eqb_spec "trend" name) as [N|N].
    + apply (IH _ _ _ C' v); auto. rewrite dict_get_set. destruct (String.eqb_spec "trend" name); congruence.
    + apply (IH _ _ _ C' t); auto. rewrite dict_get_set. destruct (String.eqb_spec "trend" name); congruence.
Qed.

Lemma tail_latent ns n (dist : arr -> distr) sh :
  latent_only (noise <~ sample "noise_scale" (DHalfNormal (scalar ns)) [] ;; n <~ lift_res n ;; _ <~ plate "data" n ;; observe "obs" (dist noise) sh None).
Proof. cbn [sample pbind latent_only]. intros v. destruct n; cbn; auto. Qed.

Lemma model_good T c s p t td data e o l : c_hier c = false -> p_has_exogenous p = true ->
  (forall n d, dict_get data n = Some d -> lifts T d) ->
  (forall v, yields e (trend_predict t td) v -> arr_wf v /\ prod_shape (a_shape v) = T) ->
  eval e (model_call c s p t td None (Some data)) = Ok (o, l) -> Forall (good T) l.
Proof.
  intros Hc He LD HT. unfold model_call. rewrite Hc, He.
  assert (M : forall m lm, eval e (compute_mean (trend_predict t td) (Some data) (Some (effect_fns (p_effects p)))) = Ok (m, lm) -> Forall (good T) lm).
  { intros m lm E. apply eval_compute_mean in E as (tv & lt & vs & gs & E1 & C & -> & F). destruct (HT tv (proj2 (eval_yields _ _ _) (ex_intro _ lt E1))) as [W S0].
    apply Forall_app. split; [apply fits_good, latent_fits; eapply trend_latent; exact E1|]. constructor; [split; assumption|].
    eapply chain_good; [exact LD|exact C|reflexivity|exact W|exact S0|]. apply sum_entries in F as (_ & F & _). eapply Forall_impl; [|exact F]. cbn beta. intros v ->. exact S0. }
  assert (K : forall (k : arr -> prog arr), (forall m, latent_only (k m)) -> eval e (pbind (compute_mean (trend_predict t td) (Some data) (Some (effect_fns (p_effects p)))) k) = Ok (o, l) -> Forall (good T) l).
  { intros k L E. rewrite eval_bind in E. apply bind_ok in E as ([m lm] & Em & E). apply bind_ok in E as ([o' lo] & Eo & E). injection E as -> <-.
    apply Forall_app. split; [eapply M; exact Em|]. apply fits_good, latent_fits. eapply latent_eval; [apply L|exact Eo]. }
  destruct (String.eqb _ "normal"); [|destruct (String.eqb _ "gamma"); [|destruct (String.eqb _ "negbinomial"); [|discriminate]]]; apply K; intros m; cbv zeta.
  - apply (tail_latent (c_noise c) (len m) (fun noise => DNormal (reshape_col m) (const_arr (a_shape (reshape_col m)) (item0 noise)))).
  - apply (tail_latent (c_noise c) (len (to_positive m)) (fun noise => gamma_reparametrized (reshape_col (to_positive m)) (item0 noise))).
  - set (m2 := arr_map _ _). apply (tail_latent (c_noise c) (len m2) (fun noise => DNegBinomial2 (reshape_col m2) (const_arr (a_shape (reshape_col m2)) (item0 noise * scale_number s)%R))).
Qed.

(** * Labels *)
Lemma no_table ns_of c y X s : well_posed ns_of c y X -> set_y_scales (c_scale c) y = Ok s -> forall tab, s <> STable tab.
Proof.
  intros W H tab ->. pose proof (wp_scale _ _ _ _ W) as HS. destruct (wp_target _ _ _ _ W) as (Wy & L & _). unfold set_y_scales in H. destruct (c_scale c) as [[k|z|t|t]|]; try contradiction.
  - cbn [bind] in H. destruct (Reqb _ _); discriminate.
  - cbn [bind] in H. destruct (Z.eqb _ _); discriminate.
  - rewrite L in H. apply bind_ok in H as (x & E & H). destruct (abs_max _); [|discriminate]. injection E as <-. destruct (Reqb _ _); discriminate.
Qed.
Lemma nth_all (times : list Z) : map (fun j => nth j times 0%Z) (seq 0 (List.length times)) = times.
Proof. symmetry. rewrite <- (map_id times) at 1. exact (map_nth_seq (fun t => t) times 0%Z). Qed.
Lemma draw_times ids times u g : map r_time (draw_rows ids times u g) = concat (repeat times (List.length ids)).
Proof.
  unfold draw_rows. rewrite flat_map_concat_map, concat_map, map_map. f_equal. generalize (List.length ids) as n. intros n. generalize 0 at 2 as k. induction n as [|n IH]; intros k; [reflexivity|].
  cbn [seq map repeat]. rewrite IH. f_equal. rewrite map_map. cbn [r_time]. apply nth_all.
Qed.
Lemma sample_labels times n (ids : list path) g :
  map (fun r => (sr_sample r, sr_time r)) (flat_map (fun s => flat_map (fun i => map (fun j => mkSR s (nth i ids []) (nth j times 0%Z) (g s i j)) (seq 0 (List.length times))) (seq 0 1)) (seq 0 n)) = list_prod (seq 0 n) times.
Proof.
  assert (G : forall k, map (fun r => (sr_sample r, sr_time r)) (flat_map (fun s => (map (fun j => mkSR s (nth 0 ids []) (nth j times 0%Z) (g s 0 j)) (seq 0 (List.length times)) ++ [])%list) (seq k n)) = list_prod (seq k n) times).
  { induction n as [|n IH]; intros k; [reflexivity|]. cbn [seq flat_map list_prod]. rewrite map_app, IH. f_equal. rewrite app_nil_r, map_map. cbn [sr_sample sr_time].
    rewrite <- (map_map (fun j => nth j times 0%Z) (fun t => (k, t))). f_equal. apply nth_all. }
  exact (G 0).
Qed.

Section Forecast.
Variable ns_of : Z -> Z.
Variable order : list string -> list string.
Variable keep : path -> bool.
Context {TS P : Type}.
Variable tr_fit_transform : TS -> frame R -> TS * res (frame R).
Variable tr_transform : TS -> frame R -> res (frame R).
Variable svi_run : Z -> nat -> nat -> prog arr -> res (list xr * P).
Variable nuts_run : Z -> nat -> nat -> nat -> prog arr -> res (nat -> nat -> env).
Variable latent_sites : prog arr -> list string.
Variable guide_draw : P -> Z -> nat -> prog arr -> env.
Variable complete_draw : env -> Z -> nat -> prog arr -> env.
Notation fit_forecaster := (fit_forecaster ns_of order keep tr_fit_transform svi_run nuts_run latent_sites).
Notation forecast_all_sites := (forecast_all_sites ns_of keep tr_transform guide_draw complete_draw).
Notation forecast_all_sites_samples := (forecast_all_sites_samples ns_of keep tr_transform guide_draw complete_draw).
Notation draws := (Engine.draws guide_draw complete_draw).

Theorem sites_total c (ob0 ob : objects (TS := TS)) y X f X2 fh cutoff : well_posed ns_of c y X -> clean_config c -> hill_data c X -> o_transformer ob0 = None ->
  fit_forecaster c ob0 y X = (ob, Ok f) ->
  (forall ys p m, scale_y (discrete c) (ft_scale f) y = Ok ys -> fit_data ns_of order keep tr_fit_transform c ob0 (ft_scale f) ys X = (ob, Ok (p, m)) -> posterior_sites (latent_sites m) m) ->
  max_time (map r_time (f_rows y)) = Ok cutoff -> NoDup (to_absolute cutoff fh) -> hill_data c X2 ->
  match X2 with None => exog_cols X = [] | Some X2 => covers X2 (to_absolute cutoff fh) /\ forall x, In x (exog_cols X) -> In x (f_cols X2) end ->
  ~ In "obs" (latent_of (ft_posterior f)) ->
  (forall m, draws (engine_of c) (ft_posterior f) m <> [] /\
     forall e, In e (draws (engine_of c) (ft_posterior f) m) -> hill_values_positive c e) ->
  (exists F, forecast_all_sites c ob f y X2 fh = (f, Ok F) /\ Permutation (map r_time (f_rows F)) (to_absolute cutoff fh)) /\
  (exists m cols rows, predict_model ns_of keep tr_transform c ob f y X2 fh = Ok m /\ forecast_all_sites_samples c ob f y X2 fh = (f, Ok (cols, rows)) /\
    map (fun r => (sr_sample r, sr_time r)) rows = list_prod (seq 0 (List.length (draws (engine_of c) (ft_posterior f) m))) (to_absolute cutoff fh)).
Proof.
  intros W CL HD HT EF LS EC NH HD2 HX2 LO DR. destruct (scale_total ns_of c y X W) as (s & Esc & Ps & ys & yt & Eys & Eyt & Eyt2 & Eor & ES).
  destruct (fit_data_total ns_of order keep tr_fit_transform c ob0 s y ys yt X W CL HD HT Esc Ps Eor Eyt Eyt2) as (ob' & p & m0 & EFD & T0 & (TR & ER & NS & HE) & EI & RM0).
  assert (EF' : fit_forecaster c ob0 y X = (ob', post <- infer svi_run nuts_run latent_sites (engine_of c) m0 ;; Ok (mkFitted s p post))).
  { unfold Forecaster.fit_forecaster. rewrite Esc. cbn [bind]. rewrite Eys. cbn [bind]. rewrite EFD. reflexivity. }
  rewrite EF in EF'. injection EF' as <- EP. symmetry in EP. destruct (infer _ _ _ _ _) as [post|] eqn:EPo; [|discriminate]. cbn [bind] in EP. injection EP as <-.
  cbn [ft_posterior] in *. set (times := to_absolute cutoff fh) in *.
  destruct (horizon_frame_ok c (exog_cols X) X2 times NH HD2 HX2) as (SH & IH & HH & LH).
  destruct (ready_model ns_of c s p (o_trend ob) (exog_cols X) (exog_cols X) (horizon_frame times X2) times) as (td & data & Etd & Edata & YM); auto; try apply W.
  set (m := model_call c s p (o_trend ob) td None (Some data)) in *.
  set (f := mkFitted s p post) in *.
  assert (EM : univariate_predict_model ns_of tr_transform c ob f y X2 fh = Ok m).
  { unfold univariate_predict_model. rewrite EC. cbn [bind]. fold times. assert (EX : match X2 with None => empty_frame 0 (map (fun t => ([], t)) times) | Some X => X end = horizon_frame times X2) by (destruct X2; reflexivity).
    rewrite EX. unfold run_transform. rewrite T0. cbn [bind]. rewrite Etd. cbn [bind]. cbn [ft_prepared f]. rewrite HE, Edata. reflexivity. }
  assert (EM' : predict_model ns_of keep tr_transform c ob f y X2 fh = Ok m) by (unfold predict_model; rewrite (wp_class _ _ _ _ W); exact EM).
  destruct (DR m) as [DN DV].
  assert (RUN : forall e, In e (draws (engine_of c) post m) -> exists o tr, run e [] m = Ok (o, tr) /\ NoDup (map fst tr) /\ NoDup (actions e m)).
  { intros e He. destruct (YM e None (DV e He)) as (o & Y). fold m in Y.
    destruct (c71_predict ns_of order keep tr_fit_transform tr_transform svi_run nuts_run latent_sites c ob0 y X ob f EF CL ob y X2 fh m) with (e := e) (o := o) as (tr & Hr & N & NA); eauto. exists o, tr. rewrite <- NA. auto. }
  destruct (engine_predict_total guide_draw complete_draw (engine_of c) post m (model_call_alike _ _ _ _ _ _ _) DN) as (d & Ed & SHP).
  { intros e He. destruct (RUN e He) as (o & tr & H1 & H2 & _). eauto. }
  destruct (draws (engine_of c) post m) as [|e0 es] eqn:ED; [congruence|]. rewrite <- ED in *. assert (I0 : In e0 (draws (engine_of c) post m)) by (rewrite ED; simpl; auto).
  set (n := List.length (draws (engine_of c) post m)) in *. assert (N0 : n <> 0) by (unfold n; rewrite ED; discriminate).
  destruct (RUN e0 I0) as (o & tr & Hr & NT & NA). specialize (SHP e0 o tr I0 Hr).
  assert (YT : forall v, yields e0 (trend_predict (o_trend ob) td) v -> arr_wf v /\ prod_shape (a_shape v) = List.length times).
  { intros v Y. destruct (trend_total ns_of (exog_cols X) (o_trend ob) (horizon_frame times X2) times TR SH IH LH) as (td' & E' & G). rewrite Etd in E'. injection E' as <-.
    destruct (G e0) as (a & Ya & Sa & Wa). rewrite (yields_det _ _ _ _ Y Ya). split; [exact Wa|]. rewrite Sa. unfold prod_shape. simpl. lia. }
  assert (GOOD : Forall (good (List.length times)) tr).
  { destruct (run_nodup_trace _ _ _ _ Hr NA) as (l & El & -> & _). eapply (model_good _ c s p (o_trend ob) td data e0 o l); auto; [apply W|]. eapply effects_lifts; exact Edata. }
  destruct (uni_drawn c s p (o_trend ob) td data e0 o tr (List.length times)) as (dd & v0 & Ho & Sv & Lv); auto; [apply W|].
  assert (PAR : forall k, k <> "obs" -> In k (parameter_names tr) -> In k (latent_of post)).
  { destruct (c87_site_names ns_of order keep tr_fit_transform tr_transform svi_run nuts_run latent_sites c ob0 y X ob f EF) as (m1 & (ys1 & Ey1 & Efd) & Sn & PS); [left; apply W|].
    cbn [ft_scale f] in Ey1, Efd. rewrite Eys in Ey1. injection Ey1 as <-. rewrite EFD in Efd. injection Efd as <-.
    intros k Hk Hn. change (latent_of post) with (site_names f). apply (PS ltac:(rewrite Sn; eapply LS; [exact Eys|exact EFD]) ob y X2 fh m EM' eq_refl _ _ _ Hr k Hk). exact Hn. }
  assert (VAL : forall k v, In (k, v) (predictive_values (latent_of post) tr) -> prod_shape (a_shape v) = List.length times /\ arr_wf v).
  { intros k v Hk. unfold predictive_values in Hk. apply in_flat_map in Hk as ([k' sv] & Hin & Hk). cbn [fst snd] in Hk. rewrite Forall_forall in GOOD. pose proof (GOOD _ Hin) as G.
    destruct sv as [ds w ob1|w|z]; cbn [good snd] in G; [|destruct Hk as [[= -> ->]|[]]; exact G|contradiction].
    destruct (str_in k' (latent_of post)) eqn:Q; [contradiction|]. destruct Hk as [[= -> ->]|[]]. destruct ob1; [exact G|].
    destruct (string_dec k "obs") as [->|No].
    - apply (dict_get_iff tr) in Hin; [|exact NT]. rewrite Ho in Hin. injection Hin as _ <-. unfold arr_wf. rewrite Sv. unfold prod_shape. cbn [fold_right]. lia.
    - exfalso. assert (In k (latent_of post)) by (apply PAR; [exact No|]; apply parameter_names_In; eauto). apply str_in_iff in H. congruence. }
  assert (DRW : forall kv, In kv d -> a_shape (snd kv) <> [] /\ prod_shape (tl (a_shape (snd kv))) = List.length times /\ hd_error (a_shape (snd kv)) = Some n /\ arr_wf (snd kv)).
  { intros kv Hkv. apply Forall2_In_both in SHP as [_ SHP]. destruct (SHP kv Hkv) as ([k v] & Hv & Ek & Ea & La). cbn [fst snd] in *. destruct (VAL _ _ Hv) as [V1 V2].
    rewrite Ea. cbn [tl hd_error]. split; [discriminate|]. split; [exact V1|]. split; [reflexivity|]. unfold arr_wf in *. rewrite La, Ea, V2. unfold prod_shape. cbn [fold_right]. reflexivity. }
  assert (DNE : d <> []).
  { intros ->. inversion SHP as [E|]. assert (IO : In ("obs", v0) (predictive_values (latent_of post) tr)).
    { apply dict_get_iff in Ho; [|exact NT]. unfold predictive_values. apply in_flat_map. exists ("obs", SSample dd v0 false). split; [exact Ho|]. cbn [fst snd].
      destruct (str_in "obs" (latent_of post)) eqn:Q; [exfalso; apply LO; now apply str_in_iff|simpl; auto]. }
    rewrite <- E in IO. exact IO. }
  destruct (wp_target _ _ _ _ W) as (Wy & L & C1 & L2).
  assert (LB : lb_levels (labeller_of c f y) = 0) by exact L.
  assert (IS : index_series (labeller_of c f y) = [[]]) by (unfold index_series; now rewrite LB).
  assert (EPS : predictive_samples_dict ns_of keep tr_transform guide_draw complete_draw c ob f y X2 fh = (f, Ok d)).
  { unfold predictive_samples_dict. rewrite (wp_class _ _ _ _ W), EM. cbn [bind ft_posterior f]. rewrite Ed. reflexivity. }
  split.
  - assert (UN : exists u, unit_of (discrete c) s [] u).
    { unfold unit_of. destruct (discrete c); [eauto|]. destruct ES as (k & ->). exists k. reflexivity. }
    destruct UN as (u & UN).
    destruct (all_sites_rows (labeller_of c f y) times d (fun _ => u)) as (F & HF & _ & _ & _ & HR).
    + intros NL. exfalso. congruence.
    + rewrite IS. discriminate.
    + intros kv Hkv. destruct (DRW kv Hkv) as (D1 & D2 & _). split; [exact D1|]. rewrite D2, IS. cbn. lia.
    + rewrite IS. intros q [<-|[]]. exact UN.
    + intros _ tab. cbn [lb_scale labeller_of]. exact (no_table ns_of c y X s W Esc tab).
    + exists F. split.
      * unfold Forecaster.forecast_all_sites, fh_to_index. rewrite EC. cbn [bind]. fold times. rewrite EPS. cbn [bind]. rewrite HF. reflexivity.
      * rewrite HR. eapply perm_trans; [apply Permutation_map; apply Permutation_sym; apply key_sort_perm|]. rewrite draw_times, IS. cbn [List.length repeat concat]. rewrite app_nil_r. reflexivity.
  - exists m. eexists _, _. split; [exact EM'|]. split.
    + unfold Forecaster.forecast_all_sites_samples, fh_to_index. rewrite EPS, EC. cbn [bind]. fold times.
      rewrite (all_sites_samples_rows (labeller_of c f y) times d n); [reflexivity| |exact DNE|].
      * intros NL. exfalso. congruence.
      * intros kv Hkv. destruct (DRW kv Hkv) as (D1 & D2 & D3 & D4). rewrite IS. cbn [List.length]. split; [exact D4|]. split; [exact D3|]. lia.
    + rewrite IS. cbn [List.length]. apply sample_labels.
Qed.
End Forecast.
