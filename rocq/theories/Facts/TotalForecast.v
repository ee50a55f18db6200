(** Valid inputs can be fitted and a covered horizon can be forecast. *)
From Coq Require Import Reals Lra String Bool ZArith List Sorted Permutation Lia.
From Verif.Model Require Import Base Num XFloat Regex Frame Arr Expand Aggregate Scale Prog Likelihood Effect Trend TrendProg Engine Predict Forecaster.
From Verif.Spec Require Import FrameSpec ScaleSpec TrendSpec ProgSpec EffectSpec ForecasterSpec AlignSpec SiteSpec ShapeSpec TotalSpec.
From Verif.Facts Require Import PredictProps BaseFacts NumFacts OrderFacts FrameFacts FrameProps ArrFacts ProgFacts MeanFacts LikelihoodFacts ScaleFacts ExpandFacts EffectFacts EffectFourier EffectPredict
  TimeFacts TrendFacts AlignFacts PredictFacts ForecasterFacts ForecasterInv ForecasterProps ForecasterTransformer CompleteFacts ShapeFacts SiteFacts AlikeFacts TotalFacts TotalTrend TotalFit.
Import ListNotations.
Local Open Scope string_scope.

(** the drawn observations have one entry for each date *)
Lemma uni_drawn c s p t td data e o tr sh : c_hier c = false -> p_has_exogenous p = true ->
  (forall v, yields e (trend_predict t td) v -> arr_wf v /\ prod_shape (a_shape v) = sh) ->
  run e [] (model_call c s p t td None (Some data)) = Ok (o, tr) ->
  exists d v, dict_get tr "obs" = Some (SSample d v false) /\ a_shape v = [sh; 1] /\ List.length (a_flat v) = sh.
Proof.
  intros Hc He HT. unfold model_call. rewrite Hc, He.
  assert (K : forall m tr1, run e [] (compute_mean (trend_predict t td) (Some data) (Some (effect_fns (p_effects p)))) = Ok (m, tr1) -> List.length (a_flat m) = sh).
  { intros m tr1 H. apply mean_shape in H as (tv & Y & H). destruct (HT tv Y) as [W E]. destruct (H W) as [Sm Wm]. unfold arr_wf in Wm. congruence. }
  assert (V : forall n, a_shape (site_value e "obs" [n; 1] None) = [n; 1] /\ List.length (a_flat (site_value e "obs" [n; 1] None)) = n).
  { intros n. unfold site_value. cbn [a_shape a_flat]. split; [reflexivity|]. rewrite map_length, seq_length. unfold prod_shape. simpl. lia. }
  destruct (String.eqb _ "normal"); [|destruct (String.eqb _ "gamma"); [|destruct (String.eqb _ "negbinomial"); [|discriminate]]].
  - unfold univariate_model. rewrite run_bind. intros H. destruct (run e [] (compute_mean _ _ _)) as [[m tr1]|] eqn:E; [|discriminate]. cbn [bind] in H.
    apply (tail_run e tr1 (c_noise c) (len m) (fun noise => DNormal (reshape_col m) (const_arr (a_shape (reshape_col m)) (item0 noise)))) in H.
    destruct H as (_ & -> & H). eexists _, _. split; [exact H|]. simpl a_shape. rewrite (K _ _ eq_refl). apply V.
  - unfold univariate_gamma_model. rewrite run_bind. intros H. destruct (run e [] (compute_mean _ _ _)) as [[m tr1]|] eqn:E; [|discriminate]. cbn [bind] in H.
    apply (tail_run e tr1 (c_noise c) (len (to_positive m)) (fun noise => gamma_reparametrized (reshape_col (to_positive m)) (item0 noise))) in H.
    destruct H as (_ & -> & H). eexists _, _. split; [exact H|]. simpl a_shape. rewrite map_length, (K _ _ eq_refl). apply V.
  - unfold univariate_negbinomial_model. rewrite run_bind. intros H. destruct (run e [] (compute_mean _ _ _)) as [[m tr1]|] eqn:E; [|discriminate]. cbn [bind] in H.
    set (m2 := arr_map (fun x => x * scale_number s)%R (to_positive m)) in *.
    apply (tail_run e tr1 (c_noise c) (len m2) (fun noise => DNegBinomial2 (reshape_col m2) (const_arr (a_shape (reshape_col m2)) (item0 noise * scale_number s)%R))) in H.
    destruct H as (_ & -> & H). eexists _, _. split; [exact H|]. simpl a_shape. rewrite !map_length, (K _ _ eq_refl). apply V.
Qed.

(** * Frames for the horizon *)
Definition horizon_frame (times : list Z) (X : option (frame R)) : frame R := match X with None => empty_frame 0 (map (fun t => ([], t)) times) | Some X => X end.

Lemma filter_count (X : frame R) times : NoDup times -> NoDup (map r_time (f_rows X)) -> (forall t, In t times -> In t (map r_time (f_rows X))) ->
  List.length (f_rows (filter_fh times X)) = List.length times.
Proof.
  intros N NX C. rewrite <- (map_length r_time). apply NoDup_same_length; [|exact N|].
  - unfold filter_fh, filter_rows. cbn [f_rows]. clear C. induction (f_rows X) as [|r rows IH]; [constructor|]. cbn [map filter] in *. inversion NX; subst.
    destruct (existsb _ _); [|auto]. cbn [map]. constructor; [|auto]. intros I. apply H1. apply in_map_iff in I as (r' & E & I). apply filter_In in I as [I _]. apply in_map_iff. eauto.
  - intros t. unfold filter_fh, filter_rows. cbn [f_rows]. rewrite in_map_iff. split.
    + intros (r & <- & I). apply filter_In in I as [_ I]. apply existsb_exists in I as (t' & I & E). apply Z.eqb_eq in E. now subst.
    + intros I. destruct (proj1 (in_map_iff _ _ _) (C t I)) as (r & E & Hr). exists r. split; [exact E|]. apply filter_In. split; [exact Hr|]. apply existsb_exists. exists t. split; [exact I|].
      apply Z.eqb_eq. exact E.
Qed.

Lemma horizon_frame_ok c cols X times : NoDup times -> hill_data c X ->
  match X with None => cols = [] | Some X => covers X times /\ forall x, In x cols -> In x (f_cols X) end ->
  single (horizon_frame times X) /\ (forall x, In x cols -> In x (f_cols (horizon_frame times X))) /\ hill_data c (Some (horizon_frame times X)) /\
  List.length (f_rows (filter_fh times (horizon_frame times X))) = List.length times.
Proof.
  intros N HD HX. destruct X as [X|]; cbn [horizon_frame].
  - destruct HX as [(W & L & NX & C) I]. split; [split; assumption|]. split; [exact I|]. split; [exact HD|]. now apply filter_count.
  - subst cols. split; [|split; [contradiction|split]].
    + apply empty_frame_single. intros pt Hp. now apply in_map_iff in Hp as (t & <- & _).
    + split; intros; intros r v Hr Hv; cbn in Hv; discriminate.
    + assert (E : map r_time (f_rows (empty_frame 0 (map (fun t => ([], t)) times))) = times).
      { unfold empty_frame. cbn [f_rows]. rewrite !map_map. cbn. apply map_id. }
      apply filter_count; rewrite ?E; auto.
Qed.

Section Forecast.
Variable ns_of : Z -> Z.
Variable order : list string -> list string.
Variable keep : path -> bool.
Context {TS P : Type}.
Variable tr_fit_transform : TS -> frame R -> TS * res (frame R).
Variable tr_transform : TS -> frame R -> res (frame R).
Variable svi_run : Z -> nat -> nat -> prog arr -> res (list xr * P).
Variable nuts_run : Z -> nat -> nat -> nat -> prog arr -> res (nat -> nat -> env).
Variable latent_sites : prog arr -> list string.
Variable guide_draw : P -> Z -> nat -> prog arr -> env.
Variable complete_draw : env -> Z -> nat -> prog arr -> env.
Notation fit_forecaster := (fit_forecaster ns_of order keep tr_fit_transform svi_run nuts_run latent_sites).
Notation forecast_point := (forecast_point ns_of keep tr_transform guide_draw complete_draw).
Notation forecast_quantiles := (forecast_quantiles ns_of keep tr_transform guide_draw complete_draw).
Notation forecast_samples := (forecast_samples ns_of keep tr_transform guide_draw complete_draw).

(** a fit of a well-posed problem gets as far as the inference engine, which receives a model that runs *)
Theorem fit_total c (ob : objects (TS := TS)) y X : well_posed ns_of c y X -> clean_config c -> hill_data c X -> o_transformer ob = None ->
  exists ob' s p m, fit_forecaster c ob y X = (ob', post <- infer svi_run nuts_run latent_sites (engine_of c) m ;; Ok (mkFitted s p post)) /\
    (forall env, hill_values_positive c env -> exists o tr, run env [] m = Ok (o, tr)) /\
    o_transformer ob' = None /\ fitted_ready c (exog_cols X) (o_trend ob') p /\ p_index p = index_of y /\ (if discrete c then True else exists k, s = SFloat k).
Proof.
  intros W CL HD HT. destruct (scale_total ns_of c y X W) as (s & Es & Ps & ys & yt & Eys & Eyt & Eyt2 & Eor & Ef).
  destruct (fit_data_total ns_of order keep tr_fit_transform c ob s y ys yt X W CL HD HT Es Ps Eor Eyt Eyt2) as (ob' & p & m & F & H1 & H2 & H3 & H4).
  exists ob', s, p, m. unfold Forecaster.fit_forecaster. rewrite Es. cbn [bind]. rewrite Eys. cbn [bind]. rewrite F. cbn [bind]. auto 10.
Qed.

(** the forecast of a fitted forecaster *)
Theorem forecast_total c (ob0 ob : objects (TS := TS)) y X f X2 fh cutoff : well_posed ns_of c y X -> clean_config c -> hill_data c X -> o_transformer ob0 = None ->
  fit_forecaster c ob0 y X = (ob, Ok f) ->
  max_time (map r_time (f_rows y)) = Ok cutoff -> NoDup (to_absolute cutoff fh) -> hill_data c X2 ->
  match X2 with None => exog_cols X = [] | Some X2 => covers X2 (to_absolute cutoff fh) /\ forall x, In x (exog_cols X) -> In x (f_cols X2) end ->
  ~ In "obs" (latent_of (ft_posterior f)) ->
  (forall m, draws guide_draw complete_draw (engine_of c) (ft_posterior f) m <> [] /\
     forall e, In e (draws guide_draw complete_draw (engine_of c) (ft_posterior f) m) -> hill_values_positive c e) ->
  exists F, forecast_samples c ob f y X2 fh = (f, Ok F) /\ Permutation (map r_time (f_rows F)) (to_absolute cutoff fh).
Proof.
  intros W CL HD HT EF EC NH HD2 HX2 LO DR. destruct (fit_total c ob0 y X W CL HD HT) as (ob' & s & p & m0 & EF' & _ & T0 & (TR & ER & NS & HE) & EI & ES).
  rewrite EF in EF'. injection EF' as <- EP. symmetry in EP. destruct (infer _ _ _ _ _) as [post|] eqn:EPo; [|discriminate]. cbn [bind] in EP. injection EP as <-.
  cbn [ft_posterior] in *. set (times := to_absolute cutoff fh) in *.
  destruct (horizon_frame_ok c (exog_cols X) X2 times NH HD2 HX2) as (SH & IH & HH & LH).
  destruct (ready_model ns_of c s p (o_trend ob) (exog_cols X) (exog_cols X) (horizon_frame times X2) times) as (td & data & Etd & Edata & YM); auto; try apply W.
  set (m := model_call c s p (o_trend ob) td None (Some data)) in *.
  set (f := mkFitted s p post) in *.
  assert (EM : univariate_predict_model ns_of tr_transform c ob f y X2 fh = Ok m).
  { unfold univariate_predict_model. rewrite EC. cbn [bind]. fold times. assert (EX : match X2 with None => empty_frame 0 (map (fun t => ([], t)) times) | Some X => X end = horizon_frame times X2) by (destruct X2; reflexivity).
    rewrite EX. unfold run_transform. rewrite T0. cbn [bind]. rewrite Etd. cbn [bind]. cbn [ft_prepared f]. rewrite HE, Edata. reflexivity. }
  destruct (DR m) as [DN DV].
  assert (RUN : forall e, In e (draws guide_draw complete_draw (engine_of c) post m) -> exists o tr, run e [] m = Ok (o, tr) /\ NoDup (map fst tr)).
  { intros e He. destruct (YM e None (DV e He)) as (o & Y). fold m in Y.
    destruct (c71_predict ns_of order keep tr_fit_transform tr_transform svi_run nuts_run latent_sites c ob0 y X ob f EF CL ob y X2 fh m) with (e := e) (o := o) as (tr & Hr & N & _); eauto.
    unfold predict_model. rewrite (wp_class _ _ _ _ W). exact EM. }
  destruct (engine_predict_total guide_draw complete_draw (engine_of c) post m (model_call_alike _ _ _ _ _ _ _) DN RUN) as (d & Ed & SHP).
  destruct (draws guide_draw complete_draw (engine_of c) post m) as [|e0 es] eqn:ED; [congruence|]. rewrite <- ED in *. assert (I0 : In e0 (draws guide_draw complete_draw (engine_of c) post m)) by (rewrite ED; simpl; auto).
  set (n := List.length (draws guide_draw complete_draw (engine_of c) post m)) in *. assert (N0 : n <> 0) by (unfold n; rewrite ED; discriminate).
  destruct (RUN e0 I0) as (o & tr & Hr & NT). specialize (SHP e0 o tr I0 Hr).
  assert (OBS : exists a, dict_item d "obs" = Ok a /\ a_shape a = [n; List.length times; 1] /\ List.length (a_flat a) = n * List.length times).
  { destruct (uni_drawn c s p (o_trend ob) td data e0 o tr (List.length times)) as (dd & v & Ho & Sv & Lv); auto; [apply W| |].
    - intros v Y. destruct (trend_total ns_of (exog_cols X) (o_trend ob) (horizon_frame times X2) times TR SH IH LH) as (td' & E' & G). rewrite Etd in E'. injection E' as <-.
      destruct (G e0) as (a & Ya & Sa & Wa). rewrite (yields_det _ _ _ _ Y Ya). split; [exact Wa|]. rewrite Sa. unfold prod_shape. simpl. lia.
    - assert (IO : In ("obs", v) (predictive_values (latent_of post) tr)).
      { apply dict_get_iff in Ho; [|exact NT]. unfold predictive_values. apply in_flat_map. exists ("obs", SSample dd v false). split; [exact Ho|]. cbn [fst snd].
        destruct (str_in "obs" (latent_of post)) eqn:Q; [exfalso; apply LO; now apply str_in_iff|simpl; auto]. }
      assert (KN : NoDup (map fst (predictive_values (latent_of post) tr))) by (apply predictive_nodup; exact NT).
      clear -SHP IO KN Sv Lv. unfold dict_item. induction SHP as [|[k1 a1] [k2 a2] l l' (E & S1 & L1) F IH]; [contradiction|]. cbn [fst snd] in *. subst k2. cbn [dict_get].
      destruct IO as [[= -> ->]|IO].
      + rewrite String.eqb_refl. exists a2. rewrite S1, L1, Sv, Lv. auto.
      + cbn [map fst] in KN. inversion KN; subst. destruct (String.eqb_spec "obs" k1) as [<-|NE]; [|apply IH; assumption]. exfalso. apply H1. apply in_map_iff. now exists ("obs", v). }
  destruct OBS as (a & Ea & Sa & La).
  unfold Forecaster.forecast_samples, fh_to_index. rewrite EC. cbn [bind]. fold times. unfold predictive_samples_dict. rewrite (wp_class _ _ _ _ W), EM. cbn [bind ft_posterior f]. rewrite Ed. cbn [bind].
  unfold predict_samples, predict_samples_base. rewrite Ea. cbn [bind]. rewrite Sa. unfold rows_of_width.
  assert (LT : List.length (a_flat (transpose a)) = n * List.length times).
  { pose proof (tabulate_wf (rev (a_shape a)) (fun idx => aget a (rev idx))) as WT. unfold arr_wf in WT. fold (transpose a) in WT. rewrite WT. unfold transpose, tabulate. cbn [a_shape]. rewrite Sa. cbn [rev app]. unfold prod_shape. cbn [fold_right]. lia. }
  rewrite LT. destruct n as [|n'] eqn:En; [congruence|]. rewrite <- En in *. rewrite (Nat.mul_comm n), Nat.mod_mul by exact N0. cbn [Nat.eqb bind]. rewrite Nat.div_mul by exact N0.
  unfold periodindex_to_multiindex, labeller_of. cbn [lb_levels lb_hier lb_scale lb_discrete]. destruct (wp_target _ _ _ _ W) as (Wy & L & C1 & L2). rewrite L. cbn [bind].
  unfold frame_of. rewrite map_length. unfold chunks at 1. rewrite map_length, seq_length, Nat.eqb_refl. cbn [bind].
  set (fr := mkFrame _ _ _). rewrite (wp_class _ _ _ _ W).
  assert (PT : Permutation (map r_time (f_rows (sort_index fr))) times).
  { unfold sort_index. cbn [f_rows]. eapply perm_trans; [apply Permutation_map; apply Permutation_sym; apply key_sort_perm|]. unfold fr. cbn [f_rows]. rewrite map_map. cbn [r_time].
    assert (G : forall (l : list Z) (rs : list (list R)), List.length rs = List.length l -> map (fun lr : path * Z * list R => snd (fst lr)) (combine (map (fun t => ([], t)) l) rs) = l).
    { induction l as [|t l IHl]; intros [|r rs] E; simpl in *; try discriminate; [reflexivity|]. f_equal. apply IHl. lia. }
    rewrite G; [reflexivity|]. unfold chunks. now rewrite map_length, seq_length. }
  unfold inv_scale_y, apply_scale. cbn [ft_scale f]. destruct (discrete c).
  - cbn [bind]. eexists. split; [reflexivity|exact PT].
  - destruct ES as (k & ->). cbn [bind]. eexists. split; [reflexivity|]. unfold map_vals. cbn [f_rows]. rewrite map_map. cbn [r_time]. exact PT.
Qed.

(** point forecasts and quantiles *)
Theorem forecast_total_methods c (ob0 ob : objects (TS := TS)) y X f X2 fh cutoff : well_posed ns_of c y X -> clean_config c -> hill_data c X -> o_transformer ob0 = None ->
  fit_forecaster c ob0 y X = (ob, Ok f) ->
  max_time (map r_time (f_rows y)) = Ok cutoff -> NoDup (to_absolute cutoff fh) -> hill_data c X2 ->
  match X2 with None => exog_cols X = [] | Some X2 => covers X2 (to_absolute cutoff fh) /\ forall x, In x (exog_cols X) -> In x (f_cols X2) end ->
  ~ In "obs" (latent_of (ft_posterior f)) ->
  (forall m, draws guide_draw complete_draw (engine_of c) (ft_posterior f) m <> [] /\
     forall e, In e (draws guide_draw complete_draw (engine_of c) (ft_posterior f) m) -> hill_values_positive c e) ->
  (exists F, forecast_point c ob f y X2 fh = (f, Ok F) /\ Permutation (map r_time (f_rows F)) (to_absolute cutoff fh)) /\
  (forall alpha, (forall a, In a alpha -> (0 <= a <= 1)%R) ->
    exists q, forecast_quantiles c ob f y X2 fh alpha = (f, Ok q) /\ Permutation (map r_time (f_rows (q_frame q))) (to_absolute cutoff fh)).
Proof.
  intros. destruct (forecast_total c ob0 ob y X f X2 fh cutoff) as (F & E & PF); auto. unfold Forecaster.forecast_point, Forecaster.forecast_quantiles. rewrite E. cbn [bind]. split.
  - eexists. split; [reflexivity|]. unfold point_forecast. cbn [f_rows]. rewrite map_map. exact PF.
  - intros alpha HA. destruct (c60_ok alpha F HA) as (q & Eq). exists q. rewrite Eq. split; [reflexivity|]. unfold predict_quantiles in Eq. destruct (forallb _ _); [|discriminate]. injection Eq as <-.
    cbn [q_frame f_rows]. rewrite map_map. exact PF.
Qed.

(** any two runs of the model of a prediction record the same sites with the same shapes *)
Lemma trace_layout t t' : trace_like t t' -> layout t = layout t'.
Proof.
  induction 1 as [|[k x] [k' x'] t t' [E L] F IH]; [reflexivity|]. cbn in *. subst k'. unfold layout in *. cbn [map]. rewrite IH. f_equal. cbn. f_equal.
  destruct x, x'; cbn in *; try contradiction; subst; try reflexivity; [destruct L as [[L _] _]|destruct L as [L _]]; exact L.
Qed.
Theorem c79_runs c (ob0 ob : objects (TS := TS)) y X f ob2 y2 X2 fh m : fit_forecaster c ob0 y X = (ob, Ok f) -> clean_config c ->
  predict_model ns_of keep tr_transform c ob2 f y2 X2 fh = Ok m ->
  forall e e' o o' tr tr', run e [] m = Ok (o, tr) -> run e' [] m = Ok (o', tr') -> layout tr = layout tr'.
Proof.
  intros H CL Hm e e' o o' tr tr' R1 R2. destruct (forecaster_clean ns_of order keep tr_fit_transform svi_run nuts_run latent_sites _ _ _ _ _ _ H CL) as (_ & _ & HX).
  destruct (predict_inv _ _ _ _ _ _ _ _ _ _ Hm HX) as (Xe & td & times & data & _ & _ & ->). apply trace_layout.
  eapply (run_like like e e' _ _ (model_call_alike _ _ _ _ _ _ _)); [constructor|exact R1|exact R2].
Qed.
Theorem c79_stack c (ob0 ob : objects (TS := TS)) y X f ob2 y2 X2 fh m : fit_forecaster c ob0 y X = (ob, Ok f) -> clean_config c ->
  predict_model ns_of keep tr_transform c ob2 f y2 X2 fh = Ok m ->
  let ds := draws guide_draw complete_draw (engine_of c) (ft_posterior f) m in
  ds <> [] -> (forall e, In e ds -> exists o, yields e m o) ->
  exists d, engine_predict guide_draw complete_draw (engine_of c) (ft_posterior f) m = Ok d /\
    forall e o tr, In e ds -> run e [] m = Ok (o, tr) ->
      map (fun x => (fst x, a_shape (snd x))) d = map (fun x => (fst x, List.length ds :: snd x)) (layout (filter (returned (latent_of (ft_posterior f))) tr)).
Proof.
  intros H CL Hm ds DN DY. pose proof Hm as Hm0. destruct (forecaster_clean ns_of order keep tr_fit_transform svi_run nuts_run latent_sites _ _ _ _ _ _ H CL) as (_ & _ & HX).
  destruct (predict_inv _ _ _ _ _ _ _ _ _ _ Hm HX) as (Xe & td & times & data & _ & _ & Em).
  destruct (engine_predict_total guide_draw complete_draw (engine_of c) (ft_posterior f) m) as (d & Ed & SHP); [rewrite Em; apply model_call_alike|exact DN| |].
  - intros e He. destruct (DY e He) as (o & Y).
    destruct (c71_predict ns_of order keep tr_fit_transform tr_transform svi_run nuts_run latent_sites c ob0 y X ob f H CL ob2 y2 X2 fh m Hm0 e o Y) as (tr & Hr & N & _). eauto.
  - exists d. split; [exact Ed|]. intros e o tr He Hr. specialize (SHP e o tr He Hr). fold ds in SHP.
    assert (G : map (fun x : string * arr => (fst x, List.length ds :: a_shape (snd x))) (predictive_values (latent_of (ft_posterior f)) tr) =
                map (fun x => (fst x, List.length ds :: snd x)) (layout (filter (returned (latent_of (ft_posterior f))) tr))).
    { clear. induction tr as [|[k x] tr IH]; [reflexivity|]. unfold predictive_values in *. cbn [flat_map filter returned fst snd]. rewrite map_app, IH.
      destruct x as [dd v o|v|n]; cbn [snd fst]; [|reflexivity|reflexivity]. unfold returned. cbn [fst snd]. destruct (str_in k _) eqn:Q.
      - destruct (existsb _ _) eqn:Q'; [reflexivity|]. apply str_in_iff in Q. exfalso. rewrite <- not_true_iff_false in Q'. apply Q'. apply existsb_exists. exists k. split; [exact Q|apply String.eqb_refl].
      - destruct (existsb _ _) eqn:Q'; [|reflexivity]. apply existsb_exists in Q' as (k' & I & E). apply String.eqb_eq in E. subst k'. apply str_in_iff in I. congruence. }
    rewrite <- G. clear -SHP. induction SHP as [|[k1 a1] [k2 a2] l l' (E & S1 & _) F IH]; [reflexivity|]. cbn in *. subst k2. rewrite S1, IH. reflexivity.
Qed.
End Forecast.
