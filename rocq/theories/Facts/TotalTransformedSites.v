(** [predict_all_sites] and [predict_all_sites_samples] succeed for well-posed problems with a feature transformer. *)
From Coq Require Import Reals Lra String Bool ZArith List Permutation Lia Sorted.
From Verif.Model Require Import Base Num XFloat Frame Arr Expand Aggregate Scale Prog Likelihood Effect Trend TrendProg Engine Predict Forecaster Tensors.
From Verif.Spec Require Import FrameSpec ScaleSpec ProgSpec PredictSpec EffectSpec TrendSpec ForecasterSpec AlignSpec ShapeSpec SiteSpec PosteriorSpec TotalSpec.
From Verif.Facts Require Import BaseFacts NumFacts OrderFacts FrameFacts FrameProps ArrFacts ProgFacts MeanFacts LikelihoodFacts EffectPredict PredictFacts ForecasterFacts ForecasterInv
  ForecasterProps ModelProps EngineFacts ShapeFacts SiteFacts ComponentFacts AlikeFacts TotalFacts TotalTrend TotalFit TotalForecast PosteriorFacts TotalSites TotalTransformed.
Import ListNotations.
Local Open Scope string_scope.

Section Forecast.
Variable ns_of : Z -> Z.
Variable order : list string -> list string.
Variable keep : path -> bool.
Context {TS P : Type}.
Variable tr_fit_transform : TS -> frame R -> TS * res (frame R).
Variable tr_transform : TS -> frame R -> res (frame R).
Variable svi_run : Z -> nat -> nat -> prog arr -> res (list xr * P).
Variable nuts_run : Z -> nat -> nat -> nat -> prog arr -> res (nat -> nat -> env).
Variable latent_sites : prog arr -> list string.
Variable guide_draw : P -> Z -> nat -> prog arr -> env.
Variable complete_draw : env -> Z -> nat -> prog arr -> env.
Notation fit_forecaster := (fit_forecaster ns_of order keep tr_fit_transform svi_run nuts_run latent_sites).
Notation forecast_all_sites := (forecast_all_sites ns_of keep tr_transform guide_draw complete_draw).
Notation forecast_all_sites_samples := (forecast_all_sites_samples ns_of keep tr_transform guide_draw complete_draw).
Notation draws := (Engine.draws guide_draw complete_draw).

Theorem sites_transformed c (ob0 ob : objects (TS := TS)) y X Xt tf tf' f X2 Xt2 fh cutoff : well_posed ns_of c y (Some Xt) -> clean_config c -> hill_data c (Some Xt) -> o_transformer ob0 = Some tf ->
  tr_fit_transform tf (fit_frame y X) = (tf', Ok Xt) -> (forall x, In x (exog_cols X) -> In x (f_cols Xt)) ->
  fit_forecaster c ob0 y X = (ob, Ok f) ->
  (forall ys p m, scale_y (discrete c) (ft_scale f) y = Ok ys -> fit_data ns_of order keep tr_fit_transform c ob0 (ft_scale f) ys X = (ob, Ok (p, m)) -> posterior_sites (latent_sites m) m) ->
  max_time (map r_time (f_rows y)) = Ok cutoff -> NoDup (to_absolute cutoff fh) ->
  tr_transform tf' (horizon_frame (to_absolute cutoff fh) X2) = Ok Xt2 -> hill_data c (Some Xt2) -> covers Xt2 (to_absolute cutoff fh) -> (forall x, In x (f_cols Xt) -> In x (f_cols Xt2)) ->
  ~ In "obs" (latent_of (ft_posterior f)) ->
  (forall m, draws (engine_of c) (ft_posterior f) m <> [] /\
     forall e, In e (draws (engine_of c) (ft_posterior f) m) -> hill_values_positive c e) ->
  (exists F, forecast_all_sites c ob f y X2 fh = (f, Ok F) /\ Permutation (map r_time (f_rows F)) (to_absolute cutoff fh)) /\
  (exists m cols rows, predict_model ns_of keep tr_transform c ob f y X2 fh = Ok m /\ forecast_all_sites_samples c ob f y X2 fh = (f, Ok (cols, rows)) /\
    map (fun r => (sr_sample r, sr_time r)) rows = list_prod (seq 0 (List.length (draws (engine_of c) (ft_posterior f) m))) (to_absolute cutoff fh)).
Proof.
  intros W CL HD HT TF IC EF LS EC NH TT HD2 CV2 I2 LO DR. destruct (scale_total ns_of c y (Some Xt) W) as (s & Esc & Ps & ys & yt & Eys & Eyt & Eyt2 & Eor & ES).
  destruct (fit_data_transformed ns_of order keep tr_fit_transform c ob0 s y ys yt X Xt tf tf' W CL HD HT TF IC Esc Ps Eor Eyt Eyt2) as (ob' & p & m0 & EFD & T0 & (TR & ER & NS & HE) & EI & RM0).
  assert (EF' : fit_forecaster c ob0 y X = (ob', post <- infer svi_run nuts_run latent_sites (engine_of c) m0 ;; Ok (mkFitted s p post))).
  { unfold Forecaster.fit_forecaster. rewrite Esc. cbn [bind]. rewrite Eys. cbn [bind]. rewrite EFD. reflexivity. }
  rewrite EF in EF'. injection EF' as <- EP. symmetry in EP. destruct (infer _ _ _ _ _) as [post|] eqn:EPo; [|discriminate]. cbn [bind] in EP. injection EP as <-.
  cbn [ft_posterior] in *. set (times := to_absolute cutoff fh) in *.
  destruct (horizon_frame_ok c (f_cols Xt) (Some Xt2) times NH HD2 (conj CV2 I2)) as (SH & IH & HH & LH). cbn [horizon_frame] in SH, IH, HH, LH.
  assert (I0' : forall x, In x (columns_seen X) -> In x (f_cols Xt2)).
  { intros x Hx. apply I2, IC. destruct X as [X|]; [|exact Hx]. unfold columns_seen in Hx. cbn [exog_cols]. destruct (frame_empty X); [contradiction|exact Hx]. }
  destruct (ready_model ns_of c s p (o_trend ob) (columns_seen X) (f_cols Xt) Xt2 times) as (td & data & Etd & Edata & YM); auto; try apply W.
  set (m := model_call c s p (o_trend ob) td None (Some data)) in *.
  set (f := mkFitted s p post) in *.
  assert (EM : univariate_predict_model ns_of tr_transform c ob f y X2 fh = Ok m).
  { unfold univariate_predict_model. rewrite EC. cbn [bind]. fold times. assert (EX : match X2 with None => empty_frame 0 (map (fun t => ([], t)) times) | Some X => X end = horizon_frame times X2) by (destruct X2; reflexivity).
    rewrite EX. unfold run_transform. rewrite T0, TT. cbn [bind]. rewrite Etd. cbn [bind]. cbn [ft_prepared f]. rewrite HE, Edata. reflexivity. }
  assert (EM' : predict_model ns_of keep tr_transform c ob f y X2 fh = Ok m) by (unfold predict_model; rewrite (wp_class _ _ _ _ W); exact EM).
  destruct (DR m) as [DN DV].
  assert (RUN : forall e, In e (draws (engine_of c) post m) -> exists o tr, run e [] m = Ok (o, tr) /\ NoDup (map fst tr) /\ NoDup (actions e m)).
  { intros e He. destruct (YM e None (DV e He)) as (o & Y). fold m in Y.
    destruct (c71_predict ns_of order keep tr_fit_transform tr_transform svi_run nuts_run latent_sites c ob0 y X ob f EF CL ob y X2 fh m) with (e := e) (o := o) as (tr & Hr & N & NA); eauto. exists o, tr. rewrite <- NA. auto. }
  destruct (engine_predict_total guide_draw complete_draw (engine_of c) post m (model_call_alike _ _ _ _ _ _ _) DN) as (d & Ed & SHP).
  { intros e He. destruct (RUN e He) as (o & tr & H1 & H2 & _). eauto. }
  destruct (draws (engine_of c) post m) as [|e0 es] eqn:ED; [congruence|]. rewrite <- ED in *. assert (I0 : In e0 (draws (engine_of c) post m)) by (rewrite ED; simpl; auto).
  set (n := List.length (draws (engine_of c) post m)) in *. assert (N0 : n <> 0) by (unfold n; rewrite ED; discriminate).
  destruct (RUN e0 I0) as (o & tr & Hr & NT & NA). specialize (SHP e0 o tr I0 Hr).
  assert (YT : forall v, yields e0 (trend_predict (o_trend ob) td) v -> arr_wf v /\ prod_shape (a_shape v) = List.length times).
  { intros v Y. destruct (trend_total ns_of (columns_seen X) (o_trend ob) Xt2 times TR SH I0' LH) as (td' & E' & G). rewrite Etd in E'. injection E' as <-.
    destruct (G e0) as (a & Ya & Sa & Wa). rewrite (yields_det _ _ _ _ Y Ya). split; [exact Wa|]. rewrite Sa. unfold prod_shape. simpl. lia. }
  assert (GOOD : Forall (good (List.length times)) tr).
  { destruct (run_nodup_trace _ _ _ _ Hr NA) as (l & El & -> & _). eapply (model_good _ c s p (o_trend ob) td data e0 o l); auto; [apply W|]. eapply effects_lifts; exact Edata. }
  destruct (uni_drawn c s p (o_trend ob) td data e0 o tr (List.length times)) as (dd & v0 & Ho & Sv & Lv); auto; [apply W|].
  assert (PAR : forall k, k <> "obs" -> In k (parameter_names tr) -> In k (latent_of post)).
  { destruct (c87_site_names ns_of order keep tr_fit_transform tr_transform svi_run nuts_run latent_sites c ob0 y X ob f EF) as (m1 & (ys1 & Ey1 & Efd) & Sn & PS); [left; apply W|].
    cbn [ft_scale f] in Ey1, Efd. rewrite Eys in Ey1. injection Ey1 as <-. rewrite EFD in Efd. injection Efd as <-.
    intros k Hk Hn. change (latent_of post) with (site_names f). apply (PS ltac:(rewrite Sn; eapply LS; [exact Eys|exact EFD]) ob y X2 fh m EM' eq_refl _ _ _ Hr k Hk). exact Hn. }
  assert (VAL : forall k v, In (k, v) (predictive_values (latent_of post) tr) -> prod_shape (a_shape v) = List.length times /\ arr_wf v).
  { intros k v Hk. unfold predictive_values in Hk. apply in_flat_map in Hk as ([k' sv] & Hin & Hk). cbn [fst snd] in Hk. rewrite Forall_forall in GOOD. pose proof (GOOD _ Hin) as G.
    destruct sv as [ds w ob1|w|z]; cbn [good snd] in G; [|destruct Hk as [[= -> ->]|[]]; exact G|contradiction].
    destruct (str_in k' (latent_of post)) eqn:Q; [contradiction|]. destruct Hk as [[= -> ->]|[]]. destruct ob1; [exact G|].
    destruct (string_dec k "obs") as [->|No].
    - apply (dict_get_iff tr) in Hin; [|exact NT]. rewrite Ho in Hin. injection Hin as _ <-. unfold arr_wf. rewrite Sv. unfold prod_shape. cbn [fold_right]. lia.
    - exfalso. assert (In k (latent_of post)) by (apply PAR; [exact No|]; apply parameter_names_In; eauto). apply str_in_iff in H. congruence. }
  assert (DRW : forall kv, In kv d -> a_shape (snd kv) <> [] /\ prod_shape (tl (a_shape (snd kv))) = List.length times /\ hd_error (a_shape (snd kv)) = Some n /\ arr_wf (snd kv)).
  { intros kv Hkv. apply Forall2_In_both in SHP as [_ SHP]. destruct (SHP kv Hkv) as ([k v] & Hv & Ek & Ea & La). cbn [fst snd] in *. destruct (VAL _ _ Hv) as [V1 V2].
    rewrite Ea. cbn [tl hd_error]. split; [discriminate|]. split; [exact V1|]. split; [reflexivity|]. unfold arr_wf in *. rewrite La, Ea, V2. unfold prod_shape. cbn [fold_right]. reflexivity. }
  assert (DNE : d <> []).
  { intros ->. inversion SHP as [E|]. assert (IO : In ("obs", v0) (predictive_values (latent_of post) tr)).
    { apply dict_get_iff in Ho; [|exact NT]. unfold predictive_values. apply in_flat_map. exists ("obs", SSample dd v0 false). split; [exact Ho|]. cbn [fst snd].
      destruct (str_in "obs" (latent_of post)) eqn:Q; [exfalso; apply LO; now apply str_in_iff|simpl; auto]. }
    rewrite <- E in IO. exact IO. }
  destruct (wp_target _ _ _ _ W) as (Wy & L & C1 & L2).
  assert (LB : lb_levels (labeller_of c f y) = 0) by exact L.
  assert (IS : index_series (labeller_of c f y) = [[]]) by (unfold index_series; now rewrite LB).
  assert (EPS : predictive_samples_dict ns_of keep tr_transform guide_draw complete_draw c ob f y X2 fh = (f, Ok d)).
  { unfold predictive_samples_dict. rewrite (wp_class _ _ _ _ W), EM. cbn [bind ft_posterior f]. rewrite Ed. reflexivity. }
  split.
  - assert (UN : exists u, unit_of (discrete c) s [] u).
    { unfold unit_of. destruct (discrete c); [eauto|]. destruct ES as (k & ->). exists k. reflexivity. }
    destruct UN as (u & UN).
    destruct (all_sites_rows (labeller_of c f y) times d (fun _ => u)) as (F & HF & _ & _ & _ & HR).
    + intros NL. exfalso. congruence.
    + rewrite IS. discriminate.
    + intros kv Hkv. destruct (DRW kv Hkv) as (D1 & D2 & _). split; [exact D1|]. rewrite D2, IS. cbn. lia.
    + rewrite IS. intros q [<-|[]]. exact UN.
    + intros _ tab. cbn [lb_scale labeller_of]. exact (no_table ns_of c y (Some Xt) s W Esc tab).
    + exists F. split.
      * unfold Forecaster.forecast_all_sites, fh_to_index. rewrite EC. cbn [bind]. fold times. rewrite EPS. cbn [bind]. rewrite HF. reflexivity.
      * rewrite HR. eapply perm_trans; [apply Permutation_map; apply Permutation_sym; apply key_sort_perm|]. rewrite draw_times, IS. cbn [List.length repeat concat]. rewrite app_nil_r. reflexivity.
  - exists m. eexists _, _. split; [exact EM'|]. split.
    + unfold Forecaster.forecast_all_sites_samples, fh_to_index. rewrite EPS, EC. cbn [bind]. fold times.
      rewrite (all_sites_samples_rows (labeller_of c f y) times d n); [reflexivity| |exact DNE|].
      * intros NL. exfalso. congruence.
      * intros kv Hkv. destruct (DRW kv Hkv) as (D1 & D2 & D3 & D4). rewrite IS. cbn [List.length]. split; [exact D4|]. split; [exact D3|]. lia.
    + rewrite IS. cbn [List.length]. apply sample_labels.
Qed.
End Forecast.
