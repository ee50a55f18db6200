(** Valid inputs can be fitted and forecast: one series with a feature transformer. *)
From Coq Require Import Reals Lra String Bool ZArith List Sorted Permutation Lia.
From Verif.Model Require Import Base Num XFloat Regex Frame Arr Expand Aggregate Scale Prog Likelihood Effect Trend TrendProg Engine Predict Forecaster.
From Verif.Spec Require Import FrameSpec ScaleSpec TrendSpec ProgSpec EffectSpec ForecasterSpec AlignSpec SiteSpec ShapeSpec TotalSpec.
From Verif.Facts Require Import PredictProps BaseFacts NumFacts OrderFacts FrameFacts FrameProps ArrFacts ProgFacts MeanFacts LikelihoodFacts ScaleFacts ExpandFacts EffectFacts EffectFourier EffectPredict
  TimeFacts TrendFacts AlignFacts PredictFacts ForecasterFacts ForecasterInv ForecasterProps ForecasterTransformer CompleteFacts ShapeFacts SiteFacts AlikeFacts TotalFacts TotalTrend TotalFit TotalForecast.
Import ListNotations.
Local Open Scope string_scope.

(** what remains of a fit: the trend can be evaluated on data with the columns [cols0], the effects on data with [cols] *)
Definition fitted_over (c : config) (cols0 cols : list string) (t : trend) (p : prepared) : Prop :=
  trend_ready cols0 t /\ effects_ready c cols (p_fitted p) /\ non_skipped (p_fitted p) = Ok (p_effects p) /\ p_has_exogenous p = true.

Section Fit.
Variable ns_of : Z -> Z.
Variable order : list string -> list string.
Variable keep : path -> bool.
Context {TS : Type}.
Variable tr_fit_transform : TS -> frame R -> TS * res (frame R).
Lemma fit_data_transformed c (ob : objects (TS := TS)) s y ys yt X Xt tf tf' : well_posed ns_of c y (Some Xt) -> clean_config c -> hill_data c (Some Xt) -> o_transformer ob = Some tf ->
  tr_fit_transform tf (fit_frame y X) = (tf', Ok Xt) -> (forall x, In x (exog_cols X) -> In x (f_cols Xt)) ->
  set_y_scales (c_scale c) y = Ok s -> (0 < scale_number s)%R ->
  (ys = y \/ ys = divided (scale_number s) y) -> (if discrete c then divide_target s ys else Ok ys) = Ok yt -> yt = divided (scale_number s) y ->
  exists ob' p m, fit_data ns_of order keep tr_fit_transform c ob s ys X = (ob', Ok (p, m)) /\ o_transformer ob' = Some tf' /\
    fitted_over c (columns_seen X) (f_cols Xt) (o_trend ob') p /\ p_index p = index_of y /\ 
    forall env, hill_values_positive c env -> exists o tr, run env [] m = Ok (o, tr).
Proof.
  intros W CL HD HT TF IC Es Ps Eys Eyt Eyt2. destruct (wp_target _ _ _ _ W) as (Wy & L & C1 & L2). assert (Sy : single y) by (split; assumption).
  pose proof (nodup_increasing _ (wp_dates _ _ _ _ W)) as ND. pose proof (wp_exog _ _ _ _ W) as WX.
  assert (Sys : single ys) by (destruct Eys as [->| ->]; [exact Sy|apply divided_single; exact Sy]).
  assert (Tys : map r_time (f_rows ys) = map r_time (f_rows y)) by (destruct Eys as [->| ->]; [reflexivity|apply divided_times]).
  assert (Iys : index_of ys = index_of y) by (rewrite (single_index ys Sys), (single_index y Sy); congruence).
  assert (Nys : f_rows y <> []) by (destruct (f_rows y); [simpl in L2; lia|discriminate]).
  assert (Lys : f_levels ys = 0) by apply Sys.
  assert (Tids : time_ids ys = map r_time (f_rows y)) by (unfold time_ids; rewrite Tys; now apply times_unique_id).
  destruct (wp_trend _ _ _ _ W) as (name & Et & HN).
  destruct (trend_fit_total ns_of order c name X (divided (scale_number s) y)) as (t & t' & E1 & E2 & TR).
  { now apply divided_single. } { rewrite divided_rows, map_length. exact L2. } { now rewrite divided_times. } { rewrite divided_times. apply W. }
  { apply W. } { apply W. }
  { destruct HN as [HN|[-> HN]]; [simpl in HN; intuition|]. right; right; right. split; [reflexivity|]. apply detrended_line; auto; [now apply target_line_positive|]. intros r Hr. rewrite <- C1. now apply Wy. }
  assert (CS : forall x, In x (columns_seen X) -> In x (f_cols Xt)).
  { intros x Hx. apply IC. destruct X as [X|]; [|exact Hx]. unfold columns_seen in Hx. cbn [exog_cols]. destruct (frame_empty X); [contradiction|exact Hx]. }
  unfold fit_data. rewrite (wp_class _ _ _ _ W). unfold univariate_fit_data, get_trend_model. rewrite Et, E1, Eyt, Eyt2, E2.
  unfold run_fit_transform. cbn [o_transformer o_trend]. rewrite HT.
  assert (EX : match X with None => empty_frame (f_levels ys) (index_of ys) | Some X => X end = fit_frame y X) by (destruct X; [reflexivity|]; cbn [fit_frame]; rewrite Lys, L, Iys; reflexivity).
  rewrite EX. clear EX. rewrite TF. cbn [bind]. rewrite Iys.
  destruct (fit_frame_covers y (Some Xt) Sy ND WX) as (SX & CX & NX & IX). cbn [fit_frame exog_cols] in SX, CX, NX, IX. destruct (loc_index_total _ _ IX) as (Xe & EL). rewrite EL. cbn [bind].
  destruct (located_frame _ _ (map r_time (f_rows y)) _ SX NX (single_index y Sy) EL) as (SXe & CXe & LXe & RXe).
  rewrite Tids.
  assert (FF : filter_fh (map r_time (f_rows y)) Xe = Xe) by (apply filter_fh_all; intros r Hr; now apply RXe).
  assert (NXe : f_rows Xe <> []) by (rewrite map_length in LXe; destruct (f_rows Xe); [simpl in LXe; lia|discriminate]).
  destruct (fit_effects_total order (c_default c) (effects_of c) Xe (scale_number s) SXe NXe) as (fitted & EF & FR).
  { rewrite CXe. apply W. } { unfold leftover. rewrite CXe. apply W. }
  assert (ER : effects_ready c (f_cols Xt) fitted).
  { unfold effects_ready. rewrite Forall_forall in *. intros f Hf. destruct (FR f Hf) as [F1 F2]. rewrite CXe in F1. split; [exact F1|]. destruct F2 as [F2|(F2 & F3 & F4)]; [left; exact F2|right].
    split; [exact F2|]. split; [exact F3|]. intros x Hx. apply F4. exact Hx. }
  assert (ER' : Forall (entry_ready (f_cols Xe)) fitted) by (rewrite Forall_forall in *; intros f Hf; now apply FR).
  destruct (effects_total fitted Xe (map r_time (f_rows y)) SXe ER') as (effs & data & Ed & En & _ & _).
  set (p := mkPrepared (index_of y) fitted effs (truthy (invert (no_columns Xt))) None false).
  assert (HX : p_has_exogenous p = true) by (cbn; destruct (no_columns _); reflexivity).
  destruct (ready_model ns_of c s p t' (columns_seen X) (f_cols Xt) Xe (map r_time (f_rows y))) as (td & data' & Etd & Ed' & YM); auto.
  { apply W. } { apply W. } { intros x. rewrite CXe. apply CS. } { intros x. now rewrite CXe. }
  { apply (located_hill c Xt Xe); [intros r Hr; now apply RXe|exact CXe|exact HD]. }
  { rewrite FF, map_length. rewrite map_length in LXe. exact LXe. }
  rewrite Etd, EF. cbn [bind]. rewrite Ed, En. cbn [bind]. cbn [p_fitted p] in Ed'. rewrite Ed in Ed'. injection Ed' as <-. fold p.
  eexists _, p, _. split; [reflexivity|]. cbn [o_transformer o_trend]. split; [reflexivity|]. split; [repeat split; assumption|]. split; [reflexivity|].
  intros env HV.
  match goal with |- exists o tr, run env [] ?m = _ => assert (FD : fit_data ns_of order keep tr_fit_transform c ob s ys X = (mkObjects t' (Some tf'), Ok (p, m))) end.
  { unfold fit_data. rewrite (wp_class _ _ _ _ W). unfold univariate_fit_data, get_trend_model. rewrite Et, E1, Eyt, Eyt2, E2. unfold run_fit_transform. cbn [o_transformer o_trend]. rewrite HT.
    assert (EX : match X with None => empty_frame (f_levels ys) (index_of ys) | Some X => X end = fit_frame y X) by (destruct X; [reflexivity|]; cbn [fit_frame]; rewrite Lys, L, Iys; reflexivity).
    rewrite EX, TF. cbn [bind]. rewrite Iys, EL. cbn [bind]. rewrite Tids, Etd, EF. cbn [bind]. rewrite Ed, En. reflexivity. }
  match type of FD with _ = (_, Ok (_, ?m)) => destruct (YM env (Some (reshape_col (mkArr [] (flat_map r_vals (f_rows ys))))) HV) as (o & Y) end.
  destruct (c71_fit _ _ _ _ _ _ _ _ _ _ _ _ FD CL env o Y) as (tr & Hr & _). eauto.
Qed.
End Fit.

Section Forecast.
Variable ns_of : Z -> Z.
Variable order : list string -> list string.
Variable keep : path -> bool.
Context {TS P : Type}.
Variable tr_fit_transform : TS -> frame R -> TS * res (frame R).
Variable tr_transform : TS -> frame R -> res (frame R).
Variable svi_run : Z -> nat -> nat -> prog arr -> res (list xr * P).
Variable nuts_run : Z -> nat -> nat -> nat -> prog arr -> res (nat -> nat -> env).
Variable latent_sites : prog arr -> list string.
Variable guide_draw : P -> Z -> nat -> prog arr -> env.
Variable complete_draw : env -> Z -> nat -> prog arr -> env.
Notation fit_forecaster := (fit_forecaster ns_of order keep tr_fit_transform svi_run nuts_run latent_sites).
Notation forecast_point := (forecast_point ns_of keep tr_transform guide_draw complete_draw).
Notation forecast_quantiles := (forecast_quantiles ns_of keep tr_transform guide_draw complete_draw).
Notation forecast_samples := (forecast_samples ns_of keep tr_transform guide_draw complete_draw).

(** a fit of a well-posed problem gets as far as the inference engine, which receives a model that runs *)
Theorem fit_transformed c (ob : objects (TS := TS)) y X Xt tf tf' : well_posed ns_of c y (Some Xt) -> clean_config c -> hill_data c (Some Xt) -> o_transformer ob = Some tf ->
  tr_fit_transform tf (fit_frame y X) = (tf', Ok Xt) -> (forall x, In x (exog_cols X) -> In x (f_cols Xt)) ->
  exists ob' s p m, fit_forecaster c ob y X = (ob', post <- infer svi_run nuts_run latent_sites (engine_of c) m ;; Ok (mkFitted s p post)) /\
    (forall env, hill_values_positive c env -> exists o tr, run env [] m = Ok (o, tr)) /\
    o_transformer ob' = Some tf' /\ fitted_over c (columns_seen X) (f_cols Xt) (o_trend ob') p /\ p_index p = index_of y /\ (if discrete c then True else exists k, s = SFloat k).
Proof.
  intros W CL HD HT TF IC. destruct (scale_total ns_of c y (Some Xt) W) as (s & Es & Ps & ys & yt & Eys & Eyt & Eyt2 & Eor & Ef).
  destruct (fit_data_transformed ns_of order keep tr_fit_transform c ob s y ys yt X Xt tf tf' W CL HD HT TF IC Es Ps Eor Eyt Eyt2) as (ob' & p & m & F & H1 & H2 & H3 & H4).
  exists ob', s, p, m. unfold Forecaster.fit_forecaster. rewrite Es. cbn [bind]. rewrite Eys. cbn [bind]. rewrite F. cbn [bind]. auto 10.
Qed.

(** the forecast of a fitted forecaster *)
Theorem forecast_transformed c (ob0 ob : objects (TS := TS)) y X Xt tf tf' f X2 Xt2 fh cutoff : well_posed ns_of c y (Some Xt) -> clean_config c -> hill_data c (Some Xt) -> o_transformer ob0 = Some tf ->
  tr_fit_transform tf (fit_frame y X) = (tf', Ok Xt) -> (forall x, In x (exog_cols X) -> In x (f_cols Xt)) ->
  fit_forecaster c ob0 y X = (ob, Ok f) ->
  max_time (map r_time (f_rows y)) = Ok cutoff -> NoDup (to_absolute cutoff fh) ->
  tr_transform tf' (horizon_frame (to_absolute cutoff fh) X2) = Ok Xt2 -> hill_data c (Some Xt2) -> covers Xt2 (to_absolute cutoff fh) -> (forall x, In x (f_cols Xt) -> In x (f_cols Xt2)) ->
  ~ In "obs" (latent_of (ft_posterior f)) ->
  (forall m, draws guide_draw complete_draw (engine_of c) (ft_posterior f) m <> [] /\
     forall e, In e (draws guide_draw complete_draw (engine_of c) (ft_posterior f) m) -> hill_values_positive c e) ->
  exists F, forecast_samples c ob f y X2 fh = (f, Ok F) /\ Permutation (map r_time (f_rows F)) (to_absolute cutoff fh).
Proof.
  intros W CL HD HT TF IC EF EC NH TT HD2 CV2 I2 LO DR. destruct (fit_transformed c ob0 y X Xt tf tf' W CL HD HT TF IC) as (ob' & s & p & m0 & EF' & _ & T0 & (TR & ER & NS & HE) & EI & ES).
  rewrite EF in EF'. injection EF' as <- EP. symmetry in EP. destruct (infer _ _ _ _ _) as [post|] eqn:EPo; [|discriminate]. cbn [bind] in EP. injection EP as <-.
  cbn [ft_posterior] in *. set (times := to_absolute cutoff fh) in *.
  destruct (horizon_frame_ok c (f_cols Xt) (Some Xt2) times NH HD2 (conj CV2 I2)) as (SH & IH & HH & LH). cbn [horizon_frame] in SH, IH, HH, LH.
  assert (I0' : forall x, In x (columns_seen X) -> In x (f_cols Xt2)).
  { intros x Hx. apply I2, IC. destruct X as [X|]; [|exact Hx]. unfold columns_seen in Hx. cbn [exog_cols]. destruct (frame_empty X); [contradiction|exact Hx]. }
  destruct (ready_model ns_of c s p (o_trend ob) (columns_seen X) (f_cols Xt) Xt2 times) as (td & data & Etd & Edata & YM); auto; try apply W.
  set (m := model_call c s p (o_trend ob) td None (Some data)) in *.
  set (f := mkFitted s p post) in *.
  assert (EM : univariate_predict_model ns_of tr_transform c ob f y X2 fh = Ok m).
  { unfold univariate_predict_model. rewrite EC. cbn [bind]. fold times. assert (EX : match X2 with None => empty_frame 0 (map (fun t => ([], t)) times) | Some X => X end = horizon_frame times X2) by (destruct X2; reflexivity).
    rewrite EX. unfold run_transform. rewrite T0, TT. cbn [bind]. rewrite Etd. cbn [bind]. cbn [ft_prepared f]. rewrite HE, Edata. reflexivity. }
  destruct (DR m) as [DN DV].
  assert (RUN : forall e, In e (draws guide_draw complete_draw (engine_of c) post m) -> exists o tr, run e [] m = Ok (o, tr) /\ NoDup (map fst tr)).
  { intros e He. destruct (YM e None (DV e He)) as (o & Y). fold m in Y.
    destruct (c71_predict ns_of order keep tr_fit_transform tr_transform svi_run nuts_run latent_sites c ob0 y X ob f EF CL ob y X2 fh m) with (e := e) (o := o) as (tr & Hr & N & _); eauto.
    unfold predict_model. rewrite (wp_class _ _ _ _ W). exact EM. }
  destruct (engine_predict_total guide_draw complete_draw (engine_of c) post m (model_call_alike _ _ _ _ _ _ _) DN RUN) as (d & Ed & SHP).
  destruct (draws guide_draw complete_draw (engine_of c) post m) as [|e0 es] eqn:ED; [congruence|]. rewrite <- ED in *. assert (I0 : In e0 (draws guide_draw complete_draw (engine_of c) post m)) by (rewrite ED; simpl; auto).
  set (n := List.length (draws guide_draw complete_draw (engine_of c) post m)) in *. assert (N0 : n <> 0) by (unfold n; rewrite ED; discriminate).
  destruct (RUN e0 I0) as (o & tr & Hr & NT). specialize (SHP e0 o tr I0 Hr).
  assert (OBS : exists a, dict_item d "obs" = Ok a /\ a_shape a = [n; List.length times; 1] /\ List.length (a_flat a) = n * List.length times).
  { destruct (uni_drawn c s p (o_trend ob) td data e0 o tr (List.length times)) as (dd & v & Ho & Sv & Lv); auto; [apply W| |].
    - intros v Y. destruct (trend_total ns_of (columns_seen X) (o_trend ob) Xt2 times TR SH I0' LH) as (td' & E' & G). rewrite Etd in E'. injection E' as <-.
      destruct (G e0) as (a & Ya & Sa & Wa). rewrite (yields_det _ _ _ _ Y Ya). split; [exact Wa|]. rewrite Sa. unfold prod_shape. simpl. lia.
    - assert (IO : In ("obs", v) (predictive_values (latent_of post) tr)).
      { apply dict_get_iff in Ho; [|exact NT]. unfold predictive_values. apply in_flat_map. exists ("obs", SSample dd v false). split; [exact Ho|]. cbn [fst snd].
        destruct (str_in "obs" (latent_of post)) eqn:Q; [exfalso; apply LO; now apply str_in_iff|simpl; auto]. }
      assert (KN : NoDup (map fst (predictive_values (latent_of post) tr))) by (apply predictive_nodup; exact NT).
      clear -SHP IO KN Sv Lv. unfold dict_item. induction SHP as [|[k1 a1] [k2 a2] l l' (E & S1 & L1) F IH]; [contradiction|]. cbn [fst snd] in *. subst k2. cbn [dict_get].
      destruct IO as [[= -> ->]|IO].
      + rewrite String.eqb_refl. exists a2. rewrite S1, L1, Sv, Lv. auto.
      + cbn [map fst] in KN. inversion KN; subst. destruct (String.eqb_spec "obs" k1) as [<-|NE]; [|apply IH; assumption]. exfalso. apply H1. apply in_map_iff. now exists ("obs", v). }
  destruct OBS as (a & Ea & Sa & La).
  unfold Forecaster.forecast_samples, fh_to_index. rewrite EC. cbn [bind]. fold times. unfold predictive_samples_dict. rewrite (wp_class _ _ _ _ W), EM. cbn [bind ft_posterior f]. rewrite Ed. cbn [bind].
  unfold predict_samples, predict_samples_base. rewrite Ea. cbn [bind]. rewrite Sa. unfold rows_of_width.
  assert (LT : List.length (a_flat (transpose a)) = n * List.length times).
  { pose proof (tabulate_wf (rev (a_shape a)) (fun idx => aget a (rev idx))) as WT. unfold arr_wf in WT. fold (transpose a) in WT. rewrite WT. unfold transpose, tabulate. cbn [a_shape]. rewrite Sa. cbn [rev app]. unfold prod_shape. cbn [fold_right]. lia. }
  rewrite LT. destruct n as [|n'] eqn:En; [congruence|]. rewrite <- En in *. rewrite (Nat.mul_comm n), Nat.mod_mul by exact N0. cbn [Nat.eqb bind]. rewrite Nat.div_mul by exact N0.
  unfold periodindex_to_multiindex, labeller_of. cbn [lb_levels lb_hier lb_scale lb_discrete]. destruct (wp_target _ _ _ _ W) as (Wy & L & C1 & L2). rewrite L. cbn [bind].
  unfold frame_of. rewrite map_length. unfold chunks at 1. rewrite map_length, seq_length, Nat.eqb_refl. cbn [bind].
  set (fr := mkFrame _ _ _). rewrite (wp_class _ _ _ _ W).
  assert (PT : Permutation (map r_time (f_rows (sort_index fr))) times).
  { unfold sort_index. cbn [f_rows]. eapply perm_trans; [apply Permutation_map; apply Permutation_sym; apply key_sort_perm|]. unfold fr. cbn [f_rows]. rewrite map_map. cbn [r_time].
    assert (G : forall (l : list Z) (rs : list (list R)), List.length rs = List.length l -> map (fun lr : path * Z * list R => snd (fst lr)) (combine (map (fun t => ([], t)) l) rs) = l).
    { induction l as [|t l IHl]; intros [|r rs] E; simpl in *; try discriminate; [reflexivity|]. f_equal. apply IHl. lia. }
    rewrite G; [reflexivity|]. unfold chunks. now rewrite map_length, seq_length. }
  unfold inv_scale_y, apply_scale. cbn [ft_scale f]. destruct (discrete c).
  - cbn [bind]. eexists. split; [reflexivity|exact PT].
  - destruct ES as (k & ->). cbn [bind]. eexists. split; [reflexivity|]. unfold map_vals. cbn [f_rows]. rewrite map_map. cbn [r_time]. exact PT.
Qed.

(** point forecasts and quantiles *)
Theorem forecast_transformed_methods c (ob0 ob : objects (TS := TS)) y X Xt tf tf' f X2 Xt2 fh cutoff : well_posed ns_of c y (Some Xt) -> clean_config c -> hill_data c (Some Xt) -> o_transformer ob0 = Some tf ->
  tr_fit_transform tf (fit_frame y X) = (tf', Ok Xt) -> (forall x, In x (exog_cols X) -> In x (f_cols Xt)) ->
  fit_forecaster c ob0 y X = (ob, Ok f) ->
  max_time (map r_time (f_rows y)) = Ok cutoff -> NoDup (to_absolute cutoff fh) ->
  tr_transform tf' (horizon_frame (to_absolute cutoff fh) X2) = Ok Xt2 -> hill_data c (Some Xt2) -> covers Xt2 (to_absolute cutoff fh) -> (forall x, In x (f_cols Xt) -> In x (f_cols Xt2)) ->
  ~ In "obs" (latent_of (ft_posterior f)) ->
  (forall m, draws guide_draw complete_draw (engine_of c) (ft_posterior f) m <> [] /\
     forall e, In e (draws guide_draw complete_draw (engine_of c) (ft_posterior f) m) -> hill_values_positive c e) ->
  (exists F, forecast_point c ob f y X2 fh = (f, Ok F) /\ Permutation (map r_time (f_rows F)) (to_absolute cutoff fh)) /\
  (forall alpha, (forall a, In a alpha -> (0 <= a <= 1)%R) ->
    exists q, forecast_quantiles c ob f y X2 fh alpha = (f, Ok q) /\ Permutation (map r_time (f_rows (q_frame q))) (to_absolute cutoff fh)).
Proof.
  intros. destruct (forecast_transformed c ob0 ob y X Xt tf tf' f X2 Xt2 fh cutoff) as (F & E & PF); auto. unfold Forecaster.forecast_point, Forecaster.forecast_quantiles. rewrite E. cbn [bind]. split.
  - eexists. split; [reflexivity|]. unfold point_forecast. cbn [f_rows]. rewrite map_map. exact PF.
  - intros alpha HA. destruct (c60_ok alpha F HA) as (q & Eq). exists q. rewrite Eq. split; [reflexivity|]. unfold predict_quantiles in Eq. destruct (forallb _ _); [|discriminate]. injection Eq as <-.
    cbn [q_frame f_rows]. rewrite map_map. exact PF.
Qed.

End Forecast.
