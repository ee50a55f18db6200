(** A change of units of the target: fitting and predicting. *)
From Coq Require Import Reals String Bool ZArith List Lia Lra FunctionalExtensionality.
From Verif.Model Require Import Base Num XFloat Frame Arr Expand Aggregate Scale Predict Prog Likelihood Effect TrendProg Engine Forecaster History.
From Verif.Spec Require Import FrameSpec ScaleSpec ForecasterSpec HistorySpec UnitsSpec.
From Verif.Facts Require Import BaseFacts NumFacts FrameFacts OrderFacts ScaleFacts QuantileFacts PredictFacts UnitsFacts HistoryFacts.
Import ListNotations.
Local Open Scope R_scope.

Section Units.
Variable ns_of : Z -> Z.
Variable order : list string -> list string.
Variable keep : path -> bool.
Context {TS : Type}.
Variable tr_fit_transform : TS -> frame R -> TS * res (frame R).
Variable tr_transform : TS -> frame R -> res (frame R).
Context {P : Type}.
Variable svi_run : Z -> nat -> nat -> prog arr -> res (list xr * P).
Variable nuts_run : Z -> nat -> nat -> nat -> prog arr -> res (nat -> nat -> env).
Variable latent_sites : prog arr -> list string.
Variable guide_draw : P -> Z -> nat -> prog arr -> env.
Variable complete_draw : env -> Z -> nat -> prog arr -> env.
Notation step := (step ns_of order keep tr_fit_transform tr_transform svi_run nuts_run latent_sites guide_draw complete_draw).
Notation calls := (calls ns_of order keep tr_fit_transform tr_transform svi_run nuts_run latent_sites guide_draw complete_draw).
Notation fitted := (fitted (P := P)).
Notation objects := (objects (TS := TS)).

Section Fit.
Variable kl : R.
Hypothesis klpos : 0 < kl.
Notation rc := (rescale_config kl).
Definition rp (p : prepared) : prepared :=
  mkPrepared (p_index p) (map (rfe kl) (p_fitted p)) (map (rne kl) (p_effects p)) (p_has_exogenous p) (p_expander p) (p_single p).

Lemma rc_trend c (ob : objects) : get_trend_model (rc c) ob = get_trend_model c ob.
Proof. reflexivity. Qed.
Lemma rc_engine c : engine_of (rc c) = engine_of c.
Proof. reflexivity. Qed.
Lemma rc_discrete c : discrete (rc c) = discrete c.
Proof. reflexivity. Qed.
Lemma rc_effects c : effects_of (rc c) = map (fun l : listed => (fst (fst l), rescale_effect kl (snd (fst l)), snd l)) (effects_of c).
Proof. unfold effects_of, rescale_config. simpl. destruct (c_effects c); reflexivity. Qed.

Lemma model_call_rp c s s' p t td y data : discrete c = false ->
  model_call (rc c) s' (rp p) t td y data = model_call c s p t td y data.
Proof.
  intros D. unfold model_call. cbn [p_effects rp p_single p_has_exogenous]. rewrite re_effect_fns. cbn [c_hier rescale_config c_noise c_concentration c_likelihood].
  unfold discrete in D. destruct (c_hier c); [reflexivity|]. rewrite D. reflexivity.
Qed.

Definition lift_pm (pm : prepared * prog arr) : prepared * prog arr := (rp (fst pm), snd pm).

Lemma univariate_units c (ob : objects) s s' y X : scale_number s' = kl * scale_number s -> discrete c = false ->
  univariate_fit_data ns_of order tr_fit_transform (rc c) ob s' y X =
  let '(o, r) := univariate_fit_data ns_of order tr_fit_transform c ob s y X in (o, rmap lift_pm r).
Proof.
  intros S D. unfold univariate_fit_data. rewrite rc_trend, rc_discrete, D. destruct (get_trend_model c ob) as [t|]; [|reflexivity].
  destruct (trend_fit ns_of order t X y 1) as [t' [e|]]; [reflexivity|].
  set (X1 := match X with None => _ | Some X => X end). destruct (run_fit_transform _ _ X1) as [ob' X2].
  f_equal. rewrite rmap_bind. apply bind_ext. intros X3. rewrite rmap_bind. apply bind_ext. intros X4. rewrite rmap_bind. apply bind_ext. intros td.
  rewrite S, rc_effects. change (c_default (rc c)) with (option_map (rescale_effect kl) (c_default c)). rewrite re_fit_effects.
  rewrite bind_rmap, rmap_bind. apply bind_ext. intros fs. rewrite re_transform_effects by assumption. rewrite rmap_bind. apply bind_ext. intros data.
  rewrite re_non_skipped, bind_rmap, rmap_bind. apply bind_ext. intros effs. simpl. unfold lift_pm. simpl. f_equal. f_equal.
  apply (model_call_rp c s s' (mkPrepared _ fs effs _ None false)). assumption.
Qed.

Lemma trend_fit_lift_free t X y s s' : lift_free_trend t -> trend_fit ns_of order t X y s' = trend_fit ns_of order t X y s.
Proof. destruct t as [| |e]; try reflexivity. intros H. unfold trend_fit. destruct e; try reflexivity. destruct H. Qed.

Lemma run_fit_transform_trend (ob ob' : objects) X X' : run_fit_transform tr_fit_transform ob X = (ob', X') -> o_trend ob' = o_trend ob.
Proof. unfold run_fit_transform. destruct (o_transformer ob); [destruct (tr_fit_transform _ X)|]; intros [= <- _]; reflexivity. Qed.

Lemma hierarchical_units c (ob : objects) s s' y X : scale_number s' = kl * scale_number s -> discrete c = false ->
  (forall t, get_trend_model c ob = Ok t -> lift_free_trend t) ->
  hierarchical_fit_data ns_of order keep tr_fit_transform (rc c) ob s' y X =
  let '(o, r) := hierarchical_fit_data ns_of order keep tr_fit_transform c ob s y X in (o, rmap lift_pm r).
Proof.
  intros S D T. unfold hierarchical_fit_data. destruct (loc_bottom_series (aggregate keep y)) as [yb|]; [|reflexivity].
  destruct (series_to_tensor yb) as [tensor|]; [|reflexivity]. cbv zeta.
  destruct (loc_bottom_series (match X with None => _ | Some X => _ end)) as [Xb|]; [|reflexivity].
  destruct (run_fit_transform tr_fit_transform ob Xb) as [ob' [Xb'|e]] eqn:E; [|reflexivity].
  assert (T' : forall t, get_trend_model c ob' = Ok t -> lift_free_trend t).
  { intros t. unfold get_trend_model. rewrite (run_fit_transform_trend _ _ _ _ E). apply T. }
  rewrite rc_trend. cbn [c_shared rescale_config]. set (ex := if negb (no_columns Xb') then _ else _). destruct ex as [[Xe ex]|]; [|reflexivity].
  destruct (get_trend_model c ob') as [t|] eqn:G; [|reflexivity].
  rewrite (trend_fit_lift_free t (Some Xe) yb (scale_number s) (scale_number s') (T' t eq_refl)).
  destruct (trend_fit ns_of order t (Some Xe) yb (scale_number s)) as [t' [e|]]; [reflexivity|]. f_equal.
  rewrite rmap_bind. apply bind_ext. intros td.
  rewrite S, rc_effects. change (c_default (rc c)) with (option_map (rescale_effect kl) (c_default c)). rewrite re_fit_effects.
  rewrite bind_rmap, rmap_bind. apply bind_ext. intros fs. rewrite re_transform_effects by assumption. rewrite rmap_bind. apply bind_ext. intros data.
  rewrite re_non_skipped, bind_rmap, rmap_bind. apply bind_ext. intros effs. simpl. unfold lift_pm. simpl. f_equal. f_equal.
  apply (model_call_rp c s s' (mkPrepared _ fs effs _ ex _)). assumption.
Qed.

Lemma fit_data_units c (ob : objects) s s' y X : scale_number s' = kl * scale_number s -> discrete c = false ->
  (c_hier c = true -> forall t, get_trend_model c ob = Ok t -> lift_free_trend t) ->
  fit_data ns_of order keep tr_fit_transform (rc c) ob s' y X =
  let '(o, r) := fit_data ns_of order keep tr_fit_transform c ob s y X in (o, rmap lift_pm r).
Proof.
  intros S D T. unfold fit_data. cbn [c_hier rescale_config]. destruct (c_hier c) eqn:H.
  - apply hierarchical_units; auto.
  - apply univariate_units; auto.
Qed.
End Fit.

Section Run.
Variable k : R.
Hypothesis kpos : 0 < k.
Notation rf := (rescale_frame k).

(** forecasters fitted in different units *)
Definition rel_fitted (f f' : fitted) : Prop :=
  (exists kl, 0 < kl /\ ft_prepared f' = rp kl (ft_prepared f)) /\ ft_scale f' = rescale_scale k (ft_scale f) /\ ft_posterior f' = ft_posterior f /\
  (forall t, ft_scale f <> SSeries t) /\ (forall z, ft_scale f <> SInt z).

Lemma auto_scale_kind y s : set_y_scales None y = Ok s -> forall t, s <> SSeries t.
Proof.
  unfold set_y_scales. destruct (f_levels y).
  - destruct (abs_max _); simpl; [|discriminate]. destruct (Reqb _ 0); intros [= <-]; discriminate.
  - destruct (mapM _ _); simpl; [|discriminate]. intros [= <-]; discriminate.
Qed.
Lemma auto_scale_units y s : set_y_scales None y = Ok s -> (forall z, s <> SInt z) -> scale_number (rescale_scale k s) = effect_units k y * scale_number s.
Proof.
  unfold set_y_scales, effect_units. destruct (f_levels y).
  - destruct (abs_max _); simpl; [|discriminate]. destruct (Reqb _ 0); intros [= <-] N; [destruct (N 1%Z eq_refl)|reflexivity].
  - destruct (mapM _ _); simpl; [|discriminate]. intros [= <-] _. simpl. ring.
Qed.

Lemma effect_units_pos y : 0 < effect_units k y.
Proof. unfold effect_units. destruct (f_levels y); lra. Qed.

Lemma fit_units c (ob : objects) y X : c_scale c = None -> discrete c = false -> no_zero_series y ->
  (c_hier c = true -> forall t, get_trend_model c ob = Ok t -> lift_free_trend t) ->
  let r := fit_forecaster ns_of order keep tr_fit_transform svi_run nuts_run latent_sites c ob y X in
  let r' := fit_forecaster ns_of order keep tr_fit_transform svi_run nuts_run latent_sites (rescale_config (effect_units k y) c) ob (rf y) X in
  fst r' = fst r /\ match snd r, snd r' with Ok f, Ok f' => rel_fitted f f' | Err e, Err e' => e' = e | _, _ => False end.
Proof.
  intros C D Z T. unfold fit_forecaster. rewrite rc_discrete, D. change (c_scale (rescale_config (effect_units k y) c)) with (c_scale c). rewrite C.
  rewrite (set_y_scales_rf k kpos y Z). destruct (set_y_scales None y) as [s|e] eqn:S; [|split; reflexivity]. cbn [rmap bind].
  rewrite scale_y_rf by (assumption || apply (auto_scale_kind _ _ S)). destruct (scale_y false s y) as [ys|e] eqn:E; [|split; reflexivity]. cbn [bind].
  assert (N : forall z, s <> SInt z). { intros z ->. simpl in E. discriminate. }
  rewrite (fit_data_units (effect_units k y) (effect_units_pos y) c ob s (rescale_scale k s) ys X) by (assumption || apply auto_scale_units; assumption).
  destruct (fit_data ns_of order keep tr_fit_transform c ob s ys X) as [ob' r]. split; [reflexivity|]. cbn [snd]. rewrite bind_rmap.
  destruct r as [[p m]|e]; [|reflexivity]. cbn [bind lift_pm fst snd]. rewrite rc_engine. destruct (infer _ _ _ _ _) as [post|e]; [|reflexivity]. cbn [bind].
  split; [|split; [reflexivity|split; [reflexivity|split; [exact (auto_scale_kind _ _ S)|exact N]]]].
  exists (effect_units k y). split; [apply effect_units_pos|reflexivity].
Qed.

Variable k0 : R.
Notation rc := (rescale_config k0).
Lemma model_call_any c kl s s' p t td y data : discrete c = false ->
  model_call (rc c) s' (rp kl p) t td y data = model_call c s p t td y data.
Proof. intros D. rewrite <- (model_call_rp kl c s s' p t td y data D). reflexivity. Qed.

Lemma rf_reindex y ts : map fst (reindex_time_series (rf y) ts) = map fst (reindex_time_series y ts).
Proof.
  unfold reindex_time_series. rewrite !map_map. simpl. f_equal. cbn [f_levels rescale_frame]. destruct (f_levels y) as [|n] eqn:L; [reflexivity|].
  f_equal. f_equal. unfold index_levels. cbn [f_levels rescale_frame]. apply map_ext. intros i. do 2 f_equal. rewrite rf_rows, map_map. reflexivity.
Qed.

Lemma rel_set f f' ex : rel_fitted f f' -> rel_fitted (set_expander f ex) (set_expander f' ex).
Proof.
  intros ((kl & L & E) & H). split; [|exact H]. exists kl. split; [assumption|]. unfold set_expander. simpl. rewrite E. reflexivity.
Qed.

Lemma samples_dict_units c (ob : objects) f f' y X fh : discrete c = false -> rel_fitted f f' ->
  let r := predictive_samples_dict ns_of keep tr_transform guide_draw complete_draw c ob f y X fh in
  let r' := predictive_samples_dict ns_of keep tr_transform guide_draw complete_draw (rc c) ob f' (rf y) X fh in
  rel_fitted (fst r) (fst r') /\ snd r' = snd r.
Proof.
  intros D F. assert (F0 := F). destruct F0 as ((kl & L & E) & Sc & Po & _). unfold predictive_samples_dict. cbn [c_hier rescale_config].
  destruct (c_hier c) eqn:H.
  - assert (Eq : hierarchical_predict_model ns_of keep tr_transform (rc c) ob f' (rf y) X fh = hierarchical_predict_model ns_of keep tr_transform c ob f y X fh).
    { unfold hierarchical_predict_model. rewrite E. cbn [p_index rp p_has_exogenous p_expander p_fitted]. apply bind_ext. intros cutoff.
      rewrite rf_reindex. cbn [f_levels rescale_frame]. apply bind_ext. intros Xb. apply bind_ext. intros [Xb' ex]. apply bind_ext. intros td.
      rewrite re_transform_effects by assumption. apply bind_ext. intros data. rewrite model_call_any with (s := ft_scale f) by assumption. reflexivity. }
    rewrite Eq. destruct (hierarchical_predict_model _ _ _ c ob f y X fh) as [[m ex]|e]; cbn [fst snd].
    + split; [apply rel_set; assumption|]. rewrite Po. reflexivity.
    + split; [assumption|reflexivity].
  - split; [exact F|]. cbn [fst snd].
    assert (Eq : univariate_predict_model ns_of tr_transform (rc c) ob f' (rf y) X fh = univariate_predict_model ns_of tr_transform c ob f y X fh).
    { unfold univariate_predict_model. rewrite rf_times. apply bind_ext. intros cutoff. apply bind_ext. intros X1. apply bind_ext. intros td.
      rewrite E. cbn [p_has_exogenous rp p_fitted]. rewrite re_transform_effects by assumption. apply bind_ext. intros data.
      rewrite model_call_any with (s := ft_scale f) by assumption. reflexivity. }
    rewrite Eq, Po. reflexivity.
Qed.

Lemma labeller_units c f f' y : discrete c = false -> rel_fitted f f' ->
  labeller_of (rc c) f' (rf y) = mkLab (lb_levels (labeller_of c f y)) (lb_index (labeller_of c f y)) (lb_hier (labeller_of c f y))
                                   (rescale_scale k (lb_scale (labeller_of c f y))) false.
Proof. intros D ((kl & L & E) & Sc & _). unfold labeller_of. rewrite E, Sc, rc_discrete, D. reflexivity. Qed.

Lemma fh_units y fh : fh_to_index (rf y) fh = fh_to_index y fh.
Proof. unfold fh_to_index. rewrite rf_times. reflexivity. Qed.

Lemma predict_samples_units lb times ds : lb_discrete lb = false -> (forall t, lb_scale lb <> SSeries t) -> (forall z, lb_scale lb <> SInt z) ->
  predict_samples keep (mkLab (lb_levels lb) (lb_index lb) (lb_hier lb) (rescale_scale k (lb_scale lb)) false) times ds = rmap rf (predict_samples keep lb times ds).
Proof.
  intros D N N'. unfold predict_samples. rewrite rmap_bind.
  assert (B : predict_samples_base (mkLab (lb_levels lb) (lb_index lb) (lb_hier lb) (rescale_scale k (lb_scale lb)) false) times ds = rmap rf (predict_samples_base lb times ds)).
  { unfold predict_samples_base. rewrite D. cbn [lb_levels lb_scale lb_discrete]. rewrite rmap_bind. apply bind_ext. intros obs. destruct (a_shape obs) as [|n sh]; [reflexivity|].
    rewrite rmap_bind. apply bind_ext. intros data. rewrite rmap_bind. change (periodindex_to_multiindex _ times) with (periodindex_to_multiindex lb times) at 1.
    apply bind_ext. intros ix. rewrite rmap_bind. apply bind_ext. intros preds. apply inv_scale_rf; assumption. }
  rewrite B, bind_rmap. apply bind_ext. intros s. simpl. f_equal. destruct (lb_hier lb); [|reflexivity]. apply aggregate_rf.
Qed.
Lemma all_sites_units lb times ds : lb_discrete lb = false -> (forall t, lb_scale lb <> SSeries t) -> (forall z, lb_scale lb <> SInt z) ->
  predict_all_sites (mkLab (lb_levels lb) (lb_index lb) (lb_hier lb) (rescale_scale k (lb_scale lb)) false) times ds = rmap rf (predict_all_sites lb times ds).
Proof.
  intros D N N'. unfold predict_all_sites. rewrite rmap_bind. apply bind_ext. intros sites. rewrite rmap_bind.
  change (periodindex_to_multiindex (mkLab _ _ _ _ _) times) with (periodindex_to_multiindex lb times). apply bind_ext. intros ix.
  destruct (forallb _ sites); [|reflexivity]. rewrite D. apply inv_scale_rf; assumption.
Qed.

Lemma method_units c (ob : objects) f f' y m X fh : discrete c = false -> rel_fitted f f' ->
  let r := call_method ns_of keep tr_transform guide_draw complete_draw c ob f y m X fh in
  let r' := call_method ns_of keep tr_transform guide_draw complete_draw (rc c) ob f' (rf y) m X fh in
  rel_fitted (fst r) (fst r') /\ snd r' = rescale_result k (snd r).
Proof.
  intros D F. assert (SD := samples_dict_units c ob f f' y X fh D F). assert (LA := labeller_units c f f' y D F).
  destruct F as (F1 & F2 & F3 & N & N').
  assert (F : rel_fitted f f') by (repeat split; assumption).
  assert (SA : let r := forecast_samples ns_of keep tr_transform guide_draw complete_draw c ob f y X fh in
     let r' := forecast_samples ns_of keep tr_transform guide_draw complete_draw (rc c) ob f' (rf y) X fh in
     rel_fitted (fst r) (fst r') /\ snd r' = rmap rf (snd r)).
  { unfold forecast_samples. rewrite fh_units. destruct (fh_to_index y fh) as [times|e]; [|split; [exact F|reflexivity]].
    destruct (predictive_samples_dict _ _ _ _ _ c ob f y X fh) as [g ds]. destruct (predictive_samples_dict _ _ _ _ _ (rc c) ob f' (rf y) X fh) as [g' ds'].
    cbn [fst snd] in *. destruct SD as [G ->]. split; [exact G|]. rewrite rmap_bind. apply bind_ext. intros d. rewrite LA. apply predict_samples_units; assumption. }
  destruct m as [| |alpha| |]; unfold call_method.
  - destruct (forecast_samples _ _ _ _ _ c ob f y X fh) as [g r]. destruct (forecast_samples _ _ _ _ _ (rc c) ob f' (rf y) X fh) as [g' r'].
    cbn [fst snd] in *. destruct SA as [G ->]. split; [exact G|]. destruct r; reflexivity.
  - unfold forecast_point. destruct (forecast_samples _ _ _ _ _ c ob f y X fh) as [g r]. destruct (forecast_samples _ _ _ _ _ (rc c) ob f' (rf y) X fh) as [g' r'].
    cbn [fst snd] in *. destruct SA as [G ->]. split; [exact G|]. destruct r as [fr|]; [|reflexivity]. cbn [rmap bind rescale_result rescale_output]. rewrite point_rf. reflexivity.
  - unfold forecast_quantiles. destruct (forecast_samples _ _ _ _ _ c ob f y X fh) as [g r]. destruct (forecast_samples _ _ _ _ _ (rc c) ob f' (rf y) X fh) as [g' r'].
    cbn [fst snd] in *. destruct SA as [G ->]. split; [exact G|]. destruct r as [fr|]; [|reflexivity]. cbn [rmap bind]. rewrite quantiles_rf by assumption.
    destruct (predict_quantiles alpha fr); reflexivity.
  - unfold forecast_all_sites. rewrite fh_units. destruct (fh_to_index y fh) as [times|e]; [|split; [exact F|reflexivity]].
    destruct (predictive_samples_dict _ _ _ _ _ c ob f y X fh) as [g ds]. destruct (predictive_samples_dict _ _ _ _ _ (rc c) ob f' (rf y) X fh) as [g' ds'].
    cbn [fst snd] in *. destruct SD as [G ->]. split; [exact G|]. destruct ds as [d|]; [|reflexivity]. cbn [bind]. rewrite LA. rewrite all_sites_units by assumption.
    destruct (predict_all_sites _ times d); reflexivity.
  - unfold forecast_all_sites_samples. rewrite fh_units. 
    destruct (predictive_samples_dict _ _ _ _ _ c ob f y X fh) as [g ds]. destruct (predictive_samples_dict _ _ _ _ _ (rc c) ob f' (rf y) X fh) as [g' ds'].
    cbn [fst snd] in *. destruct SD as [G ->]. split; [exact G|]. destruct ds as [d|]; [|reflexivity]. cbn [bind]. destruct (fh_to_index y fh) as [times|]; [|reflexivity]. cbn [bind].
    rewrite LA. change (predict_all_sites_samples (mkLab _ _ _ _ _) times d) with (predict_all_sites_samples (labeller_of c f y) times d).
    destruct (predict_all_sites_samples (labeller_of c f y) times d); reflexivity.
Qed.
End Run.
End Units.
