(** Tables of components of panels with a feature transformer, and without inputs. *)
From Coq Require Import Reals Lra String Bool ZArith List Sorted Permutation Lia.
From Verif.Model Require Import Base Num XFloat Regex Frame Arr Expand Aggregate Scale Prog Likelihood Effect Trend TrendProg Engine Predict Forecaster.
From Verif.Spec Require Import TotalSpec RegexSpec FrameSpec ScaleSpec PredictSpec TrendSpec ProgSpec EffectSpec ForecasterSpec AlignSpec SiteSpec ShapeSpec ComponentSpec OverlapSpec DocsSpec ResponseSpec DrawSpec TableSpec.
From Verif.Facts Require Import BaseFacts NumFacts ForecasterFacts ForecasterInv ForecasterProps EffectExamples ForecasterExamples EngineExamples HistoryExamples AlignExamples PanelRuns ComponentExamples CounterExamples OverlapExamples TotalExamples
  DocsExamples ModelProps EffectFacts AlignForecaster ResponseForecaster ResponseExamples TableFacts TotalSitesExamples TableExamples.
From Verif.Spec Require Import OverlapSpec DrawSpec.
Import ListNotations.
Local Open Scope string_scope.

Definition picked_forecast ob f := forecast_all_sites ex_ns keep_all ex_transform ex_guide ex_complete two_config ob f ex_yh (Some X_pick) (Relative [1; 2]%Z).
Definition picked_ok (d : objects (TS := bool) * res (prepared * prog arr)) (s : scale) : Prop :=
  match d with
  | (ob, Ok (p, m)) => run_transform ex_transform ob X_pick = Ok Xp1 /\ map fst (p_effects p) = ["web"] /\ max_time (map snd (p_index p)) = Ok 1%Z /\ index_series (mkLab 1 (p_index p) true s false) = [["a"]; ["b"]] /\
     match infer ex_svi ex_nuts two_latent (engine_of two_config) m with
     | Ok post => is_some (match picked_forecast ob (mkFitted s p post) with (_, Ok out) => Some out | _ => None end) = true
     | _ => False
     end
  | _ => False
  end.
Lemma picked_data k1 k2 v0 v1 v2 v3 : picked_ok (fit_data ex_ns sorted_sets keep_all ex_fit_transform two_config (no_objects (Some false))
  (STable [(["a"], k1); (["b"], k2)]) (two_by_two v0 v1 v2 v3) (Some ex_Xh)) (STable [(["a"], k1); (["b"], k2)]).
Proof.
  destruct (ex_piecewise v0 v1 v2 v3) as (a & b & rates & o1 & o2 & loc1 & loc2 & E).
  unfold fit_data. cbn [two_config c_hier]. unfold hierarchical_fit_data.
  change (loc_bottom_series (aggregate keep_all (two_by_two v0 v1 v2 v3))) with (Ok (two_by_two v0 v1 v2 v3)). cbv iota beta.
  change (series_to_tensor (two_by_two v0 v1 v2 v3)) with (Ok [[[v0]; [v1]]; [[v2]; [v3]]]). cbv iota beta.
  change (no_columns ex_Xh) with false. cbv iota. change (loc_bottom_series ex_Xh) with (Ok ex_Xh). cbv iota beta.
  change (run_fit_transform ex_fit_transform (no_objects (Some false)) ex_Xh) with (no_objects (Some false), Ok Xp0). cbv iota beta.
  change (negb (no_columns Xp0)) with true. cbv iota.
  set (eb := expand_bottom _ _ _ _ Xp0). vm_compute in eb. unfold eb. cbn [bind]. clear eb.
  change (get_trend_model two_config (no_objects (Some false))) with (@Ok trend (TPiecewise pw_params (DShifted (DHalfNormal (scalar (1 / 5)%R)) (11 / 10)%R) base_init None)).
  cbv iota beta. cbn [trend_fit]. rewrite E. cbv iota beta.
  cbn [trend_transform]. set (tr := trend_rows _ _ _). vm_compute in tr. unfold tr. clear tr. cbn [bind attr].
  set (fe := fit_effects _ _ _ _ _). vm_compute in fe. unfold fe. clear fe. cbn [bind].
  set (te := transform_effects _ _ _). vm_compute in te. unfold te. clear te. cbn [bind].
  set (ns := non_skipped _). vm_compute in ns. unfold ns. clear ns. cbn [bind].
  clear E. vm_compute. repeat split; eauto.
Qed.
Lemma picked_runs : exists ob f f' out u, pick_fit = (ob, Ok f) /\ picked_forecast ob f = (f', Ok out) /\ run_transform ex_transform ob X_pick = Ok Xp1 /\ piecewise_options (o_trend ob) 25 (4 / 5) false /\
  map fst (p_effects (ft_prepared f)) = ["web"] /\ max_time (map snd (p_index (ft_prepared f))) = Ok 1%Z /\ index_series (labeller_of two_config f ex_yh) = [["a"]; ["b"]] /\ forall q, In q [["a"]; ["b"]] -> scale_of (ft_scale f) q = Some (u q).
Proof.
  assert (RUN : exists ob f f' out k1 k2, pick_fit = (ob, Ok f) /\ picked_forecast ob f = (f', Ok out) /\ run_transform ex_transform ob X_pick = Ok Xp1 /\
    map fst (p_effects (ft_prepared f)) = ["web"] /\ max_time (map snd (p_index (ft_prepared f))) = Ok 1%Z /\ index_series (labeller_of two_config f ex_yh) = [["a"]; ["b"]] /\ ft_scale f = STable [(["a"], k1); (["b"], k2)]).
  { unfold pick_fit, fit_forecaster.
    assert (SE : exists k1 k2, set_y_scales (c_scale two_config) ex_yh = Ok (STable [(["a"], k1); (["b"], k2)])) by (do 2 eexists; reflexivity).
    destruct SE as (k1 & k2 & SE). rewrite SE. cbn [bind].
    assert (SY : exists v0 v1 v2 v3, scale_y (discrete two_config) (STable [(["a"], k1); (["b"], k2)]) ex_yh = Ok (two_by_two v0 v1 v2 v3)) by (do 4 eexists; reflexivity).
    destruct SY as (v0 & v1 & v2 & v3 & SY). rewrite SY. cbn [bind].
    pose proof (picked_data k1 k2 v0 v1 v2 v3) as OK. unfold picked_ok in OK. destruct (fit_data _ _ _ _ _ _ _ _ _) as [ob [[p m]|]]; [|destruct OK].
    destruct OK as (O1 & O2 & O3 & O4 & O5). cbn [bind]. destruct (infer _ _ _ _ m) as [post|]; [|destruct O5]. cbn [bind]. destruct (picked_forecast ob _) as [f' [out|]] eqn:F; [|discriminate].
    exists ob, (mkFitted (STable [(["a"], k1); (["b"], k2)]) p post), f', out, k1, k2. repeat (split; [assumption || reflexivity|]). reflexivity. }
  destruct RUN as (ob & f & f' & out & k1 & k2 & HF & FO & TR & PE & MT & IS & SC). exists ob, f, f', out, (fun q => match q with ["a"] => k1 | _ => k2 end).
  destruct (named_options ex_ns sorted_sets keep_all ex_fit_transform ex_svi ex_nuts two_latent _ _ _ _ _ _ "linear_raw" HF eq_refl ltac:(simpl; auto)) as [PO _].
  do 7 (split; [assumption|]). rewrite SC. intros q [<-|[<-|[]]]; reflexivity.
Qed.
Definition weekly_forecast ob f := forecast_all_sites ex_ns keep_all ex_transform ex_guide ex_complete week_config ob f ex_yh None (Relative [1; 2]%Z).
Definition weekly_ok (d : objects (TS := bool) * res (prepared * prog arr)) (s : scale) : Prop :=
  match d with
  | (ob, Ok (p, m)) => o_transformer ob = None /\ map fst (p_effects p) = ["season"] /\ max_time (map snd (p_index p)) = Ok 1%Z /\ index_series (mkLab 1 (p_index p) true s false) = [["a"]; ["b"]] /\
     match infer ex_svi ex_nuts bare_latent (engine_of week_config) m with
     | Ok post => is_some (match weekly_forecast ob (mkFitted s p post) with (_, Ok out) => Some out | _ => None end) = true
     | _ => False
     end
  | _ => False
  end.
Lemma weekly_data k1 k2 v0 v1 v2 v3 : weekly_ok (fit_data ex_ns sorted_sets keep_all ex_fit_transform week_config (no_objects None)
  (STable [(["a"], k1); (["b"], k2)]) (two_by_two v0 v1 v2 v3) None) (STable [(["a"], k1); (["b"], k2)]).
Proof.
  destruct (ex_piecewise v0 v1 v2 v3) as (a & b & rates & o1 & o2 & loc1 & loc2 & E).
  unfold fit_data. cbn [week_config c_hier]. unfold hierarchical_fit_data.
  change (loc_bottom_series (aggregate keep_all (two_by_two v0 v1 v2 v3))) with (Ok (two_by_two v0 v1 v2 v3)). cbv iota beta.
  change (series_to_tensor (two_by_two v0 v1 v2 v3)) with (Ok [[[v0]; [v1]]; [[v2]; [v3]]]). cbv iota beta.
  match goal with |- context [loc_bottom_series ?x] => change (loc_bottom_series x) with (Ok Xb0) end. cbv iota beta.
  unfold run_fit_transform. change (o_transformer (no_objects None)) with (@None bool). cbv iota beta.
  change (no_columns Xb0) with true. cbv iota. cbn [negb].
  change (get_trend_model week_config (no_objects None)) with (@Ok trend (TPiecewise pw_params (DShifted (DHalfNormal (scalar (1 / 5)%R)) (11 / 10)%R) base_init None)).
  cbv iota beta. cbn [bind]. cbn [trend_fit]. rewrite E. cbv iota beta.
  cbn [trend_transform]. set (tr := trend_rows _ _ _). vm_compute in tr. unfold tr. clear tr. cbn [bind attr].
  change (effects_of week_config) with [weekly]. change (c_default week_config) with (@None effect). rewrite weekly_fit. cbn [bind].
  set (te := transform_effects _ _ _). vm_compute in te. unfold te. clear te. cbn [bind].
  set (ns := non_skipped _). vm_compute in ns. unfold ns. clear ns. cbn [bind].
  clear E. vm_compute. repeat split; eauto.
Qed.
Lemma weekly_runs : exists ob f f' out u, week_fit = (ob, Ok f) /\ weekly_forecast ob f = (f', Ok out) /\ o_transformer ob = None /\ piecewise_options (o_trend ob) 25 (4 / 5) false /\
  map fst (p_effects (ft_prepared f)) = ["season"] /\ max_time (map snd (p_index (ft_prepared f))) = Ok 1%Z /\ index_series (labeller_of week_config f ex_yh) = [["a"]; ["b"]] /\ forall q, In q [["a"]; ["b"]] -> scale_of (ft_scale f) q = Some (u q).
Proof.
  assert (RUN : exists ob f f' out k1 k2, week_fit = (ob, Ok f) /\ weekly_forecast ob f = (f', Ok out) /\ o_transformer ob = None /\
    map fst (p_effects (ft_prepared f)) = ["season"] /\ max_time (map snd (p_index (ft_prepared f))) = Ok 1%Z /\ index_series (labeller_of week_config f ex_yh) = [["a"]; ["b"]] /\ ft_scale f = STable [(["a"], k1); (["b"], k2)]).
  { unfold week_fit, fit_forecaster.
    assert (SE : exists k1 k2, set_y_scales (c_scale week_config) ex_yh = Ok (STable [(["a"], k1); (["b"], k2)])) by (do 2 eexists; reflexivity).
    destruct SE as (k1 & k2 & SE). rewrite SE. cbn [bind].
    assert (SY : exists v0 v1 v2 v3, scale_y (discrete week_config) (STable [(["a"], k1); (["b"], k2)]) ex_yh = Ok (two_by_two v0 v1 v2 v3)) by (do 4 eexists; reflexivity).
    destruct SY as (v0 & v1 & v2 & v3 & SY). rewrite SY. cbn [bind].
    pose proof (weekly_data k1 k2 v0 v1 v2 v3) as OK. unfold weekly_ok in OK. destruct (fit_data _ _ _ _ _ _ _ _ _) as [ob [[p m]|]]; [|destruct OK].
    destruct OK as (O1 & O2 & O3 & O4 & O5). cbn [bind]. destruct (infer _ _ _ _ m) as [post|]; [|destruct O5]. cbn [bind]. destruct (weekly_forecast ob _) as [f' [out|]] eqn:F; [|discriminate].
    exists ob, (mkFitted (STable [(["a"], k1); (["b"], k2)]) p post), f', out, k1, k2. repeat (split; [assumption || reflexivity|]). reflexivity. }
  destruct RUN as (ob & f & f' & out & k1 & k2 & HF & FO & TR & PE & MT & IS & SC). exists ob, f, f', out, (fun q => match q with ["a"] => k1 | _ => k2 end).
  destruct (named_options ex_ns sorted_sets keep_all ex_fit_transform ex_svi ex_nuts bare_latent _ _ _ _ _ _ "linear_raw" HF eq_refl ltac:(simpl; auto)) as [PO _].
  do 7 (split; [assumption|]). rewrite SC. intros q [<-|[<-|[]]]; reflexivity.
Qed.
