(** A panel forecaster with a feature transformer: two days, and the second day alone. *)
From Coq Require Import Reals Lra String Bool ZArith List Sorted Permutation Lia.
From Verif.Model Require Import Base Num XFloat Regex Frame Arr Expand Aggregate Scale Prog Likelihood Effect Trend TrendProg Engine Predict Forecaster.
From Verif.Spec Require Import RegexSpec FrameSpec ScaleSpec TrendSpec ProgSpec EffectSpec ForecasterSpec AlignSpec SiteSpec LineSpec ShapeSpec TotalSpec PanelSpec OverlapSpec DocsSpec ResponseSpec UpwardSpec SeasonSpec AddedSpec.
From Verif.Facts Require Import BaseFacts NumFacts FrameFacts ForecasterFacts ForecasterInv ForecasterProps EffectFacts SiteFacts EffectExamples ForecasterExamples EngineExamples HistoryExamples AlignExamples ComponentExamples InsampleExamples CounterExamples DocsForecaster
  DocsExamples TablePanel ResponseExamples TransformedExamples.
Import ListNotations.
Local Open Scope string_scope.

Definition steps_trace ob (f : fitted (P := unit)) fh : option trace :=
  match predict_model ex_ns keep_all ex_transform (web_config false) ob f ex_yh (Some X_pick) fh with
  | Ok m => match run one [] m with Ok (_, tr) => Some tr | Err _ => None end
  | Err _ => None
  end.
Definition steps_ok (d : objects (TS := bool) * res (prepared * prog arr)) (s : scale) : Prop :=
  match d with
  | (ob, Ok (p, m)) => scalar_piecewise (o_trend ob) /\ run_transform ex_transform ob X_pick = Ok Xp1 /\ max_time (map snd (p_index p)) = Ok 1%Z /\
     match infer ex_svi ex_nuts two_latent (engine_of (web_config false)) m with
     | Ok post => steps_trace ob (mkFitted s p post) (Relative [1; 2]%Z) <> None /\ steps_trace ob (mkFitted s p post) (Relative [2]%Z) <> None
     | _ => False
     end
  | _ => False
  end.
Lemma steps_data k1 k2 v0 v1 v2 v3 : steps_ok (fit_data ex_ns sorted_sets keep_all ex_fit_transform (web_config false) (no_objects (Some false))
  (STable [(["a"], k1); (["b"], k2)]) (two_by_two v0 v1 v2 v3) (Some ex_Xh)) (STable [(["a"], k1); (["b"], k2)]).
Proof.
  destruct (ex_piecewise v0 v1 v2 v3) as (a & b & rates & o1 & o2 & loc1 & loc2 & E).
  unfold fit_data. cbn [web_config c_hier]. unfold hierarchical_fit_data.
  change (loc_bottom_series (aggregate keep_all (two_by_two v0 v1 v2 v3))) with (Ok (two_by_two v0 v1 v2 v3)). cbv iota beta.
  change (series_to_tensor (two_by_two v0 v1 v2 v3)) with (Ok [[[v0]; [v1]]; [[v2]; [v3]]]). cbv iota beta.
  change (no_columns ex_Xh) with false. cbv iota. change (loc_bottom_series ex_Xh) with (Ok ex_Xh). cbv iota beta.
  change (run_fit_transform ex_fit_transform (no_objects (Some false)) ex_Xh) with (no_objects (Some false), Ok Xp0). cbv iota beta.
  change (negb (no_columns Xp0)) with true. cbv iota.
  set (eb := expand_bottom _ _ _ _ Xp0). vm_compute in eb. unfold eb. cbn [bind]. clear eb.
  change (get_trend_model (web_config false) (no_objects (Some false))) with (@Ok trend (TPiecewise pw_params (DShifted (DHalfNormal (scalar (1 / 5)%R)) (11 / 10)%R) base_init None)).
  cbv iota beta. cbn [trend_fit]. rewrite E. cbv iota beta.
  cbn [trend_transform]. set (tr := trend_rows _ _ _). vm_compute in tr. unfold tr. clear tr. cbn [bind attr].
  all: set (fe := fit_effects _ _ _ _ _); vm_compute in fe; unfold fe; clear fe; cbn [bind].
  all: set (te := transform_effects _ _ _); vm_compute in te; unfold te; clear te; cbn [bind].
  all: set (ns := non_skipped _); vm_compute in ns; unfold ns; clear ns; cbn [bind].
  all: clear E; cbv zeta; split; [vm_compute; repeat split; eexists; reflexivity|]; do 2 (split; [vm_compute; reflexivity|]); vm_compute; split; discriminate.
Qed.
Lemma web_steps : exists ob f m1 m2 o1 o2 tr1 tr2, web_fit false = (ob, Ok f) /\ run_transform ex_transform ob X_pick = Ok Xp1 /\ scalar_piecewise (o_trend ob) /\
  max_time (map snd (p_index (ft_prepared f))) = Ok 1%Z /\
  predict_model ex_ns keep_all ex_transform (web_config false) ob f ex_yh (Some X_pick) (Relative [1; 2]%Z) = Ok m1 /\ predict_model ex_ns keep_all ex_transform (web_config false) ob f ex_yh (Some X_pick) (Relative [2]%Z) = Ok m2 /\
  run one [] m1 = Ok (o1, tr1) /\ run one [] m2 = Ok (o2, tr2).
Proof.
  unfold web_fit, fit_forecaster.
  assert (SE : exists k1 k2, set_y_scales (c_scale (web_config false)) ex_yh = Ok (STable [(["a"], k1); (["b"], k2)])) by (do 2 eexists; reflexivity).
  destruct SE as (k1 & k2 & SE). rewrite SE. cbn [bind].
  assert (SY : exists v0 v1 v2 v3, scale_y (discrete (web_config false)) (STable [(["a"], k1); (["b"], k2)]) ex_yh = Ok (two_by_two v0 v1 v2 v3)) by (do 4 eexists; reflexivity).
  destruct SY as (v0 & v1 & v2 & v3 & SY). rewrite SY. cbn [bind].
  pose proof (steps_data k1 k2 v0 v1 v2 v3) as PD. unfold steps_ok in PD. destruct (fit_data _ _ _ _ _ _ _ _ _) as [ob [[p m]|]]; [|destruct PD].
  destruct PD as (O1 & O2 & O3 & D). cbn [bind]. destruct (infer _ _ _ _ m) as [post|]; [|destruct D]. cbn [bind].
  unfold steps_trace in D. set (f := mkFitted _ p post) in *. destruct D as [D1 D2].
  destruct (predict_model _ _ _ _ ob f ex_yh (Some X_pick) (Relative [1; 2]%Z)) as [m1|] eqn:E1; [|congruence]. destruct (run one [] m1) as [[u1 tr1]|] eqn:R1; [|congruence].
  destruct (predict_model _ _ _ _ ob f ex_yh (Some X_pick) (Relative [2]%Z)) as [m2|] eqn:E2; [|congruence]. destruct (run one [] m2) as [[u2 tr2]|] eqn:R2; [|congruence].
  exists ob, f, m1, m2, u1, u2, tr1, tr2. repeat (split; [assumption || reflexivity|]). assumption.
Qed.
