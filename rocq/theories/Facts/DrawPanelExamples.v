(** A forecast of two series whose columns are draws. *)
From Coq Require Import Reals Lra String Bool ZArith List Sorted Lia.
From Verif.Model Require Import Base Num XFloat Regex Frame Arr Expand Aggregate Scale Prog Likelihood Effect Trend TrendProg Engine Predict Forecaster.
From Verif.Spec Require Import FrameSpec ScaleSpec ForecasterSpec PredictSpec AlignSpec SiteSpec OverlapSpec.
From Verif.Facts Require Import NumFacts ForecasterFacts EffectExamples ForecasterExamples EngineExamples HistoryExamples ComponentExamples TotalExamples AlignExamples ObservedExamples OverlapExamples PanelRuns.
From Verif.Spec Require Import FrameSpec.
Import ListNotations.
Local Open Scope string_scope.

Definition pair_samples ob f := forecast_samples ex_ns keep_all ex_transform ex_guide ex_complete pw_config ob f ex_yh (Some ex_X2) (Relative [1; 2]%Z).
Definition pair_ok (d : objects (TS := bool) * res (prepared * prog arr)) (s : scale) : Prop :=
  match d with
  | (ob, Ok (p, m)) => scalar_piecewise (o_trend ob) /\
     match infer ex_svi ex_nuts parts_latent (engine_of pw_config) m with
     | Ok post => is_some (match pair_samples ob (mkFitted s p post) with (_, Ok out) => Some out | _ => None end) = true
     | _ => False
     end
  | _ => False
  end.
Lemma pair_runs : exists ob f f' out u, parts_fit = (ob, Ok f) /\ pair_samples ob f = (f', Ok out) /\ scalar_piecewise (o_trend ob) /\
  (forall q, In q (series_ids ex_yh) -> unit_of (discrete pw_config) (ft_scale f) q (u q)).
Proof.
  assert (SE : exists k1 k2, set_y_scales None ex_yh = Ok (pw_scale k1 k2)) by (do 2 eexists; reflexivity). destruct SE as (k1 & k2 & SE).
  assert (SY : exists v0 v1 v2 v3, scale_y (discrete pw_config) (pw_scale k1 k2) ex_yh = Ok (two_by_two v0 v1 v2 v3)) by (do 4 eexists; reflexivity).
  destruct SY as (v0 & v1 & v2 & v3 & SY).
  destruct (pw_data_eq sorted_sets (pw_scale k1 k2) (Some ex_Xh) v0 v1 v2 v3) as (a & b & rates & o1 & o2 & loc1 & loc2 & E).
  assert (OK : pair_ok (fit_data ex_ns sorted_sets keep_all ex_fit_transform pw_config (no_objects None) (pw_scale k1 k2) (two_by_two v0 v1 v2 v3) (Some ex_Xh)) (pw_scale k1 k2)).
  { rewrite E. clear. vm_compute. repeat split; eauto. }
  unfold parts_fit, fit_forecaster. change (c_scale pw_config) with (@None scale). rewrite SE. cbn [bind]. rewrite SY. cbn [bind].
  unfold pair_ok in OK. destruct (fit_data _ _ _ _ _ _ _ _ _) as [ob [[p m]|]]; [|destruct OK]. destruct OK as (O1 & O4). cbn [bind].
  destruct (infer _ _ _ _ m) as [post|]; [|destruct O4]. cbn [bind]. destruct (pair_samples ob _) as [f' [out|]] eqn:F; [|discriminate].
  exists ob, (mkFitted (pw_scale k1 k2) p post), f', out, (fun q => if path_eqb q ["a"] then k1 else k2). split; [reflexivity|]. split; [exact F|]. split; [exact O1|].
  intros q Hq. vm_compute in Hq. destruct Hq as [<-|[<-|[]]]; reflexivity.
Qed.
