(** Columns of effects in a concrete hierarchical forecaster. *)
From Coq Require Import Reals String Ascii Bool ZArith List Permutation.
From Verif.Model Require Import Base Num XFloat Regex Frame Arr Expand Aggregate Scale Prog Likelihood Effect Trend TrendProg Engine Predict Forecaster.
From Verif.Spec Require Import RegexSpec PatternSpec FrameSpec ProgSpec ForecasterSpec SiteSpec ResponseSpec CopySpec.
From Verif.Facts Require Import BaseFacts RegexFacts EffectExamples ForecasterExamples EngineExamples HistoryExamples AlignExamples ComponentExamples CounterExamples ResponseExamples CopyFacts.
Import ListNotations.
Local Open Scope string_scope.

Definition linear (name regex : string) : listed := (name, Linear Additive (DUser 0) base_init, Some regex).
Definition copy_config : config :=
  mkConfig true (TrendName "linear_raw") 25 (4 / 5) (1 / 1000) (1 / 10) (1 / 5) (11 / 10)
    (Some [linear "exact" (exact "tv"); linear "ends" ".*_b"; linear "begins" (starts_with ["t"])])
    None (1 / 20) "normal" None (Some ["web"]) 1 "mcmc" None 10 0 3 5 2.
Definition copy_latent (m : prog arr) : list string := (trend_sites ++ ["ends/coefs"; "begins/coefs"; "exogenous_variables_effect/coefs"; "std_observation"; "corr_matrix"])%list.
Definition copy_fit := fit_forecaster ex_ns sorted_sets keep_all ex_fit_transform ex_svi ex_nuts copy_latent copy_config (no_objects None) ex_yh (Some ex_Xh).
Definition copy_table (fitted : list fitted_effect) := map (fun g => (fe_name g, fe_cols g)) fitted.
Definition copies : list (string * list string) :=
  [("exact", []); ("ends", ["tv_dup_b"]); ("begins", ["tv_dup_a"; "tv_dup_b"]); ("exogenous_variables_effect", ["web"])].
Definition copy_ok (d : objects (TS := bool) * res (prepared * prog arr)) : Prop :=
  match d with
  | (ob, Ok (p, m)) => copy_table (p_fitted p) = copies /\ map fst (p_effects p) = ["ends"; "begins"; "exogenous_variables_effect"] /\ exists post, infer ex_svi ex_nuts copy_latent (engine_of copy_config) m = Ok post
  | _ => False
  end.
Lemma copy_data k1 k2 v0 v1 v2 v3 : copy_ok (fit_data ex_ns sorted_sets keep_all ex_fit_transform copy_config (no_objects None)
  (STable [(["a"], k1); (["b"], k2)]) (two_by_two v0 v1 v2 v3) (Some ex_Xh)).
Proof.
  destruct (ex_piecewise v0 v1 v2 v3) as (a & b & rates & o1 & o2 & loc1 & loc2 & E).
  unfold fit_data. cbn [copy_config c_hier]. unfold hierarchical_fit_data.
  change (loc_bottom_series (aggregate keep_all (two_by_two v0 v1 v2 v3))) with (Ok (two_by_two v0 v1 v2 v3)). cbv iota beta.
  change (series_to_tensor (two_by_two v0 v1 v2 v3)) with (Ok [[[v0]; [v1]]; [[v2]; [v3]]]). cbv iota beta.
  change (no_columns ex_Xh) with false. cbv iota. change (loc_bottom_series ex_Xh) with (Ok ex_Xh). cbv iota beta.
  change (run_fit_transform ex_fit_transform (no_objects None) ex_Xh) with (no_objects None, Ok ex_Xh). cbv iota beta.
  change (negb (no_columns ex_Xh)) with true. cbv iota.
  set (eb := expand_bottom _ _ _ _ ex_Xh). vm_compute in eb. unfold eb. cbn [bind]. clear eb.
  change (get_trend_model copy_config (no_objects None)) with (@Ok trend (TPiecewise pw_params (DShifted (DHalfNormal (scalar (1 / 5)%R)) (11 / 10)%R) base_init None)).
  cbv iota beta. cbn [trend_fit]. rewrite E. cbv iota beta.
  cbn [trend_transform]. set (tr := trend_rows _ _ _). vm_compute in tr. unfold tr. clear tr. cbn [bind attr].
  set (fe := fit_effects _ _ _ _ _). vm_compute in fe. unfold fe. clear fe. cbn [bind].
  set (te := transform_effects _ _ _). vm_compute in te. unfold te. clear te. cbn [bind].
  set (ns := non_skipped _). vm_compute in ns. unfold ns. clear ns. cbn [bind].
  clear E. split; [vm_compute; reflexivity|]. split; [vm_compute; reflexivity|]. eexists. vm_compute. reflexivity.
Qed.
Lemma copy_example : exists ob f, copy_fit = (ob, Ok f) /\ copy_table (p_fitted (ft_prepared f)) = copies /\ map fst (p_effects (ft_prepared f)) = ["ends"; "begins"; "exogenous_variables_effect"].
Proof.
  unfold copy_fit, fit_forecaster.
  assert (SE : exists k1 k2, set_y_scales (c_scale copy_config) ex_yh = Ok (STable [(["a"], k1); (["b"], k2)])) by (do 2 eexists; reflexivity).
  destruct SE as (k1 & k2 & SE). rewrite SE. cbn [bind].
  assert (SY : exists v0 v1 v2 v3, scale_y (discrete copy_config) (STable [(["a"], k1); (["b"], k2)]) ex_yh = Ok (two_by_two v0 v1 v2 v3)) by (do 4 eexists; reflexivity).
  destruct SY as (v0 & v1 & v2 & v3 & SY). rewrite SY. cbn [bind].
  pose proof (copy_data k1 k2 v0 v1 v2 v3) as OK. unfold copy_ok in OK. destruct (fit_data _ _ _ _ _ _ _ _ _) as [ob [[p m]|]]; [|destruct OK].
  destruct OK as (O1 & O2 & post & O3). cbn [bind]. rewrite O3. cbn [bind]. exists ob, (mkFitted (STable [(["a"], k1); (["b"], k2)]) p post). auto.
Qed.
Lemma copy_copyable : copyable (shared_features copy_config) (f_cols ex_Xh) (bottom_series ex_Xh).
Proof.
  destruct panel_copyable as (A & B & _ & C & D). split; [exact A|]. split; [exact B|]. split; [|split; [exact C|exact D]].
  intros c s [<-|[<-|[]]] N [<-|[<-|[]]] [H|[]]; try discriminate; [reflexivity|]. elim N. now left.
Qed.
Lemma begins_open : exists r, Pattern (starts_with ["t"]) r /\ open_ended r.
Proof.
  destruct (compile (starts_with ["t"])) as [r|] eqn:E; [|discriminate]. exists r. split; [now apply PatternFacts.compile_iff|]. vm_compute in E. injection E as <-. cbn. auto.
Qed.
(** the copies of one column go to different effects: the label of a series decides *)
Lemma c106_labels : exists ob f g, copy_fit = (ob, Ok f) /\ nth_error (p_fitted (ft_prepared f)) 1 = Some g /\ ~ matched (Some ".*_b") "tv" /\
  fe_cols g = [copy_name "tv" ["b"]] /\ bottom_series ex_Xh = [["a"]; ["b"]].
Proof.
  destruct copy_example as (ob & f & H & T & _). destruct (p_fitted (ft_prepared f)) as [|g0 [|g l]] eqn:EF; try discriminate. exists ob, f, g. rewrite EF. split; [exact H|]. split; [reflexivity|]. split.
  - intros M. apply matched_col in M. vm_compute in M. discriminate.
  - cbn [copy_table map] in T. injection T as _ _ _ T _. split; [exact T|reflexivity].
Qed.
