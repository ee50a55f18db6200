(** Concrete exogenous frames in different orders. *)
From Coq Require Import Reals String Bool ZArith List Lra Lia Permutation Sorted.
From Verif.Model Require Import Base Num XFloat Frame Arr Expand Aggregate Scale Predict Prog Likelihood Trend Effect
  TrendProg Engine Forecaster History.
From Verif.Spec Require Import FrameSpec ScaleSpec ForecasterSpec HistorySpec AlignSpec.
From Verif.Facts Require Import NumFacts TrendExamples EffectExamples ForecasterExamples EngineExamples HistoryExamples.
Import ListNotations.
Local Open Scope string_scope.

(** the rows of [ex_Xh], series b first *)
Definition ex_Xba : frame R := mkFrame 1 ["tv"; "web"] [mkRow ["b"] 0 [3; 30]; mkRow ["b"] 1 [4; 40]; mkRow ["a"] 0 [1; 10]; mkRow ["a"] 1 [2; 20]]%R.

Lemma ex_ba_permutation : Permutation (f_rows ex_Xh) (f_rows ex_Xba).
Proof.
  change (f_rows ex_Xba) with ((skipn 2 (f_rows ex_Xh)) ++ (firstn 2 (f_rows ex_Xh)))%list.
  change (f_rows ex_Xh) with (firstn 2 (f_rows ex_Xh) ++ skipn 2 (f_rows ex_Xh))%list at 1. apply Permutation_app_comm.
Qed.

Lemma ex_series_order :
  value_of ones (program (fit_exh sorted_sets (Some ex_Xh))) "all" 0 = Some 11%R /\
  value_of ones (program (fit_exh sorted_sets (Some ex_Xba))) "all" 0 = Some 33%R /\
  value_of ones (program (fit_exh sorted_sets (Some ex_Xh))) "obs" 0 = Some 1%R /\
  value_of ones (program (fit_exh sorted_sets (Some ex_Xba))) "obs" 0 = Some 1%R.
Proof. repeat split; compute_real. Qed.

Lemma ex_sorted : sorted_index ex_Xh.
Proof. unfold sorted_index. simpl. repeat constructor. Qed.
Lemma ex_nodup : NoDup (labels ex_Xh).
Proof. unfold labels. simpl. repeat constructor; simpl; intuition congruence. Qed.

(** two series at date 2 and two others at date 3: as many rows as two series with two dates *)
Definition ex_Xcd : frame R := mkFrame 1 ["tv"; "web"]
  [mkRow ["a"] 2 [1; 10]; mkRow ["b"] 2 [2; 20]; mkRow ["c"] 3 [3; 30]; mkRow ["d"] 3 [4; 40]]%R.
Definition fitted_h := ex_calls hier_config (new_state (no_objects None)) [Fit ex_yh (Some ex_Xh)].
Lemma ex_incomplete : times_of (snd (ex_step hier_config fitted_h (Predict Samples (Some ex_Xcd) (Relative [1; 2]%Z)))) = Some [2; 3; 2; 3; 2; 3]%Z.
Proof. vm_compute. reflexivity. Qed.
Lemma ex_incomplete_labels : labels ex_Xcd = [(["a"], 2); (["b"], 2); (["c"], 3); (["d"], 3)]%Z.
Proof. reflexivity. Qed.

(** * a fit with a piecewise linear trend *)
Definition pw_config : config :=
  mkConfig true (TrendName "linear_raw") 25 (4 / 5) (1 / 1000) (1 / 10) (1 / 5) (11 / 10) (Some [("all", Linear Additive (DUser 0) base_init, Some ".*")])
    None (1 / 20) "normal" None None 1 "mcmc" None 10 0 3 5 2.
Definition pw_params : piecewise_params := mkPW (Scalar 25%R) (Scalar (4 / 5)%R) (Scalar (1 / 1000)%R) (1 / 10)%R true false None.
Definition two_by_two (v0 v1 v2 v3 : R) : frame R := mkFrame 1 ["y"] [mkRow ["a"] 0 [v0]; mkRow ["a"] 1 [v1]; mkRow ["b"] 0 [v2]; mkRow ["b"] 1 [v3]].

Lemma ex_cps : changepoint_times 1 25 (4 / 5) = [(INR 0 * 25)%R].
Proof.
  unfold changepoint_times, arange0. replace (Rceil _) with 1%Z; [reflexivity|]. symmetry.
  unfold changepoint_limit. rewrite (proj2 (Rltb_true _ _)) by lra. rewrite (proj2 (Rltb_true _ _)) by lra. cbn [andb].
  pose proof (Rceil_spec (1 * (4 / 5) / 25)) as H. set (z := Rceil (1 * (4 / 5) / 25)) in *.
  assert (IZR z < 2)%R by lra. assert (0 < IZR z)%R by lra. apply (lt_IZR z 2) in H0. apply (lt_IZR 0 z) in H1. lia.
Qed.

Lemma ex_piecewise v0 v1 v2 v3 : exists a b rates o1 o2 loc1 loc2,
  piecewise_fit ex_ns pw_params (two_by_two v0 v1 v2 v3) =
  Ok (mkPWF pw_params a b 2 [[INR 0 * 25]; [INR 0 * 25]]%R rates [XF o1; XF o2] [loc1; loc2] [1 / 1000; 1 / 1000]%R (Some [["a"]; ["b"]])).
Proof.
  unfold piecewise_fit. change (time_ids (two_by_two v0 v1 v2 v3)) with [0; 1]%Z. cbn [map].
  assert (D0 : days_since_epoch (ex_ns 0) = 0%R) by (unfold days_since_epoch; change (ex_ns 0 / 1000000000)%Z with 0%Z; lra).
  assert (D1 : days_since_epoch (ex_ns 1) = 1%R) by (unfold days_since_epoch; change (ex_ns 1 / 1000000000)%Z with 86400%Z; lra).
  rewrite D0, D1, fit_two. cbn [bind map hd tl].
  unfold scale_time. replace (0 / 1 - 0)%R with 0%R by lra. replace (1 / 1 - 0)%R with 1%R by lra.
  change (n_series_of (two_by_two v0 v1 v2 v3)) with 2%nat.
  assert (M : Rmax_list 0 [1%R] = 1%R). { unfold Rmax_list. simpl. rewrite Rmax_right; lra. }
  rewrite M. cbn [pw_params pw_interval pw_range].
  unfold setup_changepoints. cbn [to_list_if_scalar repeat combine mapM fst snd bind]. rewrite ex_cps. cbn [bind].
  unfold suggest. cbn [pw_params pw_detrend pw_logistic pw_prior_scale].
  change (target_matrix (two_by_two v0 v1 v2 v3)) with (Ok (A := list (list R)) [[v0; v1]; [v2; v3]]). cbn [bind].
  cbn [endpoints mapM bind last map fst snd hd].
  do 7 eexists. reflexivity.
Qed.

(** complete data for two more days *)
Definition pw_objects : objects := no_objects None.
Definition pw_fit := fit_forecaster ex_ns sorted_sets keep_all ex_fit_transform ex_svi ex_nuts ex_latent pw_config (no_objects None) ex_yh (Some ex_Xh).

Definition pw_data k1 k2 v0 v1 v2 v3 := fit_data ex_ns sorted_sets keep_all ex_fit_transform pw_config (no_objects None)
  (STable [(["a"], k1); (["b"], k2)]) (two_by_two v0 v1 v2 v3) (Some ex_Xh).

Definition pw_post : inferred unit := IMcmc (repeat (fun _ _ => 1%R) 6) ["noise_scale"; "tv/coefs"; "exogenous_variables_effect/coefs"].
Definition pw_draws ob s p := predictive_samples_dict ex_ns keep_all ex_transform ex_guide ex_complete pw_config ob (mkFitted s p pw_post) ex_yh (Some ex_X2) (Relative [1; 2]%Z).
Lemma ex_pw_data k1 k2 v0 v1 v2 v3 : exists ob p m, pw_data k1 k2 v0 v1 v2 v3 = (ob, Ok (p, m)) /\
  scalar_piecewise (o_trend ob) /\ o_transformer ob = None /\ p_has_exogenous p = true /\ dict_keys (p_effects p) = ["all"] /\
  (exists b, dict_get (p_effects p) "all" = Some (Linear Additive (DUser 0) b)) /\ max_time (map snd (p_index p)) = Ok 1%Z /\
  forall s, succeeds (pw_draws ob s p) = true.
Proof.
  destruct (ex_piecewise v0 v1 v2 v3) as (a & b & rates & o1 & o2 & loc1 & loc2 & E).
  unfold pw_data, fit_data. cbn [pw_config c_hier]. unfold hierarchical_fit_data.
  change (loc_bottom_series (aggregate keep_all (two_by_two v0 v1 v2 v3))) with (Ok (two_by_two v0 v1 v2 v3)). cbv iota beta.
  change (series_to_tensor (two_by_two v0 v1 v2 v3)) with (Ok [[[v0]; [v1]]; [[v2]; [v3]]]). cbv iota beta.
  change (no_columns ex_Xh) with false. cbv iota. change (loc_bottom_series ex_Xh) with (Ok ex_Xh). cbv iota beta.
  change (run_fit_transform ex_fit_transform (no_objects None) ex_Xh) with (no_objects None, Ok ex_Xh). cbv iota beta.
  change (negb (no_columns ex_Xh)) with true. cbv iota.
  set (eb := expand_bottom _ _ _ _ ex_Xh). vm_compute in eb. unfold eb. cbn [bind]. clear eb.
  change (get_trend_model pw_config (no_objects None)) with (@Ok trend (TPiecewise pw_params (DShifted (DHalfNormal (scalar (1 / 5)%R)) (11 / 10)%R) base_init None)).
  cbv iota beta. cbn [trend_fit]. rewrite E. cbv iota beta.

  cbn [trend_transform]. set (tr := trend_rows _ _ _). vm_compute in tr. unfold tr. clear tr. cbn [bind attr].
  set (fe := fit_effects _ _ _ _ _). vm_compute in fe. unfold fe. clear fe. cbn [bind].
  set (te := transform_effects _ _ _). vm_compute in te. unfold te. clear te. cbn [bind].
  set (ns := non_skipped _). vm_compute in ns. unfold ns. clear ns. cbn [bind].
  do 3 eexists. split; [reflexivity|].
  split; [cbn; split; eexists; reflexivity|].
  repeat (split; [reflexivity|]). split; [eexists; reflexivity|]. split; [vm_compute; reflexivity|].
  intros s. vm_compute. reflexivity.
Qed.

Lemma ex_pw : exists ob f f' d, pw_fit = (ob, Ok f) /\
  scalar_piecewise (o_trend ob) /\ o_transformer ob = None /\ p_has_exogenous (ft_prepared f) = true /\
  (exists b, dict_get (p_effects (ft_prepared f)) "all" = Some (Linear Additive (DUser 0) b)) /\ ~ In "trend" (dict_keys (p_effects (ft_prepared f))) /\
  max_time (map snd (p_index (ft_prepared f))) = Ok 1%Z /\
  predictive_samples_dict ex_ns keep_all ex_transform ex_guide ex_complete pw_config ob f ex_yh (Some ex_X2) (Relative [1; 2]%Z) = (f', Ok d).
Proof.
  unfold pw_fit, fit_forecaster.
  assert (SE : exists k1 k2, set_y_scales (c_scale pw_config) ex_yh = Ok (STable [(["a"], k1); (["b"], k2)])) by (do 2 eexists; reflexivity).
  destruct SE as (k1 & k2 & SE). rewrite SE. cbn [bind].
  assert (SY : exists v0 v1 v2 v3, scale_y (discrete pw_config) (STable [(["a"], k1); (["b"], k2)]) ex_yh = Ok (two_by_two v0 v1 v2 v3)) by (do 4 eexists; reflexivity).
  destruct SY as (v0 & v1 & v2 & v3 & SY). rewrite SY. cbn [bind].
  destruct (ex_pw_data k1 k2 v0 v1 v2 v3) as (ob & p & m & E & H1 & H2 & H3 & H4 & H5 & H6 & H7). unfold pw_data in E. rewrite E. cbn [bind].
  change (infer ex_svi ex_nuts ex_latent (engine_of pw_config) m) with (Ok pw_post). cbn [bind].
  specialize (H7 (STable [(["a"], k1); (["b"], k2)])). unfold pw_draws in H7.
  destruct (predictive_samples_dict _ _ _ _ _ _ _ _ _ _ _) as [f' [d|]] eqn:D in H7; [|discriminate].
  exists ob, (mkFitted (STable [(["a"], k1); (["b"], k2)]) p pw_post), f', d. cbn [ft_prepared].
  split; [reflexivity|]. repeat (split; [assumption|]). split; [rewrite H4; simpl; intuition discriminate|]. split; assumption.
Qed.

Lemma ex_X2_series : forall q t, In (q, t) (labels ex_X2) -> In t [2; 3]%Z -> In q (map r_path (f_rows ex_yh)).
Proof. intros q t H _. unfold labels in H. simpl in *. repeat destruct H as [[= <- <-]|H]; auto; contradiction. Qed.
Lemma ex_X2_nodup : NoDup (labels ex_X2).
Proof. unfold labels. simpl. repeat constructor; simpl; intuition congruence. Qed.
Lemma ex_X2_bottom : loc_bottom_series ex_X2 = Ok ex_X2.
Proof. reflexivity. Qed.
