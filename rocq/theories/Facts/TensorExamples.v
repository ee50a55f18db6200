(** Options per series: examples. *)
From Coq Require Import Reals Lra ZArith String List Lia Bool.
From Verif.Model Require Import Base Num XFloat Frame Arr Trend TrendProg Engine Forecaster Tensors.
From Verif.Spec Require Import FrameSpec TensorSpec.
From Verif.Facts Require Import BaseFacts NumFacts FrameFacts TrendFacts TrendExamples ForecasterExamples AlignExamples TensorFacts.
Import ListNotations.
Local Open Scope string_scope.

Definition own_params (interval range prior_scale : per_series R) : piecewise_params := mkPW interval range prior_scale (1 / 10)%R true false None.

Lemma one_cp iv rg : (1 <= iv)%R -> (0 < rg < 1)%R -> changepoint_times 1 iv rg = [(INR 0 * iv)%R].
Proof.
  intros Hi Hr. unfold changepoint_times, arange0. replace (Rceil _) with 1%Z; [reflexivity|]. symmetry.
  unfold changepoint_limit. rewrite (proj2 (Rltb_true _ _)) by lra. rewrite (proj2 (Rltb_true _ _)) by lra. cbn [andb]. rewrite Rmult_1_l.
  pose proof (Rceil_spec (rg / iv)) as H. set (z := Rceil (rg / iv)) in *.
  assert (0 < rg / iv)%R by (apply Rdiv_lt_0_compat; lra). assert (rg / iv < 1)%R by (apply Rmult_lt_reg_r with iv; [lra|]; unfold Rdiv; rewrite Rmult_assoc, Rinv_l by lra; lra).
  assert (IZR z < 2)%R by lra. assert (0 < IZR z)%R by lra. apply (lt_IZR z 2) in H2. apply (lt_IZR 0 z) in H3. lia.
Qed.

(** the fit of [two_by_two] up to the changepoints *)
Lemma two_fit p v0 v1 v2 v3 cps : pw_detrend p = false -> pw_logistic p = None -> setup_changepoints 1 (pw_interval p) (pw_range p) 2 = Ok cps ->
  exists rates o1 o2, piecewise_fit ex_ns p (two_by_two v0 v1 v2 v3) =
  Ok (mkPWF p 1 0 2 cps rates [XF o1; XF o2] (fst (changepoint_prior_vectors cps (pw_prior_scale p) rates)) (snd (changepoint_prior_vectors cps (pw_prior_scale p) rates)) (Some [["a"]; ["b"]])).
Proof.
  intros Hd Hl Hc. unfold piecewise_fit. change (time_ids (two_by_two v0 v1 v2 v3)) with [0; 1]%Z. cbn [map].
  assert (D0 : days_since_epoch (ex_ns 0) = 0%R) by (unfold days_since_epoch; change (ex_ns 0 / 1000000000)%Z with 0%Z; lra).
  assert (D1 : days_since_epoch (ex_ns 1) = 1%R) by (unfold days_since_epoch; change (ex_ns 1 / 1000000000)%Z with 86400%Z; lra).
  rewrite D0, D1, fit_two. cbn [bind map hd tl].
  unfold scale_time. replace (0 / 1 - 0)%R with 0%R by lra. replace (1 / 1 - 0)%R with 1%R by lra.
  change (n_series_of (two_by_two v0 v1 v2 v3)) with 2%nat.
  assert (M : Rmax_list 0 [1%R] = 1%R). { unfold Rmax_list. simpl. rewrite Rmax_right; lra. }
  rewrite M, Hc. cbn [bind]. unfold suggest. rewrite Hd, Hl.
  change (target_matrix (two_by_two v0 v1 v2 v3)) with (Ok (A := list (list R)) [[v0; v1]; [v2; v3]]). cbn [bind].
  cbn [endpoints mapM bind last map fst snd hd].
  destruct (changepoint_prior_vectors _ _ _) as [a b] eqn:E. do 3 eexists. rewrite E. reflexivity.
Qed.

(** different options for the two series *)
Definition two_options := own_params (PerSeries [25; 40]%R) (PerSeries [1 / 2; 4 / 5]%R) (PerSeries [1; 2]%R).
Lemma two_options_fit : exists f, piecewise_fit ex_ns two_options ex_yh = Ok f /\ pf_cps f = [[INR 0 * 25]; [INR 0 * 40]]%R /\ pf_cp_scale f = [1; 2]%R.
Proof.
  assert (C : setup_changepoints 1 (pw_interval two_options) (pw_range two_options) 2 = Ok [[INR 0 * 25]; [INR 0 * 40]]%R).
  { unfold setup_changepoints. cbn [two_options own_params pw_interval pw_range to_list_if_scalar combine mapM fst snd]. rewrite !one_cp by lra. reflexivity. }
  destruct (two_fit two_options 1 2 3 4 _ eq_refl eq_refl C) as (rates & o1 & o2 & E). eexists. split; [exact E|]. split; reflexivity.
Qed.

(** one value for two series: no error, and the trend of the two series is one column in which the offset of
    the second series is added at the second date *)
Definition short_options := own_params (PerSeries [25]%R) (Scalar (4 / 5)%R) (Scalar 1%R).
Lemma short_options_fit : exists f, piecewise_fit ex_ns short_options ex_yh = Ok f /\ pf_n_series f = 2%nat /\ List.length (pf_cps f) = 1%nat /\
  forall oa ob c, piecewise_predict (pw_squeeze (pf_params f)) (pf_n_series f) (piecewise_transform ex_ns f [0; 1]%Z) [oa; ob] [c] = Ok (mkArr [2; 1] [c + oa; 2 * c + ob]%R).
Proof.
  assert (C : setup_changepoints 1 (pw_interval short_options) (pw_range short_options) 2 = Ok [[INR 0 * 25]]%R).
  { unfold setup_changepoints. cbn [short_options own_params pw_interval pw_range to_list_if_scalar combine repeat mapM fst snd]. rewrite !one_cp by lra. reflexivity. }
  destruct (two_fit short_options 1 2 3 4 _ eq_refl eq_refl C) as (rates & o1 & o2 & E). eexists. split; [exact E|]. cbn [pf_n_series pf_cps pf_params]. split; [reflexivity|]. split; [reflexivity|].
  intros oa ob c. unfold piecewise_transform. cbn [pf_series pf_t_scale pf_t_start pf_cps pf_params].
  change (times_unique [0; 1]%Z) with [0; 1]%Z. cbn [map].
  assert (D0 : days_since_epoch (ex_ns 0) = 0%R) by (unfold days_since_epoch; change (ex_ns 0 / 1000000000)%Z with 0%Z; lra).
  assert (D1 : days_since_epoch (ex_ns 1) = 1%R) by (unfold days_since_epoch; change (ex_ns 1 / 1000000000)%Z with 86400%Z; lra).
  rewrite D0, D1. unfold scale_time. replace (0 / 1 - 0)%R with 0%R by lra. replace (1 / 1 - 0)%R with 1%R by lra.
  unfold get_changepoint_matrix, multi_changepoint_matrix. cbn. rewrite !Rmult_0_l.
  assert (X0 : changepoint_entry 0 0 = 1%R). { unfold changepoint_entry. rewrite (proj2 (Rleb_true 0 0)) by lra. unfold clip_low. rewrite Rmax_right; lra. }
  assert (X1 : changepoint_entry 1 0 = 2%R). { unfold changepoint_entry. rewrite (proj2 (Rleb_true 0 1)) by lra. unfold clip_low. rewrite Rmax_right; lra. }
  rewrite X0, X1. do 2 f_equal. f_equal; [lra|]. f_equal. lra.
Qed.
