(** Properties C01-C03: scaling of the target. *)
From Coq Require Import Reals Lra String Bool ZArith List.
From Verif.Model Require Import Base Num Frame Scale.
From Verif.Spec Require Import FrameSpec ScaleSpec.
From Verif.Facts Require Import ScaleFacts PanelExamples.
Import ListNotations.
Local Open Scope R_scope.

(** * C01 scaling and inverse scaling cancel, for every scale the forecaster can hold *)
Theorem C01_scale_round_trip : forall user y s discrete ys,
  frame_wf y -> set_y_scales user y = Ok s -> scale_y discrete s y = Ok ys ->
  inv_scale_y discrete s ys = Ok y.
Proof. exact round_trip_user. Qed.
Print Assumptions C01_scale_round_trip.

(** what the scaled target is: every value divided by the factor of its series, labels unchanged *)
Theorem C01_scaled_values : forall y s ys p v,
  scale_y false s y = Ok ys -> (exists c, s = SFloat c) \/ (exists tab, s = STable tab) ->
  (values_of ys p v <-> exists v0 c, values_of y p v0 /\ scale_of s p = Some c /\ v = v0 / c) /\
  labels ys = labels y.
Proof. exact scaled_values. Qed.
Print Assumptions C01_scaled_values.

Example C01_nonvacuous : exists s ys, frame_wf shops /\ set_y_scales None shops = Ok s /\
  scale_y false s shops = Ok ys /\ ys <> shops.
Proof. exact shops_scaling_runs. Qed.

(** * C02 automatic scale *)
Theorem C02_within_unit_interval : forall y s ys p v,
  one_column y -> set_y_scales None y = Ok s -> scale_y false s y = Ok ys ->
  values_of ys p v -> -1 <= v <= 1.
Proof. intros y s ys p v. exact (auto_scale_bound y ys s p v). Qed.
Print Assumptions C02_within_unit_interval.

Theorem C02_bound_attained : forall y s ys p v,
  one_column y -> set_y_scales None y = Ok s -> scale_y false s y = Ok ys ->
  values_of y p v -> v <> 0 -> exists w, values_of ys p w /\ Rabs w = 1.
Proof. intros y s ys p v. exact (auto_scale_attained y ys s p v). Qed.
Print Assumptions C02_bound_attained.

Theorem C02_zero_series_unchanged : forall y s ys p,
  one_column y -> set_y_scales None y = Ok s -> scale_y false s y = Ok ys ->
  (forall v, values_of y p v -> v = 0) -> rows_of ys p = rows_of y p.
Proof. intros y s ys p. exact (auto_scale_zero_series y ys s p). Qed.
Print Assumptions C02_zero_series_unchanged.

Example C02_nonvacuous : exists s ys, one_column shops /\ set_y_scales None shops = Ok s /\
  scale_y false s shops = Ok ys /\ values_of shops ["n"; "b"]%string 4 /\
  (forall v, values_of shops ["s"; "c"]%string v -> v = 0).
Proof. exact shops_c02. Qed.

(** * C03.  Full statement: scaling never fails, for every target and every positive scale.
    False: the automatic scale of an all-zero series becomes the int 1, and int scales have no
    [loc]; a pandas Series as scale fails as soon as there are two rows. *)
Theorem C03_auto_panel_partial : forall y, one_column y -> f_levels y <> 0%nat ->
  exists s ys, set_y_scales None y = Ok s /\ scale_y false s y = Ok ys.
Proof. exact auto_panel_runs. Qed.
Print Assumptions C03_auto_panel_partial.

Theorem C03_auto_single_partial : forall y, one_column y -> f_levels y = 0%nat ->
  (exists v, values_of y [] v /\ v <> 0) ->
  exists c ys, set_y_scales None y = Ok (SFloat c) /\ 0 < c /\ scale_y false (SFloat c) y = Ok ys.
Proof. exact auto_single_runs. Qed.
Print Assumptions C03_auto_single_partial.

Theorem C03_float_partial : forall y c discrete, c <> 0 ->
  set_y_scales (Some (SFloat c)) y = Ok (SFloat c) /\ exists ys, scale_y discrete (SFloat c) y = Ok ys.
Proof. exact float_scale_runs. Qed.
Print Assumptions C03_float_partial.

Theorem C03_zero_series_refuted : exists y, one_column y /\ f_rows y <> [] /\
  set_y_scales None y = Ok (SInt 1) /\ scale_y false (SInt 1) y = Err AttributeError.
Proof. exact zeros_fail. Qed.
Print Assumptions C03_zero_series_refuted.

Theorem C03_int_scale_refuted : forall y z, z <> 0%Z ->
  set_y_scales (Some (SInt z)) y = Ok (SInt z) /\ scale_y false (SInt z) y = Err AttributeError.
Proof. exact int_scale_fails. Qed.
Print Assumptions C03_int_scale_refuted.

Theorem C03_series_scale_refuted : forall y tab s, one_column y -> length (f_rows y) <> 1%nat ->
  set_y_scales (Some (SSeries tab)) y = Ok s -> exists e, scale_y false s y = Err e.
Proof. exact series_scale_fails. Qed.
Print Assumptions C03_series_scale_refuted.

Example C03_nonvacuous : one_column shops /\ f_levels shops <> 0%nat /\ one_column single /\
  f_levels single = 0%nat /\ (exists v, values_of single [] v /\ v <> 0).
Proof. exact c03_cases. Qed.
