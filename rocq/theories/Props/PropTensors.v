(** Properties C88 (time and data tensors) and C89 (trend options per series). *)
From Coq Require Import Reals Lra ZArith String List Lia.
From Verif.Model Require Import Base Num XFloat Frame Arr Trend TrendProg Engine Forecaster Tensors.
From Verif.Spec Require Import FrameSpec TensorSpec.
From Verif.Facts Require Import FrameProps ForecasterExamples TensorFacts TensorExamples.
Import ListNotations.
Local Open Scope string_scope.

(** * C88.  [convert_dataframe_to_tensors] keeps time and data aligned: entry (i, j) of both tensors comes
    from the same row, the j-th row of the i-th series; series of different lengths are rejected. *)
Theorem C88_tensors : forall (ns_of : Z -> Z) (f : frame R), exists groups, grouped f groups /\
  ((f_levels f = 0%nat \/ equal_lengths groups) /\
    convert_dataframe_to_tensors ns_of f = Ok (map (map (fun r => [days_since_epoch (ns_of (r_time r))])) groups, map (map r_vals) groups) \/
   f_levels f <> 0%nat /\ ~ equal_lengths groups /\ convert_dataframe_to_tensors ns_of f = Err ValueError).
Proof. exact c88_tensors. Qed.
Print Assumptions C88_tensors.

(** interleaved rows *)
Example C88_crossing : convert_dataframe_to_tensors (fun t => t * (86400 * 1000000000))%Z crossing =
  Ok ([[[days_since_epoch 0]; [days_since_epoch 86400000000000]]; [[days_since_epoch 0]; [days_since_epoch 86400000000000]]], [[[1%R]; [3%R]]; [[2%R]; [4%R]]]).
Proof. reflexivity. Qed.
Example C88_unequal : convert_dataframe_to_tensors (fun t => t) (mkFrame 1 ["y"] [mkRow ["b"] 0%Z [1%R]; mkRow ["a"] 0%Z [2%R]; mkRow ["b"] 1%Z [3%R]]) = Err ValueError.
Proof. reflexivity. Qed.

(** * C89.  Trend options given as a list, one value for each series: every series has the changepoints it
    would have with its own values as scalars, and its block of the prior scale is its own value. *)
Theorem C89_own_options : forall ns_of p y f, piecewise_fit ns_of p y = Ok f ->
  given_for (n_series_of y) (pw_interval p) -> given_for (n_series_of y) (pw_range p) -> given_for (n_series_of y) (pw_prior_scale p) ->
  List.length (pf_cps f) = n_series_of y /\
  exists blocks, pf_cp_scale f = concat blocks /\ List.length blocks = n_series_of y /\
  forall i, (i < n_series_of y)%nat -> exists iv rg sc f', own (pw_interval p) i = Some iv /\ own (pw_range p) i = Some rg /\ own (pw_prior_scale p) i = Some sc /\
    piecewise_fit ns_of (with_options p iv rg sc) y = Ok f' /\ nth_error (pf_cps f) i = nth_error (pf_cps f') i /\
    nth_error blocks i = Some (repeat sc (List.length (nth i (pf_cps f) []))) /\
    pf_offset_loc f = pf_offset_loc f' /\ pf_t_scale f = pf_t_scale f' /\ pf_t_start f = pf_t_start f' /\ pf_series f = pf_series f'.
Proof. exact c89_own. Qed.
Print Assumptions C89_own_options.

(** priors and changepoint matrix have one entry for each changepoint of each series *)
Theorem C89_dimensions : forall ns_of p y f, piecewise_fit ns_of p y = Ok f ->
  given_for (n_series_of y) (pw_interval p) -> given_for (n_series_of y) (pw_range p) -> given_for (n_series_of y) (pw_prior_scale p) ->
  List.length (pf_cp_loc f) = n_changepoints f /\ List.length (pf_cp_scale f) = n_changepoints f /\
  forall fh, match piecewise_transform ns_of f fh with
             | D2 rows => n_series_of y = 1%nat /\ forall r, In r rows -> List.length r = n_changepoints f
             | D3 series => List.length series = n_series_of y /\ forall m r, In m series -> In r m -> List.length r = n_changepoints f
             end.
Proof. exact c89_dimensions. Qed.
Print Assumptions C89_dimensions.

(** A list of a wrong length is not rejected: the shorter list decides how many series have changepoints
    (piecewise.py:311-313, [zip]) ... *)
Theorem C89_zip : forall ns_of p y f, piecewise_fit ns_of p y = Ok f ->
  List.length (pf_cps f) = Nat.min (List.length (to_list_if_scalar (pw_interval p) (n_series_of y))) (List.length (to_list_if_scalar (pw_range p) (n_series_of y))).
Proof. exact c89_zip. Qed.
Print Assumptions C89_zip.
(** ... and the trend can be computed without any error: with one interval for two series of two dates the
    trend is one column to which the offset of the first series is added at the first date and that of the
    second series at the second date *)
Theorem C89_short_list_refuted : exists f, piecewise_fit ex_ns short_options ex_yh = Ok f /\ pf_n_series f = 2%nat /\ List.length (pf_cps f) = 1%nat /\
  forall oa ob c, piecewise_predict (pw_squeeze (pf_params f)) (pf_n_series f) (piecewise_transform ex_ns f [0; 1]%Z) [oa; ob] [c] = Ok (mkArr [2; 1] [c + oa; 2 * c + ob]%R).
Proof. exact short_options_fit. Qed.
Print Assumptions C89_short_list_refuted.

Example C89_case : (exists f, piecewise_fit ex_ns two_options ex_yh = Ok f /\ pf_cps f = [[INR 0 * 25]; [INR 0 * 40]]%R /\ pf_cp_scale f = [1; 2]%R) /\
  n_series_of ex_yh = 2%nat /\ given_for 2 (pw_interval two_options) /\ given_for 2 (pw_range two_options) /\ given_for 2 (pw_prior_scale two_options).
Proof. split; [exact two_options_fit|]. repeat split. Qed.
