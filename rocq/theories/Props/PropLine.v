(** Property C84: the initial values of the trend come from the least squares line of each series; the
    parts of C16, C17 and C18 about fitted trends. *)
From Coq Require Import Reals ZArith Lra Lia List Sorted.
From Verif.Model Require Import Base Num XFloat Frame Trend.
From Verif.Spec Require Import LineSpec TrendSpec.
From Verif.Facts Require Import TotalFacts TrendExamples LineFacts LogisticFit.
Import ListNotations.
Local Open Scope R_scope.

(** Full statement: before the initial values are suggested, every series is replaced by its least squares
    line, and the suggested rate and offset are the slope and the level of that line.  The first part
    holds for every series of every frame. *)
Theorem C84_line : forall y p, has_series y p -> exists a b, least_squares a b (series_points y p) /\
  series_points (detrend_frame y) p = map (fun q => (fst q, a + b * fst q)) (series_points y p).
Proof. exact c84_line. Qed.
Print Assumptions C84_line.

(** The line is the only one when the series has two times. *)
Theorem C84_unique : forall y p a b q q', has_series y p -> In q (series_points y p) -> In q' (series_points y p) -> fst q <> fst q' ->
  least_squares a b (series_points y p) -> series_points (detrend_frame y) p = map (fun q => (fst q, a + b * fst q)) (series_points y p).
Proof. exact c84_unique. Qed.
Print Assumptions C84_unique.

(** No series is added or lost. *)
Theorem C84_series : forall y p, has_series (detrend_frame y) p <-> has_series y p.
Proof. exact c84_series. Qed.
Print Assumptions C84_series.

(** The second part fails: for a series at consecutive times the suggested offset is the value of the line
    at the first time (the scaled time 0), but the suggested rate is minus its slope (see C16). *)
Theorem C84_rate_refuted : forall ns_of p y f a b t0, frame_wf y -> f_levels y = 0%nat -> (2 <= length (f_rows y))%nat ->
  map r_time (f_rows y) = map (fun i => (t0 + Z.of_nat i)%Z) (seq 0 (length (f_rows y))) ->
  increasing (map (fun t => days_since_epoch (ns_of t)) (map r_time (f_rows y))) ->
  pw_detrend p = true -> pw_logistic p = None -> least_squares a b (series_points y []) -> piecewise_fit ns_of p y = Ok f ->
  pf_global_rates f = [XF (- b)] /\ pf_offset_loc f = [XF (a + b * IZR t0)].
Proof. intros ns_of p y f a b t0 W L. exact (c84_rate ns_of p y f a b t0 (conj W L)). Qed.
Print Assumptions C84_rate_refuted.

(** the values 1, 3, 2 on three days: the line is 3/2 + t/2 *)
Definition three : frame R := daily [1; 3; 2].
Example C84_nonvacuous : frame_wf three /\ has_series three [] /\ least_squares (3/2) (1/2) (series_points three []) /\
  increasing (map (fun t => days_since_epoch (day_ns t)) (map r_time (f_rows three))) /\
  exists f, piecewise_fit day_ns (params true (1/2) None) three = Ok f.
Proof.
  assert (W : frame_wf three) by (intros r I; cbn in I; repeat (destruct I as [<-|I]; [split; reflexivity|]); destruct I).
  assert (INC : increasing (map (fun t => days_since_epoch (day_ns t)) (map r_time (f_rows three)))).
  { cbn [three daily f_rows map combine seq length fst snd r_time]. rewrite !day_ns_days. unfold increasing. cbn [Z.of_nat Pos.of_succ_nat Pos.succ].
    repeat first [apply SSorted_nil | apply SSorted_cons | apply Forall_nil | apply Forall_cons]; lra. }
  split; [exact W|]. split; [exists (mkRow [] 0%Z [1]); cbn; auto|]. split; [|split; [exact INC|]].
  - intros a b. cbn. pose proof (Rle_0_sqr (a + b - 2)) as Q1. pose proof (Rle_0_sqr (b - 1/2)) as Q2. unfold Rsqr in *. nra.
  - edestruct (piecewise_fit_total day_ns (params true (1/2) None) three 1 (1/2)) as (f & _ & _ & _ & E & _); [| | | | | | | | |exists f; exact E]; try reflexivity; try lra.
    + split; [exact W|reflexivity].
    + cbn; lia.
    + cbn. repeat constructor; cbn; intuition discriminate.
    + exact INC.
Qed.

(** * C16, fitted trends: for every panel, the initial line of each series has the series' first (start)
    value at scaled time 0, and at the last time the reflection of its last value. *)
Theorem C16_fit_partial : forall ns_of p y f, frame_wf y ->
  increasing (map (fun t => days_since_epoch (ns_of t)) (time_ids y)) -> (2 <= length (time_ids y))%nat ->
  pw_logistic p = None -> piecewise_fit ns_of p y = Ok f ->
  Forall2 (fun q km => exists k, km = (XF k, XF (first_value p y q)) /\
      first_value p y q + k * last_time y = 2 * first_value p y q - last_value p y q)
    (series_ids y) (combine (pf_global_rates f) (pf_offset_loc f)).
Proof. exact c16_fit. Qed.
Print Assumptions C16_fit_partial.

(** * C17, fitted trends: the initial curve of every series goes through its first and its last value. *)
Theorem C17_fit : forall ns_of p y f cap, frame_wf y ->
  increasing (map (fun t => days_since_epoch (ns_of t)) (time_ids y)) -> (2 <= length (time_ids y))%nat ->
  initial_capacity p y cap -> (forall q, has_series y q -> 0 < first_value p y q < cap /\ 0 < last_value p y q < cap) ->
  piecewise_fit ns_of p y = Ok f ->
  Forall2 (fun q km => exists k m, km = (XF k, XF m) /\
      cap / (1 + exp (- m)) = first_value p y q /\ cap / (1 + exp (- (k * last_time y + m))) = last_value p y q)
    (series_ids y) (combine (pf_global_rates f) (pf_offset_loc f)).
Proof. exact c17_fit. Qed.
Print Assumptions C17_fit.

Example C17_fit_nonvacuous : frame_wf three /\ initial_capacity (params false (1/2) (Some None)) three (105 / 100 * 3) /\
  (forall q, has_series three q -> 0 < first_value (params false (1/2) (Some None)) three q < 105 / 100 * 3 /\
                                   0 < last_value (params false (1/2) (Some None)) three q < 105 / 100 * 3) /\
  exists f, piecewise_fit day_ns (params false (1/2) (Some None)) three = Ok f.
Proof.
  destruct C84_nonvacuous as (W & HS & _ & INC & _).
  assert (Q : forall q, has_series three q -> q = []).
  { intros q (r & I & <-). cbn in I. repeat (destruct I as [<-|I]; [reflexivity|]). destruct I. }
  split; [exact W|]. split; [|split].
  - cbn. exists [], 3. split; [exact HS|]. split; [cbn; auto|]. split; [|lra]. intros q v Hq I. rewrite (Q q Hq) in I. cbn in I. intuition lra.
  - intros q Hq. rewrite (Q q Hq). unfold first_value, last_value. cbn. lra.
  - edestruct (piecewise_fit_total day_ns (params false (1/2) (Some None)) three 1 (1/2)) as (f & _ & _ & _ & E & _); [| | | | | | | | |exists f; exact E]; try reflexivity; try lra.
    + split; [exact W|reflexivity].
    + cbn; lia.
    + cbn. repeat constructor; cbn; intuition discriminate.
    + exact INC.
    + cbn. intros r I. repeat (destruct I as [<-|I]; [cbn; lra|]). destruct I.
Qed.

(** * C18: the suggestion fails exactly when a series starts or ends below 0 or above the capacity (a
    zero among the first values changes all of them, C19; then the first values do not matter). *)
Theorem C18_exact_partial : forall t0 t1 ys cap e, 0 < cap -> (forall v, In v ys -> fst v <> 0) ->
  suggest_logistic t0 t1 ys cap = Err e <-> e = ValueError /\ exists v, In v ys /\ (outside cap (fst v) \/ outside cap (snd v)).
Proof. exact suggest_logistic_error. Qed.
Print Assumptions C18_exact_partial.
Theorem C18_zero_partial : forall t0 t1 ys cap e v0, / 100000000 <= cap -> In v0 ys -> fst v0 = 0 ->
  suggest_logistic t0 t1 ys cap = Err e <-> e = ValueError /\ exists v, In v ys /\ outside cap (snd v).
Proof. exact suggest_logistic_zero. Qed.
Print Assumptions C18_zero_partial.
Theorem C18_outside : forall ns_of p y f cap q, frame_wf y ->
  increasing (map (fun t => days_since_epoch (ns_of t)) (time_ids y)) -> (2 <= length (time_ids y))%nat ->
  initial_capacity p y cap -> 0 < cap -> (forall q, has_series y q -> first_value p y q <> 0) ->
  has_series y q -> outside cap (first_value p y q) \/ outside cap (last_value p y q) -> piecewise_fit ns_of p y <> Ok f.
Proof. exact c18_outside. Qed.
Print Assumptions C18_outside.

(** a capacity below the last value *)
Example C18_outside_nonvacuous : initial_capacity (params false (1/2) (Some (Some (3/2)))) three (3/2) /\
  first_value (params false (1/2) (Some (Some (3/2)))) three [] <> 0 /\ outside (3/2) (last_value (params false (1/2) (Some (Some (3/2)))) three []).
Proof. split; [reflexivity|]. unfold outside, first_value, last_value. cbn. split; lra. Qed.
