(** Property C93: whether the initial values of an accepted logistic trend are numbers. *)
From Coq Require Import Reals ZArith Lra Lia List Sorted.
From Verif.Model Require Import Base Num XFloat Frame Trend.
From Verif.Spec Require Import FrameSpec LineSpec TrendSpec InitialSpec.
From Verif.Facts Require Import TrendExamples InitialFacts.
Import ListNotations.
Local Open Scope R_scope.

(** Full statement: when the fit of a logistic trend accepts its data, the initial rate and offset of
    every series are numbers.  False: the code tests the two logarithms for NaN only.  A series that
    falls linearly from 1 to exactly 0 is accepted with the parameters that trend="logistic" gives (the
    prior of the capacity has no loc, so the capacity is 105% of the largest value); its initial rate is
    minus infinity and its offset NaN. *)
Theorem C93_refuted : exists ns_of p y f, pw_logistic p = Some None /\ pw_detrend p = true /\
  (forall r v, In r (f_rows y) -> In v (r_vals r) -> 0 <= v <= 1) /\
  piecewise_fit ns_of p y = Ok f /\ pf_global_rates f = [XNInf] /\ pf_offset_loc f = [XNaN].
Proof.
  destruct falling_fit as (f & E & K & M). exists day_ns, (params true (1/2) (Some None)), falling, f.
  split; [reflexivity|]. split; [reflexivity|]. split; [|auto].
  intros r v I J. cbn in I. destruct I as [<-|[<-|[]]]; cbn in J; destruct J as [<-|[]]; lra.
Qed.
Print Assumptions C93_refuted.

(** They are numbers exactly for the series that start and end strictly between 0 and the capacity. *)
Theorem C93_numbers_partial : forall ns_of p y f cap, frame_wf y ->
  increasing (map (fun t => days_since_epoch (ns_of t)) (time_ids y)) -> (2 <= length (time_ids y))%nat ->
  initial_capacity p y cap -> 0 < cap -> piecewise_fit ns_of p y = Ok f ->
  Forall2 (fun q km => (is_number (fst km) <-> is_number (snd km)) /\
      forall a, starts_at p y q a -> (is_number (fst km) <-> 0 < a < cap /\ 0 < last_value p y q < cap))
    (series_ids y) (combine (pf_global_rates f) (pf_offset_loc f)).
Proof. exact c93_numbers. Qed.
Print Assumptions C93_numbers_partial.

(** All five possibilities, with the values stored. *)
Theorem C93_cases_partial : forall ns_of p y f cap, frame_wf y ->
  increasing (map (fun t => days_since_epoch (ns_of t)) (time_ids y)) -> (2 <= length (time_ids y))%nat ->
  initial_capacity p y cap -> 0 < cap -> piecewise_fit ns_of p y = Ok f ->
  Forall2 (fun q km => forall a, starts_at p y q a -> initial_pair cap (last_time y) a (last_value p y q) km)
    (series_ids y) (combine (pf_global_rates f) (pf_offset_loc f)).
Proof. exact c93_cases. Qed.
Print Assumptions C93_cases_partial.

(** the falling series meets the hypotheses *)
Example C93_nonvacuous : frame_wf falling /\
  increasing (map (fun t => days_since_epoch (day_ns t)) (time_ids falling)) /\ (2 <= length (time_ids falling))%nat /\
  initial_capacity (params true (1/2) (Some None)) falling (105 / 100 * 1) /\
  exists f, piecewise_fit day_ns (params true (1/2) (Some None)) falling = Ok f.
Proof.
  split; [|split; [|split; [|split]]].
  - intros r I. cbn in I. destruct I as [<-|[<-|[]]]; split; reflexivity.
  - change (time_ids falling) with [0; 1]%Z. cbn [map]. rewrite !day_ns_days. repeat constructor; lra.
  - cbn; lia.
  - assert (SV : start_values (params true (1/2) (Some None)) falling [] = [1; 0]) by exact falling_values.
    assert (Q : forall q, has_series falling q -> q = []) by (intros q (r & I & <-); cbn in I; destruct I as [<-|[<-|[]]]; reflexivity).
    unfold initial_capacity. change (pw_logistic (params true (1/2) (Some None))) with (Some (None (A := R))). cbv iota. exists [], 1. split; [eexists; split; [left; reflexivity|reflexivity]|]. rewrite SV. split; [now left|]. split; [|reflexivity].
    intros q v Hq I. rewrite (Q q Hq), SV in I. destruct I as [<-|[<-|[]]]; lra.
  - destruct falling_fit as (f & E & _). now exists f.
Qed.
