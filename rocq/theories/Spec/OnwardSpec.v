(** The trend after its last changepoint. *)
From Coq Require Import Reals ZArith String List.
From Verif.Model Require Import Base Prog.
From Verif.Spec Require Import DocsSpec.
Local Open Scope R_scope.

(** step [s] is not before any of the [K] changepoints *)
Definition past_changepoints (K : nat) (interval s : R) : Prop := forall k : nat, (k < K)%nat -> INR k * interval <= s.
(** growth of series [i] per step once all changepoints have happened: the sum of its rate adjustments *)
Definition final_rate (e : env) (K i : nat) : R := sum_to K (fun k => e "changepoint_coefficients"%string (i * K + k)%nat).
(** position on the logistic curve *)
Definition logit (capacity v : R) : R := ln (v / (capacity - v)).
(** from [v1] to [v2], [d] steps later: linear, or linear on the scale of the logistic curve *)
Definition onward (e : env) (logistic : bool) (K i : nat) (d v1 v2 : R) : Prop :=
  if logistic then 0 < e "capacity"%string i -> logit (e "capacity"%string i) v2 - logit (e "capacity"%string i) v1 = d * final_rate e K i
  else v2 - v1 = d * final_rate e K i.
