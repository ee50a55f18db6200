(** The trend as the documentation writes it (docs/the-theory.md, "Trend"); independent of the model's helpers. *)
From Coq Require Import Reals ZArith String List.
From Verif.Model Require Import Base Num Arr Prog Trend TrendProg.
Import ListNotations.
Local Open Scope R_scope.

(** * Time and changepoints *)
(** days since 1970, in whole seconds, of a time in nanoseconds *)
Definition day (ns : Z) : R := IZR (ns / 1000000000) / 86400.
(** steps between the first of the training days and [d]; one step is the average distance of the training days *)
Definition steps (days : list R) (d : R) : R := (d - hd 0 days) / ((last days 0 - hd 0 days) / INR (length days - 1)).

(** where the changepoints end, [n] training dates *)
Definition range_end (n : nat) (range : R) : R :=
  if Rlt_dec 0 range then (if Rlt_dec range 1 then INR (n - 1) * range else range) else INR (n - 1) + range.

(** there are [K] changepoints: the multiples of the interval, from 0, below that end *)
Definition changepoint_count (n : nat) (interval range : R) (K : nat) : Prop :=
  forall k : nat, (k < K)%nat <-> INR k * interval < range_end n range.

(** * What the code computes *)
(** contribution of a changepoint at step [k] to the value at step [t], with coefficient one *)
Definition bend (t k : R) : R := if Rle_dec k t then t - k + 1 else Rmax 0 (1 - k).

Definition sum_to (K : nat) (f : nat -> R) : R := fold_right Rplus 0 (map f (seq 0 K)).

(** series [i] at step [t]: [K] changepoints for every series *)
Definition line_at (e : env) (K : nat) (interval : R) (i : nat) (t : R) : R :=
  e "offset"%string i + sum_to K (fun k => e "changepoint_coefficients"%string (i * K + k)%nat * bend t (INR k * interval)).
Definition trend_at (e : env) (logistic : bool) (K : nat) (interval : R) (i : nat) (t : R) : R :=
  if logistic then e "capacity"%string i / (1 + exp (- line_at e K interval i t)) else line_at e K interval i t.

(** options of a fitted piecewise trend *)
Definition piecewise_options (t : trend) (interval range : R) (logistic : bool) : Prop :=
  match t with
  | TPiecewise p _ _ _ => pw_interval p = Scalar interval /\ pw_range p = Scalar range /\ logistic = match pw_logistic p with None => false | Some _ => true end
  | _ => False
  end.

(** the recorded prior of the rate adjustments: independent Laplace variables around zero *)
Definition laplace_prior (tr : trace) (size : nat) (sigma : R) : Prop :=
  exists v, dict_get tr "changepoint_coefficients" = Some (SSample (DLaplace (mkArr [size] (repeat 0 size)) (mkArr [size] (repeat sigma size))) v false).
Definition prior_scale_option (t : trend) (sigma : R) : Prop := match t with TPiecewise p _ _ _ => pw_prior_scale p = Scalar sigma | _ => False end.

(** * What the documentation says *)
(** "Original formulation": rate [k], offset [m], changepoints [kappa] 0 .. [kappa] (M - 1), rate adjustments [delta],
    indicator [a], offset corrections [gamma] *)
Definition original (a : R -> R -> R) (gamma : R -> R -> R) (M : nat) (kappa delta : nat -> R) (k m t : R) : R :=
  (k + sum_to M (fun i => a t (kappa i) * delta i)) * t + (m + sum_to M (fun i => a t (kappa i) * gamma (kappa i) (delta i))).
(** as printed: 1 if the changepoint is greater than t; gamma = kappa * delta *)
Definition printed_indicator (t c : R) : R := if Rlt_dec t c then 1 else 0.
Definition printed_gamma (c d : R) : R := c * d.
(** "Prophetverse's equivalent formulation": b(t)^T delta + k t + m with b(t)_i = (t - kappa_i)_+ *)
Definition spline (M : nat) (kappa delta : nat -> R) (k m t : R) : R := sum_to M (fun i => Rmax 0 (t - kappa i) * delta i) + k * t + m.
(** at or after the changepoint *)
Definition after (t c : R) : R := if Rle_dec c t then 1 else 0.
