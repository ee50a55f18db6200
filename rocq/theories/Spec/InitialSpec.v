(** Specification vocabulary for the initial values of the logistic trend. *)
From Coq Require Import Reals List.
From Verif.Model Require Import Base XFloat Frame Trend.
From Verif.Spec Require Import LineSpec.
Import ListNotations.
Local Open Scope R_scope.

Definition is_number (x : xr) : Prop := exists r, x = XF r.

(** the value a series starts from: 1e-8 for every series as soon as one of them starts at zero (C19) *)
Definition some_zero_start (p : piecewise_params) (y : frame R) : Prop :=
  exists q, has_series y q /\ first_value p y q = 0.
Definition starts_at (p : piecewise_params) (y : frame R) (q : path) (v : R) : Prop :=
  (some_zero_start p y /\ v = / 100000000) \/ (~ some_zero_start p y /\ v = first_value p y q).

(** what the fit stores for a series which starts at [a] and ends at [b] *)
Inductive initial_pair (cap T a b : R) : xr * xr -> Prop :=
| ip_inside k m : 0 < a < cap -> 0 < b < cap -> cap / (1 + exp (- m)) = a ->
    cap / (1 + exp (- (k * T + m))) = b -> initial_pair cap T a b (XF k, XF m)
| ip_from_capacity : a = cap -> 0 < b < cap -> initial_pair cap T a b (XNInf, XPInf)
| ip_to_zero : 0 < a <= cap -> b = 0 -> initial_pair cap T a b (XNInf, XNaN)
| ip_to_capacity : 0 < a < cap -> b = cap -> initial_pair cap T a b (XPInf, XNaN)
| ip_at_capacity : a = cap -> b = cap -> initial_pair cap T a b (XNaN, XNaN).
