(** Specification vocabulary for trends; independent of the model. *)
From Coq Require Import Reals List Sorted.
Import ListNotations.
Local Open Scope R_scope.

(** Strictly increasing list. *)
Definition increasing (l : list R) : Prop := StronglySorted Rlt l.

(** (x)+ *)
Definition pos_part (x : R) : R := if Rle_dec x 0 then 0 else x.

(** Sum over a list of (changepoint, coefficient) pairs of coefficient times a function of the
    changepoint. *)
Definition weighted (f : R -> R) (cps coefs : list R) : R :=
  fold_right Rplus 0 (map (fun p => f (fst p) * snd p) (combine cps coefs)).

(** Sum of the coefficients of the changepoints at or before time t. *)
Definition active_sum (t : R) (cps coefs : list R) : R :=
  fold_right Rplus 0
    (map (fun p => if Rle_dec (fst p) t then snd p else 0) (combine cps coefs)).

(** Continuity of a function at a point (epsilon-delta). *)
Definition continuous_at (f : R -> R) (x : R) : Prop :=
  forall eps, 0 < eps -> exists delta, 0 < delta /\
    forall y, Rabs (y - x) < delta -> Rabs (f y - f x) < eps.
