(** Specification vocabulary for growing histories (C94); independent of the model. *)
From Coq Require Import Reals List.
Import ListNotations.
Local Open Scope R_scope.

(** [n] dates at equal distances, in days *)
Definition regular (first step : R) (n : nat) : list R := map (fun k => first + INR k * step) (seq 0 n).

(** the calendar day of a time measured in steps *)
Definition calendar_day (t_scale t_start c : R) : R := (c + t_start) * t_scale.

Definition prefix {A} (l l' : list A) : Prop := exists more, l' = l ++ more.

(** the same coefficients, and zero for what is new *)
Definition padded (l l' : list R) : Prop := exists k, l' = l ++ repeat 0 k.
