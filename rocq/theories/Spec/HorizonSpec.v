(** The part of exogenous data that a horizon covers. *)
From Coq Require Import String Bool ZArith List.
From Verif.Model Require Import Base Frame.
Import ListNotations.

(** the same columns, index levels and rows at the given dates; other rows may differ *)
Definition same_rows_at {V} (times : list Z) (X X' : frame V) : Prop :=
  f_levels X = f_levels X' /\ f_cols X = f_cols X' /\
  filter (fun r => existsb (Z.eqb (r_time r)) times) (f_rows X) = filter (fun r => existsb (Z.eqb (r_time r)) times) (f_rows X').
