(** Specification vocabulary for frames. *)
From Coq Require Import String ZArith List.
From Verif.Model Require Import Base Frame.
Import ListNotations.

(** Value of the column named [c] in a row with the given column names and values. *)
Fixpoint value_of {V} (cols : list string) (vals : list V) (c : string) : option V :=
  match cols, vals with
  | x :: cs, v :: vs => if String.eqb c x then Some v else value_of cs vs c
  | _, _ => None
  end.

(** labels of a frame: (series, time) of every row *)
Definition labels {V} (f : frame V) : list (path * Z) := map (fun r => (r_path r, r_time r)) (f_rows f).

(** [u] lists the elements of [l] once each, in the order of their first occurrence. *)
Definition first_appearance {A} (l u : list A) : Prop :=
  NoDup u /\ (forall x, In x l <-> In x u) /\
  forall pre x suf, l = pre ++ x :: suf -> ~ In x pre ->
    exists u1 u2, u = u1 ++ x :: u2 /\ forall y, In y u1 <-> In y pre.

(** [q] is the series [p] itself or an aggregate above it: a prefix of [p] filled up with the
    reserved name. *)
Definition node_of (q p : path) : Prop :=
  exists k, k <= length p /\ q = firstn k p ++ repeat "__total"%string (length p - k).

(** Computable form, for writing sums. *)
Definition under (q p : path) : bool :=
  existsb (fun k => path_eqb q (firstn k p ++ repeat "__total"%string (length p - k)))
          (seq 0 (S (length p))).

(** a series label without the reserved name: a bottom series *)
Definition is_bottom (p : path) : bool := forallb (fun s => negb (String.eqb s "__total")) p.

(** A frame of numbers is coherent: every row is the column-wise sum of the bottom rows of the frame
    at the same time that are under it. *)
From Coq Require Import Reals.
From Verif.Model Require Import Num.
Definition bottom_sum (f : frame R) (q : path) (t : Z) (j : nat) : R :=
  Rsum (map (fun r => nth j (r_vals r) 0%R)
       (filter (fun r => is_bottom (r_path r) && under q (r_path r) && Z.eqb (r_time r) t)%bool
               (f_rows f))).
Definition coherent (f : frame R) : Prop :=
  forall r j, In r (f_rows f) -> j < length (f_cols f) ->
    nth j (r_vals r) 0%R = bottom_sum f (r_path r) (r_time r) j.

(** every combination of values occurring in the levels is a series *)
Definition full_crossing {V} (f : frame V) : Prop :=
  forall p, length p = f_levels f ->
    (forall i, i < f_levels f -> exists r, In r (f_rows f) /\ nth i (r_path r) ""%string = nth i p ""%string) ->
    exists r, In r (f_rows f) /\ r_path r = p.
