(** Predicted samples and posterior draws. *)
From Coq Require Import Reals String Bool List ZArith.
From Verif.Model Require Import Base Num Frame Scale Prog Forecaster.
From Verif.Spec Require Import FrameSpec.
Import ListNotations.
Local Open Scope string_scope.

(** draw number [k] of chains with [n] draws each, counted chain after chain *)
Definition chain_draw {A} (n : nat) (r : nat -> nat -> A) (k : nat) : A := r (k / n) (k mod n).
(** the factor by which predicted values of a single series are multiplied *)
Definition factor {P} (c : config) (f : fitted (P := P)) (u : R) : Prop :=
  discrete c = true /\ u = 1%R \/ discrete c = false /\ ft_scale f = SFloat u.
(** one row per date; column [k] is the observation in draw [k], times [u] *)
Definition samples_of (out : frame R) (ts : list Z) (draw : nat -> env) (n : nat) (u : R) : Prop :=
  forall row, In row (f_rows out) <-> exists j, (j < List.length ts)%nat /\ row = mkRow [] (nth j ts 0%Z) (map (fun k => draw k "obs" j * u)%R (seq 0 n)).
(** the rows of the series [ids], which the model numbers in this order: at date [j], series [i] has the observation number [j * length ids + i] *)
Definition panel_samples_of (out : frame R) (ids : list path) (ts : list Z) (draw : nat -> env) (n : nat) (u : path -> R) : Prop :=
  forall row, In row (f_rows out) /\ is_bottom (r_path row) = true <->
    exists i j, (i < List.length ids)%nat /\ (j < List.length ts)%nat /\
      row = mkRow (nth i ids []) (nth j ts 0%Z) (map (fun k => draw k "obs" (j * List.length ids + i)%nat * u (nth i ids []))%R (seq 0 n)).
