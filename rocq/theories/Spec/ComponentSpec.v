(** The components of a forecast in the frame of all sites. *)
From Coq Require Import Reals String Bool List.
From Verif.Model Require Import Base Num Frame Arr Prog Likelihood.
From Verif.Spec Require Import ProgSpec.
Import ListNotations.
Local Open Scope string_scope.

(** the value of a row in the column called [name] *)
Definition cell (f : frame R) (r : row R) (name : string) : option R := dict_get (combine (f_cols f) (r_vals r)) name.

(** the named columns exist, and their values in this row add up to [total] *)
Definition adds_up (f : frame R) (r : row R) (names : list string) (total : R) : Prop :=
  exists vals, Forall2 (fun n v => cell f r n = Some v) names vals /\ Rsum vals = total.

(** the expected value of entry [k] of the observations, given the other sites of a run *)
Definition expected (tr : trace) (k : nat) (v : R) : Prop :=
  exists d x b, dict_get tr "obs" = Some (SSample d x b) /\
    match d with
    | DNormal loc _ => v = entry loc k
    | DGamma c r => v = gamma_mean (entry c k) (entry r k)
    | DNegBinomial2 m c => v = nb2_mean (entry m k) (entry c k)
    | _ => False
    end.

(** the same for several series: expected value of series [i] at time [j] *)
Definition expected_at (tr : trace) (i j : nat) (v : R) : Prop :=
  exists loc tril x b, dict_get tr "obs" = Some (SSample (DMvNormal loc tril) x b) /\ v = aget loc [j; i].
