(** The model that is fitted and the model that is evaluated by a prediction. *)
From Coq Require Import Reals String Bool List.
From Verif.Model Require Import Base Arr Prog.
Import ListNotations.
Local Open Scope string_scope.

(** For all values of the latent variables the two programs have the same sites, distributions and values,
    or fail alike; only the site "obs", the last one, is observed with the values [y] in [m] and drawn in [m']. *)
Definition same_but_observed (y : arr) (m m' : prog arr) : Prop :=
  forall e, match run e [] m, run e [] m' with
            | Ok (_, tr), Ok (_, tr') => exists before d v,
                tr = (before ++ [("obs", SSample d y true)])%list /\ tr' = (before ++ [("obs", SSample d v false)])%list
            | Err a, Err b => a = b
            | _, _ => False
            end.
