(** Columns offered to the effects of a hierarchical forecaster (_expand_column_per_level.py, multivariate.py:262-271):
    shared columns keep their names, every other column is replaced by one copy per series. *)
From Coq Require Import String List.
From Coq Require Import Reals.
From Verif.Model Require Import Base Num Regex Frame Arr Prog Likelihood Effect TrendProg Engine Forecaster.
Import ListNotations.
Local Open Scope string_scope.

Definition copy_name (c : string) (p : path) : string := c ++ "_dup_" ++ String.concat "-" p.

Inductive offered (shared cols : list string) (ids : list path) : string -> Prop :=
| offered_shared c : In c cols -> In c shared -> offered shared cols ids c
| offered_copy c p : In c cols -> ~ In c shared -> In p ids -> offered shared cols ids (copy_name c p).

(** the pattern does not ask for the end of the name *)
Fixpoint open_ended (r : re) : Prop :=
  match r with
  | REps | RChr _ | RAny | RBol => True
  | REol => False
  | RSeq a b | RAlt a b => open_ended a /\ open_ended b
  | RStar a => open_ended a
  end.

(** shared_features, [] by default *)
Definition shared_features (c : config) : list string := match c_shared c with None => [] | Some l => l end.
