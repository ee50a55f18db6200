(** The default effect, listed explicitly. *)
From Coq Require Import Reals String List Sorting.Sorted.
From Verif.Model Require Import Base Num Regex Frame Arr Prog Likelihood Effect TrendProg Engine Forecaster.
From Verif.Spec Require Import ForecasterSpec RelistSpec.
Import ListNotations.
Local Open Scope string_scope.

(** in alphabetical order, without repetitions *)
Definition alphabetical (cols : list string) : Prop := StronglySorted (fun a b => String.leb a b = true /\ a <> b) cols.

(** [pattern] matches exactly the columns which no pattern of [effects] matches, and there is one *)
Definition remaining (pattern : string) (effects : list listed) (cols : list string) : Prop :=
  (forall c, In c cols -> matched (Some pattern) c <-> forall l, In l effects -> ~ matched (l_regex l) c) /\
  exists c, In c cols /\ matched (Some pattern) c.

(** the default effect as one more entry of [exogenous_effects] *)
Definition listed_default (c : config) (pattern : string) : config :=
  with_effects c (effects_of c ++ [("exogenous_variables_effect", default_of (c_default c), Some pattern)]).
