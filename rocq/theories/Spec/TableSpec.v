(** Names of effects that identify them. *)
From Coq Require Import String List.
From Verif.Model Require Import Base Forecaster.
Import ListNotations.
Local Open Scope string_scope.

(** no two effects have the same name, and none has the name of the default effect *)
Definition distinct_names (c : config) : Prop := NoDup ("exogenous_variables_effect" :: map (fun l => fst (fst l)) (match c_effects c with None => [] | Some l => l end)).
