(** Names of sample sites chosen by the user: names of effects. *)
From Coq Require Import Reals String Bool List.
From Verif.Model Require Import Base Arr Prog Effect Trend TrendProg Forecaster.
From Verif.Spec Require Import ProgSpec ForecasterSpec.
Import ListNotations.
Local Open Scope string_scope.

(** names used by the trend classes *)
Definition trend_sites : list string := ["offset"; "changepoint_coefficients"; "capacity"; "series"; "trend_flat_coefficient"].

(** a name without a slash which neither the model functions nor the trend classes use *)
Definition free_name (n : string) : Prop := no_slash n = true /\ ~ In n (reserved ++ trend_sites)%list.

(** not a lift experiment around a lift experiment (both would record "lift_experiment") *)
Definition unnested (e : effect) : Prop := match e with Lift (Lift _ _ _ _ _) _ _ _ _ => False | _ => True end.

(** all effects given to the constructor are such *)
Definition clean_config (c : config) : Prop :=
  (forall l, In l (effects_of c) -> free_name (l_name l) /\ unnested (l_effect l)) /\ unnested (default_of (c_default c)).
