(** Warnings about patterns. *)
From Coq Require Import Reals String List.
From Verif.Model Require Import Base Num Regex Frame Effect Forecaster Warn.
From Verif.Spec Require Import ForecasterSpec.
Import ListNotations.

(** a column which [l] and an entry listed before it both match *)
Definition contested (X : frame R) (before : list listed) (l : listed) (c : string) : Prop :=
  In c (f_cols X) /\ matched (l_regex l) c /\ exists l', In l' before /\ matched (l_regex l') c.

(** the warnings for [l], listed after [before] *)
Definition warns (X : frame R) (before : list listed) (l : listed) (ws : list warning) : Prop :=
  exists w1 w2, ws = w1 ++ w2 /\
    ((w1 = [] /\ forall c, ~ contested X before l c) \/
     (exists cols, w1 = [AlreadySet cols] /\ cols <> [] /\ forall c, In c cols <-> contested X before l c)) /\
    ((w2 = [] /\ exists c, In c (f_cols X) /\ matched (l_regex l) c) \/
     (w2 = [NoMatch (l_regex l)] /\ forall c, In c (f_cols X) -> ~ matched (l_regex l) c)).

(** [ws] are the warnings for the entries of [effects], in order *)
Definition warns_in_order (X : frame R) (effects : list listed) (ws : list warning) : Prop :=
  exists wss, ws = concat wss /\ List.length wss = List.length effects /\
    forall k l w, nth_error effects k = Some l -> nth_error wss k = Some w -> warns X (firstn k effects) l w.
