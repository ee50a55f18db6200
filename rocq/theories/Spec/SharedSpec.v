(** Specification vocabulary for objects passed by reference. *)
From Coq Require Import Reals String Bool ZArith List.
From Verif.Model Require Import Base Num Frame Effect Forecaster History Shared.
Import ListNotations.
Local Open Scope string_scope.

(** what the addresses refer to *)
Definition points_to (h : effect_heap) (a : nat) (e : effect) : Prop := nth_error h a = Some e.
Definition listed_as (h : effect_heap) (lr : listed_ref) (l : listed) : Prop :=
  fst (fst lr) = fst (fst l) /\ snd lr = snd l /\ points_to h (snd (fst lr)) (snd (fst l)).
Definition fitted_as (h : effect_heap) (fr : fitted_ref) (f : fitted_effect) : Prop :=
  fst (fst fr) = fst (fst f) /\ snd fr = snd f /\ points_to h (snd (fst fr)) (snd (fst f)).

(** no object of [h] is changed *)
Definition unchanged (h h' : effect_heap) : Prop := forall a e, points_to h a e -> points_to h' a e.

(** the objects of forecaster [i] are used by no other one *)
Definition alone {TS P} (w : world (TS := TS) (P := P)) (i : nat) : Prop :=
  forall j, j <> i ->
    (forall a, m_trend (w_members w i) = Some a -> m_trend (w_members w j) <> Some a) /\
    (forall a, m_transformer (w_members w i) = Some a -> m_transformer (w_members w j) <> Some a).

(** the calls to forecaster [i] *)
Definition calls_to (i : nat) (cs : list (nat * call)) : list call := map snd (filter (fun ic => Nat.eqb (fst ic) i) cs).
