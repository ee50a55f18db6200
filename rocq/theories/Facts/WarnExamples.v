(** Warnings of concrete fits. *)
From Coq Require Import Reals String Bool ZArith List Permutation.
From Verif.Model Require Import Base Num Regex Frame Arr Expand Effect Forecaster Warn.
From Verif.Spec Require Import ForecasterSpec ResponseSpec CopySpec WarnSpec.
From Verif.Facts Require Import EffectExamples ForecasterExamples ResponseExamples WarnFacts CopyExamples.
Import ListNotations.
Local Open Scope string_scope.

(** the copies of [ex_Xh] which [copy_config] is fitted on *)
Definition warn_frame : frame R :=
  mkFrame 1 ["web"; "tv_dup_a"; "tv_dup_b"] [mkRow ["a"] 0 [10; 1; 0]; mkRow ["a"] 1 [20; 2; 0]; mkRow ["b"] 0 [30; 0; 3]; mkRow ["b"] 1 [40; 0; 4]]%R.
Definition warned := fit_effects_warn sorted_sets None (effects_of copy_config) (Some warn_frame) 1.
Lemma warned_ok : exists fitted, warned = ([NoMatch (Some (exact "tv")); AlreadySet ["tv_dup_b"]], Ok fitted).
Proof. eexists. vm_compute. reflexivity. Qed.
(** the second of three patterns is malformed: only the first is reported *)
Definition broken : list listed := [linear "exact" (exact "tv"); linear "broken" "("; linear "begins" (starts_with ["radio"])].
Lemma warned_broken : exists e, fit_effects_warn sorted_sets None broken (Some warn_frame) 1 = ([NoMatch (Some (exact "tv"))], Err e).
Proof. eexists. vm_compute. reflexivity. Qed.
Lemma warned_silent : exists fitted, fit_effects_warn sorted_sets None [linear "begins" (starts_with ["tv"])] (Some warn_frame) 1 = ([], Ok fitted).
Proof. eexists. vm_compute. reflexivity. Qed.
