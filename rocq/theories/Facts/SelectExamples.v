(** Other patterns for the same columns in concrete forecasters. *)
From Coq Require Import Reals String Bool ZArith List Permutation.
From Verif.Model Require Import Base Num XFloat Regex Frame Arr Expand Aggregate Scale Prog Likelihood Effect Trend TrendProg Engine Predict Forecaster.
From Verif.Spec Require Import RegexSpec FrameSpec ForecasterSpec ResponseSpec CopySpec RelistSpec IdleSpec SelectSpec.
From Verif.Facts Require Import BaseFacts RegexFacts EffectExamples ForecasterExamples EngineExamples AlignExamples ComponentExamples CounterExamples ResponseExamples CopyFacts CopyExamples SelectFacts.
Import ListNotations.
Local Open Scope string_scope.

Lemma decided p q cols : forallb (fun d => match col_match p d, col_match q d with Ok a, Ok b => Bool.eqb a b | _, _ => false end) cols = true ->
  forall d, In d cols -> matched (Some q) d <-> matched (Some p) d.
Proof.
  intros A d Hd. rewrite forallb_forall in A. specialize (A d Hd). rewrite !matched_col. destruct (col_match p d) as [a|]; [|discriminate]. destruct (col_match q d) as [b|]; [|discriminate]. apply eqb_prop in A. now rewrite A.
Qed.
Lemma chosen n e p q cols : (exists r, compile q = Some r) -> forallb (fun d => match col_match p d, col_match q d with Ok a, Ok b => Bool.eqb a b | _, _ => false end) cols = true ->
  same_selection (fun d => In d cols) (n, e, Some p) (n, e, Some q).
Proof. intros R A. split; [reflexivity|]. split; [reflexivity|]. split; [right; intros p' [= <-]; exact R|]. now apply decided. Qed.

(** among tv and web, "tv" and "t" select the same *)
Definition by_t : listed := ("tv", Linear Additive (DUser 0) base_init, Some "t").
Lemma by_t_same : Forall2 (same_selection (fun d => In d (f_cols Xu))) (effects_of (run_config "mcmc")) [by_t].
Proof. constructor; [|constructor]. apply chosen; [vm_compute; eauto|reflexivity]. Qed.

(** in a panel *)
Definition other_patterns : list listed := [linear "exact" no_input_columns; linear "ends" (exact "tv_dup_b"); linear "begins" (starts_with ["tv_dup"; "radio"])].
Lemma offered_listed d : offered (shared_features copy_config) (f_cols ex_Xh) (bottom_series ex_Xh) d -> In d ["web"; "tv_dup_a"; "tv_dup_b"].
Proof.
  intros [c I S|c p I S J].
  - destruct S as [<-|[]]. now left.
  - destruct I as [<-|[<-|[]]]; [|elim S; now left]. change (bottom_series ex_Xh) with [["a"]; ["b"]] in J. destruct J as [<-|[<-|[]]]; cbn; auto.
Qed.
Lemma other_same : Forall2 (same_selection (offered (shared_features copy_config) (f_cols ex_Xh) (bottom_series ex_Xh))) (effects_of copy_config) other_patterns.
Proof.
  apply (weaker (fun d => In d ["web"; "tv_dup_a"; "tv_dup_b"])); [exact offered_listed|].
  constructor; [|constructor; [|constructor; [|constructor]]]; apply chosen; try reflexivity; vm_compute; eauto.
Qed.
