(** Concrete cases meeting the hypotheses of the properties of effects *)
From Coq Require Import Reals String Bool ZArith List Lia Lra Permutation.
From Verif.Model Require Import Base Num Regex Frame Arr Expand Prog Likelihood Effect.
From Verif.Spec Require Import FrameSpec ProgSpec EffectSpec.
From Verif.Facts Require Import BaseFacts NumFacts FrameFacts ProgFacts EffectFacts EffectPredict EffectFourier EffectProps.
Import ListNotations.
Local Open Scope string_scope.

Definition sorted_sets (l : list string) := l.
Definition Xu : frame R := mkFrame 0 ["tv"; "web"] [mkRow [] 0 [1; 10]; mkRow [] 1 [2; 20]; mkRow [] 7 [3; 30]]%R.
(** columns exchanged, one more column, one more row *)
Definition Xv : frame R := mkFrame 0 ["web"; "new"; "tv"] [mkRow [] 0 [10; 5; 1]; mkRow [] 1 [20; 5; 2]; mkRow [] 9 [0; 0; 0]; mkRow [] 7 [30; 5; 3]]%R.
Definition Xp : frame R := mkFrame 1 ["tv"] [mkRow ["s1"] 0 [1]; mkRow ["s1"] 1 [2]; mkRow ["s2"] 0 [3]; mkRow ["s2"] 1 [4]]%R.
Definition Xnone : frame R := mkFrame 0 [] [mkRow [] 0 []; mkRow [] 1 []; mkRow [] 7 []]%R.
Definition lin : effect := Linear Multiplicative (DUser 0) base_init.
Definition lin_fitted : effect := Linear Multiplicative (DUser 0) (mkBase (Some ["tv"; "web"]) (Some true)).

Lemma Xu_wf : frame_wf Xu.
Proof. intros r H. simpl in H. intuition (subst; reflexivity). Qed.
Lemma Xv_wf : frame_wf Xv.
Proof. intros r H. simpl in H. intuition (subst; reflexivity). Qed.
Lemma Xp_wf : frame_wf Xp.
Proof. intros r H. simpl in H. intuition (subst; reflexivity). Qed.
Lemma Xnone_wf : frame_wf Xnone.
Proof. intros r H. simpl in H. intuition (subst; reflexivity). Qed.

Lemma ex_fit : fit sorted_sets lin (Some Xu) 1 = (lin_fitted, None) /\
  fit sorted_sets lin (Some Xnone) 1 = (Linear Multiplicative (DUser 0) (mkBase (Some []) (Some true)), None).
Proof. split; reflexivity. Qed.

Lemma ex_seen : seen ["tv"; "web"] [0; 7; 1]%Z Xu = seen ["tv"; "web"] [0; 7; 1]%Z Xv /\
  transform lin_fitted (Some Xv) [0; 7; 1]%Z = Ok (EArr (mkArr [3; 2] [1; 10; 2; 20; 3; 30]%R)).
Proof. split; reflexivity. Qed.

Definition env0 : env := fun n k => if String.eqb n "coefs" then (if Nat.eqb k 0 then 2 else 3)%R else 1%R.
Definition tr3 : arr := mkArr [3] [5; 6; 7]%R.

Lemma ex_linear : exists v, yields env0 (predict lin_fitted (EArr (mkArr [3; 2] [1; 10; 2; 20; 3; 30]%R)) [("trend", tr3)]) v /\
  a_shape v = [3; 1] /\ entry v 1 = (6 * (2 * 2 + 20 * 3))%R.
Proof.
  eexists. split.
  - cbn [predict lin_fitted]. apply mode_yields. eexists _, _. split; [reflexivity|]. split.
    + apply (proj2 (linear_raw_yields env0 _ (mkArr [3; 2] [1; 10; 2; 20; 3; 30]%R) 2 [3] (mkArr [3; 1] [1 * 2 + 10 * 3; 2 * 2 + 20 * 3; 3 * 2 + 30 * 3]%R) eq_refl eq_refl)).
      split; [discriminate|]. split; [reflexivity|]. split; [reflexivity|]. intros [|[|[|i]]] Hi; [| | |simpl in Hi; lia];
      unfold entry, env0; simpl; ring.
    + split; reflexivity.
  - split; [reflexivity|]. unfold entry. simpl. ring.
Qed.

(** hill *)
Lemma ex_hill : exists v, yields env0 (predict (Hill Additive (DUser 0) (DUser 1) (DUser 2) base_init)
    (EArr (mkArr [3; 1] [1; 2; 4]%R)) [("trend", tr3)]) v.
Proof.
  eapply c29_total; [reflexivity|reflexivity|unfold env0; simpl; lra|].
  intros [|[|[|i]]] H; simpl in H; try lia; unfold entry; simpl; lra.
Qed.
Lemma ex_hill_zero : exists v, yields env0 (predict (Hill Additive (DUser 0) (DUser 1) (DUser 2) base_init)
    (EArr (mkArr [2; 1] [0; 1]%R)) [("trend", mkArr [2] [5; 6]%R)]) v.
Proof.
  eexists. cbn [predict]. apply mode_yields. eexists _, _. split; [reflexivity|]. split.
  - apply hill_raw_yields. eexists. split; [|reflexivity]. cbn [a_flat mapM]. rewrite hill1_zero by (unfold env0; simpl; lra). cbn [bind].
    rewrite hill1_positive by (try (unfold env0; simpl); lra). cbn [bind]. reflexivity.
  - split; reflexivity.
Qed.

(** lift experiment around a log effect *)
Definition lift_log : effect := Lift (Log Additive (DUser 0) (DUser 1) base_init) [(1%Z, Some 40%R); (3%Z, Some 9%R); (7%Z, None)] (1/2) base_init None.
Definition Xone : frame R := mkFrame 0 ["tv"] [mkRow [] 0 [1]; mkRow [] 1 [2]; mkRow [] 7 [3]]%R.
Lemma ex_lift : exists e' d v, fit sorted_sets lift_log (Some Xone) 10 = (e', None) /\ transform e' (Some Xone) [0; 1; 7]%Z = Ok d /\
  yields env0 (predict e' d [("trend", tr3)]) v /\ arr_wf v /\ List.length (a_flat v) = 3.
Proof.
  eexists _, _, _. split; [reflexivity|]. split; [reflexivity|]. split.
  - apply lift_yields. cbn [predict]. apply mode_yields. eexists _, _. split; [reflexivity|]. split; [apply log_raw_yields; reflexivity|]. split; reflexivity.
  - split; reflexivity.
Qed.
Lemma ex_lift_on : lift_on [(1%Z, Some 40%R); (3%Z, Some 9%R); (7%Z, None)] 1 40 /\
  forall l, ~ lift_on [(1%Z, Some 40%R); (3%Z, Some 9%R); (7%Z, None)] 7 l.
Proof.
  split.
  - apply lift_at_on. reflexivity.
  - intros l H. apply lift_at_on in H. discriminate.
Qed.

(** weekly seasonality *)
Lemma weekly_valid : valid_fourier [7%R] [3].
Proof. split; [reflexivity|]. intros s k [[= <- <-]|[]]. simpl. lra. Qed.
Lemma weekly_pairs : fourier_pairs [7%R] [3] <> [].
Proof.
  unfold fourier_pairs. simpl. match goal with |- context [if ?b then _ else _] => destruct b end; simpl; match goal with |- context [if ?b then _ else _] => destruct b end; discriminate.
Qed.
Lemma weekly_period : common_period [7%R] 7 /\ common_period [7%R; 2%R] 14.
Proof.
  split.
  - intros s [<-|[]]. exists 1%Z. lra.
  - intros s [<-|[<-|[]]]; [exists 2%Z|exists 7%Z]; lra.
Qed.

Lemma ex_fourier : exists e' a v, fit sorted_sets (mk_fourier [7%R] [3] 1 "additive") (Some Xnone) 1 = (e', None) /\
  transform e' (Some Xnone) [0; 1; 7]%Z = Ok (EArr a) /\ yields env0 (predict e' (EArr a) [("trend", tr3)]) v /\
  nth_error (array_rows [0; 1; 7]%Z Xnone) 0 = Some (mkRow [] 0 []) /\ nth_error (array_rows [0; 1; 7]%Z Xnone) 2 = Some (mkRow [] 7 []).
Proof.
  destruct (fourier_accepts sorted_sets [7%R] [3] 1 "additive" no_base None None None Xnone 1) as [e' F];
    [intros c; apply Permutation_refl|apply weekly_valid|discriminate|auto|].
  destruct (fourier_univariate_works sorted_sets [7%R] [3] 1 "additive" Xnone Xnone 1 e' [0; 1; 7]%Z) as [a T]; auto using Xnone_wf.
  { apply weekly_pairs. }
  assert (NZ : forall rest, a_shape a <> (rest ++ [0])%list).
  { intros rest E. pose proof T as T'. unfold mk_fourier in F. destruct (fourier_fit_state _ _ _ _ _ _ _ _ _ _ _ _ F) as (ff & x' & mm & mb & -> & FP & _).
    apply fourier_data in T' as [T'|(FF & chi & a' & Ha & FA & LF & LC & RW)]; [discriminate|]. injection Ha as <-.
    apply frame_array_rows in FA as (rest' & Sh & _). rewrite E in Sh. apply app_inj_tail in Sh as [_ K].
    (* the linear part has the Fourier columns *)
    clear -T E F. 
    unfold transform in T. cbn [get_base b_fitted attr bind negb] in T. unfold should_skip_predict, should_skip_base in T.
    cbn [get_base b_cols attr bind skip_if_no_match columns_seen frame_empty Xnone f_cols] in T.
    cbn [input_feature_column_names get_base b_cols attr bind] in T.
    destruct (select_columns _ _ _) as [X1|]; cbn [bind] in T; [|discriminate]. cbn [inner_transform attr bind] in T.
    destruct (fourier_transform ff X1) as [X2|]; cbn [bind] in T; [|discriminate].
    destruct (match x' with None => _ | Some _ => _ end) as [X3|]; cbn [bind] in T; [|discriminate].
    unfold linear_transform in T. destruct (attr (b_fitted mb)) as [[]|]; cbn [bind negb] in T; try discriminate.
    unfold should_skip_base in T. destruct (b_cols mb) as [[|c cs]|]; cbn [attr bind] in T; try discriminate.
    destruct (select_columns _ _ (c :: cs)) as [X4|] eqn:E4; cbn [bind] in T; [|discriminate].
    destruct (frame_array X4) as [a0|] eqn:E5; cbn [bind] in T; [|discriminate]. injection T as ->.
    apply select_rows in E4 as (_ & C4 & _). apply frame_array_rows in E5 as (r & Sh & _). rewrite E, C4 in Sh.
    apply app_inj_tail in Sh as [_ K]. discriminate. }
  destruct (fourier_predicts sorted_sets [7%R] [3] 1 "additive" no_base None None None (Some Xnone) 1 e' Xnone [0; 1; 7]%Z a [("trend", tr3)] env0 tr3 F T) as [v Y];
    [reflexivity|reflexivity|exact NZ|].
  exists e', a, v. repeat (split; [assumption|]). split; reflexivity.
Qed.

(** an effect fitted on two series, then on one *)
Lemma ex_stale : exists e1 e2 e3 a, fit sorted_sets (mk_fourier [7%R] [3] 1 "additive") (Some Xp) 1 = (e1, None) /\
  fit sorted_sets e1 (Some Xnone) 1 = (e2, None) /\ fit sorted_sets (mk_fourier [7%R] [3] 1 "additive") (Some Xnone) 1 = (e3, None) /\
  transform e3 (Some Xnone) [0; 1; 7]%Z = Ok (EArr a) /\ forall d, transform e2 (Some Xnone) [0; 1; 7]%Z <> Ok d.
Proof.
  destruct (fourier_accepts sorted_sets [7%R] [3] 1 "additive" no_base None None None Xp 1) as [e1 F1];
    [intros c; apply Permutation_refl|apply weekly_valid|discriminate|auto|].
  pose proof F1 as F1'. apply fourier_fit_state in F1' as (ff & x' & mm & mb & -> & _).
  destruct (fourier_accepts sorted_sets [7%R] [3] 1 "additive" (mkBase (Some (columns_seen (Some Xp))) (Some true)) (Some ff) x' (Some (mm, mb)) Xnone 1) as [e2 F2];
    [intros c; apply Permutation_refl|apply weekly_valid|discriminate|auto|].
  destruct ex_fourier as (e3 & a & v & F3 & T3 & _).
  eexists _, e2, e3, a. split; [exact F1|]. split; [exact F2|]. split; [exact F3|]. split; [exact T3|].
  intros d. exact (stale_expander _ _ _ _ _ _ _ _ _ _ _ (eq_refl : multi_series (Some Xp) = true) (eq_refl : f_levels Xnone = 0) F1 F2 Xnone _ d eq_refl).
Qed.
