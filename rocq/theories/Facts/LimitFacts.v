(** Limits of components: single effects. *)
From Coq Require Import Reals Lra ZArith String Ascii Bool List Lia.
From Verif.Model Require Import Base Num XFloat Frame Arr Prog Effect.
From Verif.Spec Require Import ProgSpec EffectSpec ResponseSpec SeasonSpec ObservedSpec UpwardSpec LimitSpec DocsSpec.
From Verif.Facts Require Import BaseFacts NumFacts ResponseFacts UpwardForecaster.
Import ListNotations.
Local Open Scope string_scope.

Lemma weighted_abs x : forall f, (Rabs (weighted x f) <= weighted (map Rabs x) (fun k => Rabs (f k)))%R.
Proof.
  induction x as [|u x IH]; intros f; cbn [weighted map]; [rewrite Rabs_R0; lra|]. eapply Rle_trans; [apply Rabs_triang|]. rewrite Rabs_mult. apply Rplus_le_compat_l. apply (IH (fun k => f (S k))).
Qed.
Lemma weighted_units x : forall f, Forall (fun u => Rabs u <= 1)%R x -> (weighted (map Rabs x) (fun k => Rabs (f k)) <= weighted (repeat 1 (List.length x)) (fun k => Rabs (f k)))%R.
Proof.
  induction x as [|u x IH]; intros f F; cbn [weighted map repeat List.length]; [lra|]. inversion F; subst. apply Rplus_le_compat; [apply Rmult_le_compat_r; [apply Rabs_pos|assumption]|]. apply (IH (fun k => f (S k))). assumption.
Qed.
Lemma waves_units hs t : Forall (fun u => Rabs u <= 1)%R (waves hs t).
Proof.
  unfold waves. apply Forall_flat_map. apply Forall_forall. intros h _. constructor; [apply Rabs_le, SIN_bound|constructor; [apply Rabs_le, COS_bound|constructor]].
Qed.
Lemma waves_length hs t : List.length (waves hs t) = 2 * List.length hs.
Proof. unfold waves. induction hs as [|h hs IH]; [reflexivity|]. cbn [flat_map app List.length]. rewrite IH. lia. Qed.

Lemma modal_abs m trend u b : (Rabs u <= b)%R -> (Rabs (modal m trend u) <= modal m (Rabs trend) b)%R.
Proof. intros H. destruct m; cbn [modal]; [exact H|]. rewrite Rabs_mult. apply Rmult_le_compat_l; [apply Rabs_pos|exact H]. Qed.

Lemma ln_below z : (0 <= z)%R -> (ln (1 + z) <= z)%R.
Proof. intros H. destruct (Req_dec z 0) as [->|N]; [rewrite Rplus_0_r, ln_1; lra|]. rewrite <- (ln_exp z) at 2. apply Rlt_le, ln_increasing; [lra|]. apply exp_ineq1. exact N. Qed.
Lemma log_limit z : (Rabs (ln (Rmax (1 / 100000000) (z + 1))) <= if Rle_dec 0 z then z else ln 100000000)%R.
Proof.
  destruct (Rle_dec 0 z) as [H|H].
  - rewrite Rmax_right by lra. rewrite Rabs_pos_eq; [rewrite Rplus_comm; now apply ln_below|]. rewrite <- ln_1. destruct (Req_dec z 0) as [->|N]; [right; f_equal; ring|]. left. apply ln_increasing; lra.
  - assert (A : (1 / 100000000 <= Rmax (1 / 100000000) (z + 1))%R) by apply Rmax_l. assert (B : (Rmax (1 / 100000000) (z + 1) < 1)%R) by (apply Rmax_lub_lt; lra).
    assert (C : (ln (Rmax (1 / 100000000) (z + 1)) < 0)%R) by (rewrite <- ln_1; apply ln_increasing; lra). rewrite Rabs_left by exact C.
    replace (ln 100000000) with (- ln (1 / 100000000))%R by (unfold Rdiv; rewrite Rmult_1_l, ln_Rinv by lra; ring). apply Ropp_le_contravar. destruct A as [A|A]; [left; apply ln_increasing; lra|right; now f_equal].
Qed.
Lemma hill_limit q z : (0 < z)%R -> (Rabs (q / (1 + z)) <= Rabs q)%R.
Proof.
  intros H. unfold Rdiv. rewrite Rabs_mult. rewrite <- (Rmult_1_r (Rabs q)) at 2. apply Rmult_le_compat_l; [apply Rabs_pos|]. rewrite Rabs_pos_eq by (left; apply Rinv_0_lt_compat; lra). rewrite <- Rinv_1. apply Rinv_le_contravar; lra.
Qed.

Lemma answers_limit e name place : forall ef x t trend v, answers e name place ef x t trend v -> tame e name ef x ->
  exists m b, effect_mode ef m /\ limit e name place ef x b /\ (Rabs v <= modal m (Rabs trend) b)%R.
Proof.
  induction ef as [m d b|m d r b|m h s q b|inner IH tab ps b sc|sp terms sg arg b ff x' l]; intros x t trend v A T; cbn [answers tame effect_mode limit] in *.
  - subst v. exists m. eexists. split; [reflexivity|]. split; [reflexivity|]. apply modal_abs, weighted_abs.
  - destruct A as (u & -> & ->). exists m. eexists. split; [reflexivity|]. split; [exists u; eexists; split; [reflexivity|]; split; reflexivity|]. apply modal_abs. rewrite Rabs_mult. apply Rmult_le_compat_l; [apply Rabs_pos|]. apply log_limit.
  - destruct A as (u & -> & H1 & H2). destruct T as [T1 T2]. exists m. eexists. split; [reflexivity|]. split; [reflexivity|]. destruct (T1 u eq_refl) as [P|P]; [rewrite (H1 P T2); apply modal_abs, hill_limit, exp_pos|rewrite (H2 (eq_sym P)); apply modal_abs, Rle_refl].
  - eapply IH; eauto.
  - destruct A as (m & hs & MN & H & ->). exists m. eexists. split; [exact MN|]. split; [exists hs; split; [exact H|reflexivity]|]. apply modal_abs. rewrite <- (waves_length hs t). eapply Rle_trans; [apply weighted_abs|]. apply (weighted_units _ (fun k => parameter e name "coefs" (place k))), waves_units.
Qed.

(** * Sums *)
Lemma level_limit tr names k s trend bs : level tr names k s -> component_at tr "trend" k trend -> Forall2 (fun n b => forall v, component_at tr n k v -> (Rabs v <= b)%R) names bs -> (Rabs (s - trend) <= Rsum bs)%R.
Proof.
  intros (vs & F & ->) T B. inversion F as [|? a ? vs' CA F']; subst. rewrite (component_unique _ _ _ _ _ CA T). clear F CA T. replace (Rsum (trend :: vs') - trend)%R with (Rsum vs') by (unfold Rsum; cbn [fold_right]; ring).
  revert vs' F'. induction B as [|n b names bs H B IH]; intros vs F; inversion F; subst; unfold Rsum; cbn [fold_right]; [rewrite Rabs_R0; lra|]. eapply Rle_trans; [apply Rabs_triang|]. apply Rplus_le_compat; [now apply H|now apply IH].
Qed.

(** a logistic trend stays between zero and its capacity *)
Lemma saturated e K iv i t : (0 < e "capacity" i)%R -> (0 < trend_at e true K iv i t < e "capacity" i)%R.
Proof.
  intros H. unfold trend_at. set (z := exp _). assert (0 < z)%R by apply exp_pos. split; [apply Rdiv_lt_0_compat; lra|]. apply (Rmult_lt_reg_r (1 + z)); [lra|]. unfold Rdiv. rewrite Rmult_assoc, Rinv_l by lra. nra.
Qed.
