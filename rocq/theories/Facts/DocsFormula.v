(** The formula of the code and the formulas of the documentation. *)
From Coq Require Import Reals Lra ZArith String Bool List Lia.
From Verif.Model Require Import Base Num Prog.
From Verif.Spec Require Import DocsSpec.
Import ListNotations.
Local Open Scope R_scope.

Lemma sum_to_ext K f g : (forall k, (k < K)%nat -> f k = g k) -> sum_to K f = sum_to K g.
Proof. intros H. unfold sum_to. f_equal. apply map_ext_in. intros k I. apply in_seq in I. apply H. lia. Qed.
Lemma sum_to_add K f g : sum_to K f + sum_to K g = sum_to K (fun k => f k + g k).
Proof. unfold sum_to. generalize (seq 0 K). intros l. induction l as [|k l IH]; simpl; lra. Qed.
Lemma sum_to_scale K c f : c * sum_to K f = sum_to K (fun k => c * f k).
Proof. unfold sum_to. generalize (seq 0 K). intros l. induction l as [|k l IH]; simpl; [ring|]. rewrite <- IH. ring. Qed.

Lemma position k iv : 1 <= iv -> (k = 0%nat \/ 1 <= INR k * iv).
Proof. intros H. destruct k; [now left|]. right. rewrite S_INR. pose proof (pos_INR k). nra. Qed.

Theorem original_holds e K iv i t : 1 <= iv -> 0 <= t ->
  line_at e K iv i t = original after (fun c d => - (c - 1) * d) K (fun k => INR k * iv) (fun k => e "changepoint_coefficients"%string (i * K + k)%nat) 0 (e "offset"%string i) t.
Proof.
  intros HI Ht. unfold line_at, original. match goal with |- _ = (0 + ?A) * t + (?o + ?B) => replace ((0 + A) * t + (o + B)) with (o + (t * A + B)) by ring end.
  rewrite sum_to_scale, sum_to_add. f_equal. apply sum_to_ext. intros k _.
  unfold bend, after. destruct (Rle_dec (INR k * iv) t) as [L|L]; [ring|]. destruct (position k iv HI) as [->|P]; [exfalso; simpl in L; lra|]. rewrite Rmax_left by lra. ring.
Qed.

Theorem spline_holds e K (iv : nat) i (t : nat) : (1 <= iv)%nat ->
  line_at e K (INR iv) i (INR t) = spline K (fun k => INR k * INR iv - 1) (fun k => e "changepoint_coefficients"%string (i * K + k)%nat) 0 (e "offset"%string i) (INR t).
Proof.
  intros HI. unfold line_at, spline. rewrite Rmult_0_l, Rplus_0_r, Rplus_comm. f_equal. apply sum_to_ext. intros k _. rewrite <- mult_INR. unfold bend.
  destruct (Rle_dec (INR (k * iv)) (INR t)) as [L|L].
  - rewrite Rmax_right by lra. ring.
  - apply Rnot_le_lt, INR_lt in L. assert (B : INR t + 1 <= INR (k * iv)) by (rewrite <- S_INR; apply le_INR; lia). pose proof (pos_INR t). rewrite !Rmax_left by lra. ring.
Qed.
