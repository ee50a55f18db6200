(** Facts about Model/Num.v *)
From Coq Require Import Reals List ZArith Lra Lia Arith Permutation Sorted Bool.
From Verif.Model Require Import Num.
From Verif.Spec Require Import TrendSpec.
Import ListNotations.
Local Open Scope R_scope.

Lemma Rltb_true x y : Rltb x y = true <-> x < y.
Proof. unfold Rltb. destruct (Rlt_dec x y); intuition congruence. Qed.
Lemma Rltb_false x y : Rltb x y = false <-> y <= x.
Proof. unfold Rltb. destruct (Rlt_dec x y); intuition (try congruence; lra). Qed.
Lemma Rleb_true x y : Rleb x y = true <-> x <= y.
Proof. unfold Rleb. destruct (Rle_dec x y); intuition congruence. Qed.
Lemma Rleb_false x y : Rleb x y = false <-> y < x.
Proof. unfold Rleb. destruct (Rle_dec x y); intuition (try congruence; lra). Qed.
Lemma Reqb_true x y : Reqb x y = true <-> x = y.
Proof. unfold Reqb. destruct (Req_EM_T x y); intuition congruence. Qed.
Lemma Reqb_false x y : Reqb x y = false <-> x <> y.
Proof. unfold Reqb. destruct (Req_EM_T x y); intuition congruence. Qed.
Lemma Reqb_refl x : Reqb x x = true.
Proof. now apply Reqb_true. Qed.

(** decide comparisons in the goal *)
Ltac rdec := repeat (unfold Rltb, Rleb, Reqb in *;
  match goal with
  | |- context [Rlt_dec ?a ?b] => destruct (Rlt_dec a b)
  | |- context [Rle_dec ?a ?b] => destruct (Rle_dec a b)
  | |- context [Req_EM_T ?a ?b] => destruct (Req_EM_T a b)
  end).

Lemma Rsum_app l1 l2 : Rsum (l1 ++ l2) = Rsum l1 + Rsum l2.
Proof. induction l1; simpl; lra. Qed.

Lemma Rsum_scale c l : Rsum (map (fun x => c * x) l) = c * Rsum l.
Proof. induction l; simpl; lra. Qed.

Lemma Rsum_perm l l' : Permutation l l' -> Rsum l = Rsum l'.
Proof. induction 1; simpl; lra. Qed.

Lemma Rsum_repeat c n : Rsum (repeat c n) = INR n * c.
Proof. induction n; [simpl; lra|]. rewrite S_INR. simpl. lra. Qed.

Lemma Rsum_map_plus {A} (f g : A -> R) l : Rsum (map (fun a => f a + g a) l) = Rsum (map f l) + Rsum (map g l).
Proof. induction l; simpl; lra. Qed.

Lemma Rsum_bounds lo hi l : (forall x, In x l -> lo <= x <= hi) ->
  INR (length l) * lo <= Rsum l <= INR (length l) * hi.
Proof.
  induction l as [|x l IH]; intros H; [simpl; lra|]. cbn [Rsum length]. rewrite S_INR.
  assert (lo <= x <= hi) by (apply H; simpl; auto).
  assert (INR (length l) * lo <= Rsum l <= INR (length l) * hi) by (apply IH; intros; apply H; simpl; auto).
  lra.
Qed.

Lemma INR_len_pos {A} (l : list A) : l <> [] -> 0 < INR (length l).
Proof. intros H. apply lt_0_INR. destruct l; [congruence|simpl; lia]. Qed.

Lemma Rmean_bounds lo hi l : l <> [] -> (forall x, In x l -> lo <= x <= hi) -> lo <= Rmean l <= hi.
Proof.
  intros N H. pose proof (Rsum_bounds _ _ _ H) as [H1 H2]. pose proof (INR_len_pos l N) as P.
  unfold Rmean. split.
  - apply Rmult_le_reg_r with (INR (length l)); [assumption|]. field_simplify; lra.
  - apply Rmult_le_reg_r with (INR (length l)); [assumption|]. field_simplify; lra.
Qed.

Lemma Rmean_scale c l : Rmean (map (fun x => c * x) l) = c * Rmean l.
Proof. unfold Rmean. rewrite map_length, Rsum_scale. unfold Rdiv. ring. Qed.

Lemma Rmean_perm l l' : Permutation l l' -> Rmean l = Rmean l'.
Proof. intros H. unfold Rmean. now rewrite (Rsum_perm _ _ H), (Permutation_length H). Qed.

Lemma Rmean_const c n : (n <> 0)%nat -> Rmean (repeat c n) = c.
Proof.
  intros H. unfold Rmean. rewrite Rsum_repeat, repeat_length. field. now apply not_0_INR.
Qed.

(** ** maxima and minima *)
Lemma Rmax_list_ge x l : forall y, In y (x :: l) -> y <= Rmax_list x l.
Proof.
  unfold Rmax_list. revert x. induction l as [|z l IH]; intros x y; simpl.
  - intros [->|[]]; lra.
  - intros [->|[->|H]].
    + eapply Rle_trans; [|apply IH; left; reflexivity]. apply Rmax_l.
    + eapply Rle_trans; [|apply IH; left; reflexivity]. apply Rmax_r.
    + apply IH. now right.
Qed.

Lemma Rmax_list_In x l : In (Rmax_list x l) (x :: l).
Proof.
  unfold Rmax_list. revert x. induction l as [|z l IH]; intros x; simpl; [auto|].
  destruct (IH (Rmax x z)) as [E|E].
  - rewrite <- E. unfold Rmax. destruct (Rle_dec x z); auto.
  - auto.
Qed.

Lemma Rmin_list_le x l : forall y, In y (x :: l) -> Rmin_list x l <= y.
Proof.
  unfold Rmin_list. revert x. induction l as [|z l IH]; intros x y; simpl.
  - intros [->|[]]; lra.
  - intros [->|[->|H]].
    + eapply Rle_trans; [apply IH; left; reflexivity|]. apply Rmin_l.
    + eapply Rle_trans; [apply IH; left; reflexivity|]. apply Rmin_r.
    + apply IH. now right.
Qed.

Lemma Rmin_list_In x l : In (Rmin_list x l) (x :: l).
Proof.
  unfold Rmin_list. revert x. induction l as [|z l IH]; intros x; simpl; [auto|].
  destruct (IH (Rmin x z)) as [E|E].
  - rewrite <- E. unfold Rmin. destruct (Rle_dec x z); auto.
  - auto.
Qed.

Lemma Rmax_list_scale c x l : 0 <= c ->
  Rmax_list (c * x) (map (fun v => c * v) l) = c * Rmax_list x l.
Proof.
  intros Hc. unfold Rmax_list. revert x. induction l as [|y l IH]; intros x; simpl; [reflexivity|].
  rewrite RmaxRmult by assumption. apply IH.
Qed.

Lemma Rmin_list_affine a b x l : 0 < a ->
  Rmin_list (a * x + b) (map (fun v => a * v + b) l) = a * Rmin_list x l + b.
Proof.
  intros Ha. unfold Rmin_list. revert x. induction l as [|y l IH]; intros x; simpl; [reflexivity|].
  rewrite <- IH. f_equal. unfold Rmin. destruct (Rle_dec x y), (Rle_dec (a * x + b) (a * y + b)); try nra.
Qed.

(** ** differences *)
Lemma diffs_length x l : length (diffs (x :: l)) = length l.
Proof. revert x. induction l as [|y l IH]; intros x; [reflexivity|]. cbn [diffs length]. f_equal. apply IH. Qed.

Lemma diffs_sum x l : Rsum (diffs (x :: l)) = last (x :: l) 0 - x.
Proof.
  revert x. induction l as [|y l IH]; intros x; [simpl; lra|].
  change (diffs (x :: y :: l)) with ((y - x) :: diffs (y :: l)). cbn [Rsum]. rewrite IH.
  change (last (x :: y :: l) 0) with (last (y :: l) 0). lra.
Qed.

Lemma diffs_affine a b l : diffs (map (fun v => a * v + b) l) = map (fun d => a * d) (diffs l).
Proof.
  induction l as [|x [|y l] IH]; [reflexivity|reflexivity|].
  change (diffs (map (fun v => a * v + b) (x :: y :: l)))
    with ((a * y + b - (a * x + b)) :: diffs (map (fun v => a * v + b) (y :: l))).
  rewrite IH. cbn [map diffs]. f_equal. ring.
Qed.

(** ** strictly increasing lists *)

Lemma increasing_last x l : increasing (x :: l) -> x <= last (x :: l) 0.
Proof.
  intros H. assert (I : In (last (x :: l) 0) (x :: l)).
  { clear H. revert x. induction l as [|y l IH]; intros x; [now left|]. right. apply IH. }
  inversion H; subst. destruct I as [<-|I]; [lra|]. rewrite Forall_forall in H3. left. now apply H3.
Qed.

Lemma increasing_last_lt x y l : increasing (x :: y :: l) -> x < last (x :: y :: l) 0.
Proof.
  intros H. inversion H; subst. inversion H3; subst.
  change (last (x :: y :: l) 0) with (last (y :: l) 0).
  pose proof (increasing_last y l H2). lra.
Qed.

Lemma increasing_min x l : increasing (x :: l) -> Rmin_list x l = x.
Proof.
  intros H. assert (L := Rmin_list_le x l x (or_introl eq_refl)).
  inversion H; subst. destruct (Rmin_list_In x l) as [E|E]; [easy|].
  rewrite Forall_forall in H3. specialize (H3 _ E). lra.
Qed.

Lemma increasing_max x l : increasing (x :: l) -> Rmax_list x l = last (x :: l) 0.
Proof.
  intros H. assert (U : forall y, In y (x :: l) -> y <= last (x :: l) 0).
  { clear -H. revert x H. induction l as [|z l IH]; intros x H y.
    - intros [<-|[]]; simpl; lra.
    - change (last (x :: z :: l) 0) with (last (z :: l) 0). inversion H; subst.
      intros [<-|Hy].
      + inversion H3; subst. pose proof (increasing_last z l H2). lra.
      + now apply IH. }
  assert (I : In (last (x :: l) 0) (x :: l)).
  { clear H U. revert x. induction l as [|y l IH]; intros x; [now left|]. right. apply IH. }
  apply Rle_antisym; [apply U, Rmax_list_In | now apply Rmax_list_ge].
Qed.

(** ** floor and ceiling *)
Lemma Rfloor_spec x : IZR (Rfloor x) <= x < IZR (Rfloor x) + 1.
Proof. unfold Rfloor. pose proof (base_Int_part x). lra. Qed.

Lemma Rceil_spec x : IZR (Rceil x) - 1 < x <= IZR (Rceil x).
Proof. unfold Rceil. rewrite opp_IZR. pose proof (base_Int_part (- x)). lra. Qed.

Lemma Rceil_lt x (n : Z) : (n < Rceil x)%Z <-> IZR n < x.
Proof.
  pose proof (Rceil_spec x) as [H1 H2]. split; intros H.
  - assert (n <= Rceil x - 1)%Z by lia. apply IZR_le in H0. rewrite minus_IZR in H0. lra.
  - apply lt_IZR. lra.
Qed.

Lemma Rfloor_unique x n : IZR n <= x < IZR n + 1 -> Rfloor x = n.
Proof.
  intros H. pose proof (Rfloor_spec x).
  assert (IZR n < IZR (Rfloor x) + 1) by lra. assert (IZR (Rfloor x) < IZR n + 1) by lra.
  rewrite <- plus_IZR in H1, H2. apply lt_IZR in H1, H2. lia.
Qed.

(** ** arange *)
Lemma arange0_length stop step : length (arange0 stop step) = Z.to_nat (Rceil (stop / step)).
Proof. unfold arange0. now rewrite map_length, seq_length. Qed.

Lemma arange0_nth stop step i : (i < length (arange0 stop step))%nat ->
  nth_error (arange0 stop step) i = Some (INR i * step).
Proof.
  intros H. unfold arange0 in *. rewrite map_length, seq_length in H.
  rewrite nth_error_map. rewrite (nth_error_nth' _ 0%nat) by now rewrite seq_length.
  rewrite seq_nth by assumption. reflexivity.
Qed.

Lemma arange0_bound stop step i : 0 < step ->
  ((i < length (arange0 stop step))%nat <-> INR i * step < stop).
Proof.
  intros Hs. rewrite arange0_length. split; intros H.
  - assert (Z.of_nat i < Rceil (stop / step))%Z by lia. apply Rceil_lt in H0.
    rewrite <- INR_IZR_INZ in H0. apply Rmult_lt_compat_r with (r := step) in H0; [|assumption].
    unfold Rdiv in H0. rewrite Rmult_assoc, Rinv_l, Rmult_1_r in H0; lra.
  - assert (INR i < stop / step).
    { apply Rmult_lt_reg_r with step; [assumption|]. unfold Rdiv.
      rewrite Rmult_assoc, Rinv_l; lra. }
    rewrite INR_IZR_INZ in H0. apply Rceil_lt in H0. lia.
Qed.

Lemma arange0_In stop step c : 0 < step ->
  (In c (arange0 stop step) <-> exists k : nat, c = INR k * step /\ c < stop).
Proof.
  intros Hs. split.
  - intros H. apply In_nth_error in H as [i Hi].
    assert (L : (i < length (arange0 stop step))%nat) by (apply nth_error_Some; congruence).
    rewrite arange0_nth in Hi by assumption. injection Hi as <-. exists i. split; [reflexivity|].
    now apply arange0_bound.
  - intros (k & -> & H). apply arange0_bound in H; [|assumption].
    eapply nth_error_In. now apply arange0_nth.
Qed.

Lemma seq_map_sorted (f : nat -> R) n : (forall i j, (i < j)%nat -> f i < f j) ->
  forall k, StronglySorted Rlt (map f (seq k n)).
Proof.
  intros H. induction n as [|n IH]; intros k; simpl; constructor; auto.
  apply Forall_forall. intros x Hx. apply in_map_iff in Hx as (j & <- & Hj).
  apply in_seq in Hj. apply H. lia.
Qed.

Lemma arange0_increasing stop step : 0 < step -> increasing (arange0 stop step).
Proof.
  intros Hs. apply seq_map_sorted. intros i j H. apply lt_INR in H. nra.
Qed.

Lemma arange0_nil stop step : 0 < step -> (arange0 stop step = [] <-> stop <= 0).
Proof.
  intros Hs. pose proof (arange0_bound stop step 0 Hs) as H. simpl in H. rewrite Rmult_0_l in H.
  destruct (arange0 stop step) as [|x l]; simpl in *.
  - split; [|reflexivity]. intros _. destruct (Rle_dec stop 0); [assumption|].
    assert (0 < 0)%nat by (apply H; lra). lia.
  - split; [discriminate|]. intros. assert (0 < stop) by (apply H; lia). lra.
Qed.

Lemma arange0_head stop step x l : arange0 stop step = x :: l -> x = 0.
Proof.
  unfold arange0. destruct (Z.to_nat _); simpl; [discriminate|]. intros [= <- _]. ring.
Qed.

(** ** inner product *)
Lemma dot_repeat0_l n b : dot (repeat 0 n) b = 0.
Proof. revert b. induction n; intros [|y b]; simpl; try reflexivity. rewrite IHn. lra. Qed.

Lemma dot_app a1 a2 b1 b2 : length a1 = length b1 ->
  dot (a1 ++ a2) (b1 ++ b2) = dot a1 b1 + dot a2 b2.
Proof.
  revert b1. induction a1 as [|x a1 IH]; intros [|y b1] L; simpl in *; try discriminate; [lra|].
  rewrite IH by auto. lra.
Qed.

Lemma dot_scale_l c a b : dot (map (fun x => c * x) a) b = c * dot a b.
Proof. revert b. induction a as [|x a IH]; intros [|y b]; simpl; try lra. rewrite IH. lra. Qed.

Lemma dot_zero_l a b : (forall x, In x a -> x = 0) -> dot a b = 0.
Proof.
  revert b. induction a as [|x a IH]; intros [|y b] H; simpl; try reflexivity.
  rewrite (H x) by (simpl; auto). rewrite IH; [lra|]. intros; apply H; simpl; auto.
Qed.

Lemma dot_add_l a a' b : length a = length a' ->
  dot (map (fun p => fst p + snd p) (combine a a')) b = dot a b + dot a' b.
Proof.
  revert a' b. induction a as [|x a IH]; intros [|x' a'] [|y b] L; simpl in *; try discriminate; try lra.
  rewrite IH by auto. lra.
Qed.

(** ** sorting *)
Lemma Rinsert_perm x l : Permutation (Rinsert x l) (x :: l).
Proof.
  induction l as [|y l IH]; simpl; [reflexivity|]. destruct (Rle_dec x y); [reflexivity|].
  rewrite IH. apply perm_swap.
Qed.
Lemma Rsort_perm l : Permutation (Rsort l) l.
Proof. induction l as [|x l IH]; simpl; [reflexivity|]. rewrite Rinsert_perm. now constructor. Qed.

Lemma Rinsert_sorted x l : StronglySorted Rle l -> StronglySorted Rle (Rinsert x l).
Proof.
  induction 1 as [|y l H IH F]; simpl; [repeat constructor|].
  destruct (Rle_dec x y).
  - constructor; [now constructor|]. constructor; [assumption|].
    eapply Forall_impl; [|exact F]. intros; lra.
  - constructor; [assumption|]. apply Forall_forall. intros z Hz.
    apply (Permutation_in _ (Rinsert_perm x l)) in Hz. destruct Hz as [<-|Hz]; [lra|].
    rewrite Forall_forall in F. now apply F.
Qed.
Lemma Rsort_sorted l : StronglySorted Rle (Rsort l).
Proof. induction l; simpl; [constructor|]. now apply Rinsert_sorted. Qed.

Lemma sorted_perm_eq l l' : StronglySorted Rle l -> StronglySorted Rle l' -> Permutation l l' -> l = l'.
Proof.
  revert l'. induction l as [|x l IH]; intros l' S S' P.
  - apply Permutation_nil in P. now subst.
  - destruct l' as [|y l']; [apply Permutation_sym, Permutation_nil in P; discriminate|].
    inversion S; inversion S'; subst.
    assert (x = y).
    { apply Rle_antisym.
      - assert (In y (x :: l)) by (eapply Permutation_in; [apply Permutation_sym; exact P|now left]).
        destruct H as [<-|H]; [lra|]. rewrite Forall_forall in H2. auto.
      - assert (In x (y :: l')) by (eapply Permutation_in; [exact P|now left]).
        destruct H as [<-|H]; [lra|]. rewrite Forall_forall in H6. auto. }
    subst. f_equal. apply IH; auto. eapply Permutation_cons_inv; eauto.
Qed.

Lemma Rsort_perm_eq l l' : Permutation l l' -> Rsort l = Rsort l'.
Proof.
  intros P. apply sorted_perm_eq; try apply Rsort_sorted.
  rewrite (Rsort_perm l), (Rsort_perm l'). assumption.
Qed.

Lemma Rsort_length l : length (Rsort l) = length l.
Proof. apply Permutation_length, Rsort_perm. Qed.

Lemma Rsort_In x l : In x (Rsort l) <-> In x l.
Proof. split; apply Permutation_in; [|apply Permutation_sym]; apply Rsort_perm. Qed.

Lemma map_scale_sorted c l : 0 <= c -> StronglySorted Rle l -> StronglySorted Rle (map (fun x => c * x) l).
Proof.
  intros Hc. induction 1 as [|x l H IH F]; simpl; constructor; auto.
  apply Forall_forall. intros y Hy. apply in_map_iff in Hy as (z & <- & Hz).
  rewrite Forall_forall in F. specialize (F _ Hz). nra.
Qed.

Lemma Rsort_scale c l : 0 <= c -> Rsort (map (fun x => c * x) l) = map (fun x => c * x) (Rsort l).
Proof.
  intros Hc. apply sorted_perm_eq; [apply Rsort_sorted|apply map_scale_sorted; auto using Rsort_sorted|].
  rewrite Rsort_perm. apply Permutation_map. apply Permutation_sym, Rsort_perm.
Qed.
