(** Facts about index orders and the stable sort of Model/Aggregate.v *)
From Coq Require Import String Ascii Bool ZArith NArith Lia List Permutation.
From Verif.Model Require Import Base Frame Aggregate.
From Verif.Facts Require Import BaseFacts.
Import ListNotations.

Lemma ascii_compare_trans_lt a b c :
  Ascii.compare a b = Lt -> Ascii.compare b c = Lt -> Ascii.compare a c = Lt.
Proof. unfold Ascii.compare. rewrite !N.compare_lt_iff. lia. Qed.

Lemma ascii_compare_refl a : Ascii.compare a a = Eq.
Proof. unfold Ascii.compare. apply N.compare_refl. Qed.

Lemma str_compare_refl a : String.compare a a = Eq.
Proof. induction a as [|x a IH]; simpl; [reflexivity|]. now rewrite ascii_compare_refl. Qed.

Lemma str_compare_lt_trans a b c :
  String.compare a b = Lt -> String.compare b c = Lt -> String.compare a c = Lt.
Proof.
  revert b c. induction a as [|x a IH]; intros [|y b] [|z c]; simpl; try congruence.
  destruct (Ascii.compare x y) eqn:E1; destruct (Ascii.compare y z) eqn:E2; try congruence; intros H1 H2.
  - apply Ascii.compare_eq_iff in E1. apply Ascii.compare_eq_iff in E2. subst.
    rewrite ascii_compare_refl.
    now apply (IH b).
  - apply Ascii.compare_eq_iff in E1. subst. now rewrite E2.
  - apply Ascii.compare_eq_iff in E2. subst. now rewrite E1.
  - now rewrite (ascii_compare_trans_lt _ _ _ E1 E2).
Qed.

Lemma path_cmp_refl a : path_cmp a a = Eq.
Proof. induction a as [|x a IH]; simpl; [reflexivity|]. now rewrite str_compare_refl. Qed.

Lemma path_cmp_eq a b : path_cmp a b = Eq <-> a = b.
Proof.
  split; [|intros ->; apply path_cmp_refl]. revert b.
  induction a as [|x a IH]; intros [|y b]; simpl; try congruence.
  destruct (String.compare x y) eqn:E; try congruence. intros H.
  apply String.compare_eq_iff in E. apply IH in H. congruence.
Qed.

Lemma path_cmp_antisym a b : path_cmp b a = CompOpp (path_cmp a b).
Proof.
  revert b. induction a as [|x a IH]; intros [|y b]; simpl; try reflexivity.
  rewrite (String.compare_antisym y x), IH. now destruct (String.compare x y).
Qed.

Lemma path_cmp_lt_trans a b c : path_cmp a b = Lt -> path_cmp b c = Lt -> path_cmp a c = Lt.
Proof.
  revert b c. induction a as [|x a IH]; intros [|y b] [|z c]; simpl; try congruence.
  destruct (String.compare x y) eqn:E1; destruct (String.compare y z) eqn:E2; try congruence; intros H1 H2.
  - apply String.compare_eq_iff in E1. apply String.compare_eq_iff in E2. subst.
    rewrite str_compare_refl. now apply (IH b).
  - apply String.compare_eq_iff in E1. subst. now rewrite E2.
  - apply String.compare_eq_iff in E2. subst. now rewrite E1.
  - now rewrite (str_compare_lt_trans _ _ _ E1 E2).
Qed.

Lemma label_leb_refl a : label_leb a a = true.
Proof. unfold label_leb. rewrite path_cmp_refl. apply Z.leb_refl. Qed.

Lemma label_leb_total a b : label_leb a b = false -> label_leb b a = true.
Proof.
  unfold label_leb. rewrite (path_cmp_antisym (fst a) (fst b)).
  destruct (path_cmp (fst a) (fst b)); simpl; try congruence.
  intros H. apply Z.leb_gt in H. apply Z.leb_le. lia.
Qed.

Lemma label_leb_trans a b c : label_leb a b = true -> label_leb b c = true -> label_leb a c = true.
Proof.
  unfold label_leb.
  destruct (path_cmp (fst a) (fst b)) eqn:E1; destruct (path_cmp (fst b) (fst c)) eqn:E2;
    try congruence; intros H1 H2.
  - apply path_cmp_eq in E1. apply path_cmp_eq in E2. rewrite E1, E2, path_cmp_refl.
    apply Z.leb_le in H1. apply Z.leb_le in H2. apply Z.leb_le. lia.
  - apply path_cmp_eq in E1. now rewrite E1, E2.
  - apply path_cmp_eq in E2. now rewrite <- E2, E1.
  - now rewrite (path_cmp_lt_trans _ _ _ E1 E2).
Qed.

Lemma label_leb_antisym a b : label_leb a b = true -> label_leb b a = true -> a = b.
Proof.
  unfold label_leb. rewrite (path_cmp_antisym (fst a) (fst b)).
  destruct (path_cmp (fst a) (fst b)) eqn:E; simpl; try congruence. intros H1 H2.
  apply path_cmp_eq in E. apply Z.leb_le in H1. apply Z.leb_le in H2.
  destruct a, b; simpl in *. f_equal; [assumption|lia].
Qed.

(** ** the stable sort *)
Section Sort.
Context {A : Type} (key : A -> path * Z).

(** sorted: each element is below all later ones *)
Inductive key_sorted : list A -> Prop :=
| ks_nil : key_sorted []
| ks_cons x l : (forall y, In y l -> label_leb (key x) (key y) = true) -> key_sorted l ->
    key_sorted (x :: l).

Lemma key_insert_perm x l : Permutation (x :: l) (key_insert key x l).
Proof.
  induction l as [|y l IH]; simpl; [reflexivity|]. destruct (label_leb (key x) (key y)); [reflexivity|].
  rewrite perm_swap. now constructor.
Qed.

Lemma key_sort_perm l : Permutation l (key_sort key l).
Proof.
  induction l as [|x l IH]; simpl; [reflexivity|]. rewrite <- key_insert_perm. now constructor.
Qed.

Lemma key_sort_In l x : In x (key_sort key l) <-> In x l.
Proof. split; apply Permutation_in; [symmetry|]; apply key_sort_perm. Qed.

Lemma key_sort_length l : length (key_sort key l) = length l.
Proof. symmetry. apply Permutation_length, key_sort_perm. Qed.

Lemma key_insert_sorted x l : key_sorted l -> key_sorted (key_insert key x l).
Proof.
  induction 1 as [|y l Hy Hl IH]; simpl.
  - constructor; [simpl; tauto|constructor].
  - destruct (label_leb (key x) (key y)) eqn:E.
    + constructor; [|now constructor]. intros z [<-|Hz]; [assumption|].
      eapply label_leb_trans; [exact E|now apply Hy].
    + constructor; [|assumption]. intros z Hz.
      apply (Permutation_in _ (Permutation_sym (key_insert_perm x l))) in Hz.
      destruct Hz as [<-|Hz]; [now apply label_leb_total|now apply Hy].
Qed.

Lemma key_sort_sorted l : key_sorted (key_sort key l).
Proof. induction l as [|x l IH]; simpl; [constructor|]. now apply key_insert_sorted. Qed.

Lemma key_sort_id l : key_sorted l -> key_sort key l = l.
Proof.
  induction 1 as [|x l Hx Hl IH]; simpl; [reflexivity|]. rewrite IH.
  destruct l as [|y l]; simpl; [reflexivity|]. rewrite Hx by (simpl; auto). reflexivity.
Qed.

Lemma key_insert_filter p x l : key_sorted l ->
  filter p (key_insert key x l) = if p x then key_insert key x (filter p l) else filter p l.
Proof.
  induction 1 as [|y l Hy Hl IH]; simpl.
  - now destruct (p x).
  - destruct (label_leb (key x) (key y)) eqn:E; simpl.
    + destruct (p x) eqn:Ex; [|reflexivity].
      destruct (p y) eqn:Ey; simpl; [now rewrite E|].
      clear IH. assert (G : forall z, In z l -> label_leb (key x) (key z) = true).
      { intros z Hz. eapply label_leb_trans; [exact E|now apply Hy]. }
      clear Hy Hl E Ey. destruct (filter p l) as [|z fl] eqn:Ef; [reflexivity|]. simpl.
      rewrite G; [reflexivity|]. apply (proj1 (filter_In p z l)). rewrite Ef. simpl; auto.
    + rewrite IH. destruct (p x) eqn:Ex; destruct (p y) eqn:Ey; simpl; try reflexivity.
      now rewrite E.
Qed.

Lemma key_sort_filter p l : filter p (key_sort key l) = key_sort key (filter p l).
Proof.
  induction l as [|x l IH]; simpl; [reflexivity|].
  rewrite key_insert_filter by apply key_sort_sorted. rewrite IH. now destruct (p x).
Qed.

(** a sorted list without repeated labels is determined by its elements *)
Lemma key_sorted_unique l1 l2 : (forall x y, In x l1 -> In y l1 -> key x = key y -> x = y) ->
  Permutation l1 l2 -> key_sorted l1 -> key_sorted l2 -> l1 = l2.
Proof.
  revert l2. induction l1 as [|x l1 IH]; intros l2 Hk HP H1 H2.
  - now apply Permutation_nil in HP.
  - destruct l2 as [|y l2]; [symmetry in HP; now apply Permutation_nil in HP|].
    inversion H1; inversion H2; subst.
    assert (x = y).
    { assert (Iy : In y (x :: l1)) by (eapply Permutation_in; [symmetry; exact HP|simpl; auto]).
      assert (Ix : In x (y :: l2)) by (eapply Permutation_in; [exact HP|simpl; auto]).
      destruct Iy as [->|Iy]; [reflexivity|]. destruct Ix as [->|Ix]; [reflexivity|].
      apply Hk; simpl; auto. apply label_leb_antisym; auto. }
    subst. f_equal. apply IH; [|eapply Permutation_cons_inv; exact HP|assumption|assumption].
    intros; apply Hk; simpl; auto.
Qed.
End Sort.

Lemma key_insert_map {A B} (ka : A -> path * Z) (kb : B -> path * Z) (g : A -> B) :
  (forall a, kb (g a) = ka a) -> forall x l, map g (key_insert ka x l) = key_insert kb (g x) (map g l).
Proof.
  intros H x l. induction l as [|y l IH]; simpl; [reflexivity|]. rewrite !H.
  destruct (label_leb (ka x) (ka y)); simpl; [reflexivity|]. now rewrite IH.
Qed.

Lemma key_sort_map {A B} (ka : A -> path * Z) (kb : B -> path * Z) (g : A -> B) :
  (forall a, kb (g a) = ka a) -> forall l, map g (key_sort ka l) = key_sort kb (map g l).
Proof.
  intros H l. induction l as [|x l IH]; simpl; [reflexivity|].
  rewrite (key_insert_map ka kb g H), IH. reflexivity.
Qed.
