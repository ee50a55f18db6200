(** Facts about arrays. *)
From Coq Require Import Reals Lra Bool ZArith Lia List Arith.
From Verif.Model Require Import Base Num Arr.
From Verif.Facts Require Import BaseFacts NumFacts FrameFacts.
Import ListNotations.

Lemma flat_map_length_uniform {A B} (g : A -> list B) k l :
  (forall x, In x l -> length (g x) = k) -> length (flat_map g l) = length l * k.
Proof.
  induction l as [|x l IH]; intros H; simpl; [reflexivity|].
  rewrite app_length, H by (simpl; auto). rewrite IH by (intros; apply H; simpl; auto). reflexivity.
Qed.

Lemma all_idx_length sh : length (all_idx sh) = prod_shape sh.
Proof.
  induction sh as [|n sh IH]; [reflexivity|]. simpl.
  rewrite (flat_map_length_uniform _ (length (all_idx sh))).
  - rewrite seq_length, IH. reflexivity.
  - intros x _. apply map_length.
Qed.

Lemma tabulate_wf sh f : arr_wf (tabulate sh f).
Proof. unfold arr_wf, tabulate. simpl. now rewrite map_length, all_idx_length. Qed.

Lemma flat_map_concat {A B} (g : A -> list B) l : flat_map g l = concat (map g l).
Proof. apply flat_map_concat_map. Qed.

Lemma map_flat_map {A B C} (h : B -> C) (g : A -> list B) l : map h (flat_map g l) = flat_map (fun x => map h (g x)) l.
Proof. induction l as [|x l IH]; simpl; [reflexivity|]. now rewrite map_app, IH. Qed.

Lemma flat_map_flat_map {A B C} (h : B -> list C) (g : A -> list B) l :
  flat_map h (flat_map g l) = flat_map (fun x => flat_map h (g x)) l.
Proof. induction l as [|x l IH]; simpl; [reflexivity|]. now rewrite flat_map_app, IH. Qed.

Lemma flat_map_map {A B C} (h : B -> list C) (g : A -> B) l : flat_map h (map g l) = flat_map (fun x => h (g x)) l.
Proof. induction l as [|x l IH]; simpl; [reflexivity|]. now rewrite IH. Qed.

Lemma flat_map_ext_in {A B} (f g : A -> list B) l : (forall x, In x l -> f x = g x) -> flat_map f l = flat_map g l.
Proof.
  induction l as [|x l IH]; intros H; simpl; [reflexivity|]. rewrite H, IH; simpl; auto. intros; apply H; simpl; auto.
Qed.

Lemma flat_map_singleton {A B} (f : A -> B) l : flat_map (fun x => [f x]) l = map f l.
Proof. induction l as [|x l IH]; simpl; [reflexivity|]. now rewrite IH. Qed.

(** chunks of a concatenation of equally long blocks *)
Lemma skipn_concat {A} k (L : list (list A)) i : (forall x, In x L -> length x = k) -> i <= length L ->
  skipn (i * k) (concat L) = concat (skipn i L).
Proof.
  revert i. induction L as [|x L IH]; intros i H Hi; simpl in Hi.
  - assert (i = 0) by lia. subst. simpl. reflexivity.
  - destruct i as [|i]; [reflexivity|]. simpl concat. simpl skipn.
    replace (S i * k) with (k + i * k) by lia.
    rewrite <- (H x) at 1 by (simpl; auto). rewrite skipn_app.
    rewrite skipn_all2 by lia. replace (length x + i * k - length x) with (i * k) by lia. simpl.
    apply IH; [intros; apply H; simpl; auto|lia].
Qed.

Lemma chunks_concat {A} k (L : list (list A)) : (forall x, In x L -> length x = k) ->
  chunks k (length L) (concat L) = L.
Proof.
  intros H. unfold chunks. apply nth_ext with (d := []) (d' := []).
  - now rewrite map_length, seq_length.
  - intros i Hi. rewrite map_length, seq_length in Hi. rewrite nth_map_seq by assumption.
    rewrite (skipn_concat k L i H) by lia.
    assert (E : skipn i L = nth i L [] :: skipn (S i) L).
    { clear H. revert i Hi. induction L as [|x L IH]; intros i Hi; simpl in Hi; [lia|].
      destruct i; [reflexivity|]. simpl. apply IH. lia. }
    rewrite E. simpl. rewrite firstn_app.
    rewrite (H (nth i L [])) by (apply nth_In; assumption). rewrite Nat.sub_diag, firstn_O, app_nil_r.
    rewrite firstn_all2; [reflexivity|]. rewrite (H (nth i L [])) by (apply nth_In; assumption). lia.
Qed.

(** entries by index *)
Lemma in_idx_nth l idx (f : list nat -> R) :
  Forall2 (fun i n => i < n) idx l -> nth (ravel l idx) (map f (all_idx l)) 0%R = f idx.
Proof.
  intros H. revert f. induction H as [|i n idx l Hi H IH]; intros f; [reflexivity|].
  simpl. rewrite map_flat_map, flat_map_concat.
  set (L := map (fun x : nat => map f (map (cons x) (all_idx l))) (seq 0 n)).
  assert (HL : forall x, In x L -> length x = prod_shape l).
  { intros x Hx. unfold L in Hx. apply in_map_iff in Hx. destruct Hx as (k & <- & _).
    rewrite !map_length. apply all_idx_length. }
  assert (HR : ravel l idx < prod_shape l).
  { clear -H. induction H as [|j m jdx l Hj H IH]; simpl; [lia|]. nia. }
  assert (HS : nth (i * prod_shape l + ravel l idx) (concat L) 0%R = nth (ravel l idx) (nth i L []) 0%R).
  { assert (LL : length L = n) by (unfold L; now rewrite map_length, seq_length).
    clearbody L. clear -HL HR LL Hi. rewrite <- LL in Hi. clear LL. revert i Hi. induction L as [|x L IHL]; intros i Hi; simpl in Hi; [lia|].
    assert (Lx : length x = prod_shape l) by (apply HL; simpl; auto).
    destruct i as [|i]; simpl.
    - rewrite app_nth1 by lia. reflexivity.
    - rewrite app_nth2 by lia.
      replace (prod_shape l + i * prod_shape l + ravel l idx - length x) with (i * prod_shape l + ravel l idx) by lia.
      apply IHL; [intros; apply HL; simpl; auto|lia]. }
  rewrite HS. unfold L. rewrite nth_map_seq by assumption. rewrite map_map. apply (IH (fun idx => f (i :: idx))).
Qed.

Lemma aget_tabulate sh f idx : Forall2 (fun i n => i < n) idx sh -> aget (tabulate sh f) idx = f idx.
Proof. intros H. unfold aget, tabulate. simpl. now apply in_idx_nth. Qed.

(** an array is determined by its entries *)
Lemma transpose_flat4 a s d t n : a_shape a = [s; d; t; n] ->
  a_flat (transpose a) = flat_map (fun i => flat_map (fun j => flat_map (fun k => map (fun m => aget a [m; k; j; i]) (seq 0 s)) (seq 0 d)) (seq 0 t)) (seq 0 n).
Proof.
  intros E. unfold transpose. rewrite E. cbn [rev app tabulate a_flat all_idx].
  rewrite map_flat_map. apply flat_map_ext_in. intros i _.
  rewrite map_map, map_flat_map. apply flat_map_ext_in. intros j _.
  rewrite map_map, map_flat_map. apply flat_map_ext_in. intros k _.
  rewrite map_map, map_flat_map.
  rewrite <- flat_map_singleton. apply flat_map_ext_in. intros m _. reflexivity.
Qed.

Lemma transpose_flat3 a s t n : a_shape a = [s; t; n] ->
  a_flat (transpose a) = flat_map (fun i => flat_map (fun j => map (fun m => aget a [m; j; i]) (seq 0 s)) (seq 0 t)) (seq 0 n).
Proof.
  intros E. unfold transpose. rewrite E. cbn [rev app tabulate a_flat all_idx].
  rewrite map_flat_map. apply flat_map_ext_in. intros i _.
  rewrite map_map, map_flat_map. apply flat_map_ext_in. intros j _.
  rewrite map_map, map_flat_map.
  rewrite <- flat_map_singleton. apply flat_map_ext_in. intros m _. reflexivity.
Qed.
