(** Point forecasts, quantiles, vectorised prediction. *)
From Coq Require Import Reals Lra String Bool ZArith Lia List Arith Permutation Sorted.
From Verif.Model Require Import Base Num Arr Frame Aggregate Scale Predict.
From Verif.Spec Require Import FrameSpec ScaleSpec PredictSpec.
From Verif.Facts Require Import BaseFacts NumFacts OrderFacts FrameFacts ScaleFacts ArrFacts PredictFacts.
Import ListNotations.
Local Open Scope R_scope.

Lemma sorted_nth_le l i j d : StronglySorted Rle l -> (i <= j)%nat -> (j < length l)%nat -> nth i l d <= nth j l d.
Proof.
  intros H. revert i j. induction H as [|x l H IH F]; intros i j Hij Hj; simpl in Hj; [lia|].
  destruct i as [|i], j as [|j]; simpl; try lra; [|lia|].
  - rewrite Forall_forall in F. apply F, nth_In. lia.
  - apply IH; lia.
Qed.

Section Q.
Variable vals : list R.
Hypothesis NE : vals <> [].
Let n1 := (length vals - 1)%nat.
Let s := Rsort vals.

Lemma n1_pos : length s = S n1.
Proof. unfold s, n1. rewrite Rsort_length. destruct vals; [congruence|]. simpl. lia. Qed.

Lemma pos_bounds a : 0 <= a <= 1 ->
  let pos := a * INR n1 in (0 <= Rfloor pos <= Z.of_nat n1)%Z /\ 0 <= pos - IZR (Rfloor pos) < 1 /\
  (Z.of_nat n1 = Rfloor pos -> pos - IZR (Rfloor pos) = 0).
Proof.
  intros Ha pos. pose proof (pos_INR n1). pose proof (Rfloor_spec pos) as [F1 F2].
  assert (P0 : 0 <= pos) by (unfold pos; nra). assert (P1 : pos <= INR n1) by (unfold pos; nra).
  assert (A : (0 <= Rfloor pos)%Z).
  { apply Z.lt_succ_r. apply lt_IZR. unfold Z.succ. rewrite plus_IZR. lra. }
  assert (B : (Rfloor pos <= Z.of_nat n1)%Z).
  { apply le_IZR. rewrite <- INR_IZR_INZ. lra. }
  repeat split; try assumption; try lra.
  intros E. rewrite <- E in *. rewrite <- INR_IZR_INZ in *. lra.
Qed.

(** the quantile lies between two consecutive order statistics *)
Lemma quantile_seg a : 0 <= a <= 1 -> exists lo w, (lo <= n1)%nat /\ 0 <= w < 1 /\ (lo = n1 -> w = 0) /\
  a * INR n1 = INR lo + w /\
  quantile vals a = nth lo s 0 + w * (nth (Nat.min (S lo) n1) s 0 - nth lo s 0).
Proof.
  intros Ha. destruct (pos_bounds a Ha) as (A & B & C).
  exists (Z.to_nat (Rfloor (a * INR n1))), (a * INR n1 - IZR (Rfloor (a * INR n1))).
  repeat split; try lia; try lra.
  - intros E. apply C. lia.
  - rewrite (INR_IZR_INZ (Z.to_nat _)), Z2Nat.id by lia. lra.
Qed.

Lemma quantile_mono a b : 0 <= a -> a <= b -> b <= 1 -> quantile vals a <= quantile vals b.
Proof.
  intros H1 H2 H3.
  destruct (quantile_seg a) as (l1 & w1 & L1 & W1 & _ & E1 & ->); [lra|].
  destruct (quantile_seg b) as (l2 & w2 & L2 & W2 & _ & E2 & ->); [lra|].
  pose proof n1_pos as LS.
  assert (P : INR l1 + w1 <= INR l2 + w2).
  { rewrite <- E1, <- E2. apply Rmult_le_compat_r; [apply pos_INR|assumption]. }
  assert (ST : StronglySorted Rle s) by apply Rsort_sorted.
  assert (D : (l1 <= l2)%nat).
  { apply Nat.lt_succ_r. apply INR_lt. rewrite S_INR. lra. }
  assert (M : forall l, (l <= n1)%nat -> nth l s 0 <= nth (Nat.min (S l) n1) s 0)
    by (intros l Hl; apply sorted_nth_le; [assumption|lia|lia]).
  pose proof (M l1 L1) as M1. pose proof (M l2 L2) as M2.
  destruct (Nat.eq_dec l1 l2) as [->|N].
  - assert (w1 <= w2) by lra. nra.
  - assert (nth (Nat.min (S l1) n1) s 0 <= nth l2 s 0) by (apply sorted_nth_le; [assumption|lia|lia]).
    nra.
Qed.

Lemma quantile_order_stat k : (k <= n1)%nat -> (0 < n1)%nat -> quantile vals (INR k / INR n1) = nth k s 0.
Proof.
  intros Hk Hn. assert (P : 0 < INR n1) by now apply (lt_INR 0).
  assert (B : 0 <= INR k / INR n1 <= 1).
  { apply le_INR in Hk. pose proof (pos_INR k). split.
    - apply Rmult_le_pos; [assumption|]. left. now apply Rinv_0_lt_compat.
    - apply (Rmult_le_reg_r (INR n1)); [assumption|]. unfold Rdiv. rewrite Rmult_assoc, Rinv_l by lra. lra. }
  destruct (quantile_seg _ B) as (l & w & L & W & _ & E & ->).
  replace (INR k / INR n1 * INR n1) with (INR k) in E by (field; lra).
  assert (l = k).
  { apply Nat.le_antisymm; apply Nat.lt_succ_r; apply INR_lt; rewrite S_INR; lra. }
  subst l. assert (w = 0) by lra. subst w. lra.
Qed.

Lemma quantile_0 : quantile vals 0 = nth 0 s 0.
Proof.
  destruct (quantile_seg 0) as (l & w & L & W & _ & E & ->); [lra|].
  rewrite Rmult_0_l in E. pose proof (pos_INR l).
  assert (l = 0%nat). { destruct l; [reflexivity|]. rewrite S_INR in *. pose proof (pos_INR l). lra. }
  subst. simpl in E. assert (w = 0) by lra. subst. lra.
Qed.

Lemma quantile_1 : quantile vals 1 = nth n1 s 0.
Proof.
  destruct (quantile_seg 1) as (l & w & L & W & Z & E & ->); [lra|].
  rewrite Rmult_1_l in E.
  assert (l = n1). { apply Nat.le_antisymm; [assumption|]. apply Nat.lt_succ_r, INR_lt. rewrite S_INR. lra. }
  rewrite (Z H), H. lra.
Qed.

Lemma s0_min x : In x vals -> nth 0 s 0 <= x.
Proof.
  intros Hx. apply (Rsort_In x vals) in Hx. apply (In_nth _ _ 0) in Hx. destruct Hx as (i & Hi & <-).
  apply sorted_nth_le; [apply Rsort_sorted|lia|assumption].
Qed.
Lemma sn_max x : In x vals -> x <= nth n1 s 0.
Proof.
  intros Hx. apply (Rsort_In x vals) in Hx. apply (In_nth _ _ 0) in Hx. destruct Hx as (i & Hi & <-).
  pose proof n1_pos. unfold s in *. apply sorted_nth_le; [apply Rsort_sorted| |]; lia.
Qed.
Lemma s_In i : (i <= n1)%nat -> In (nth i s 0) vals.
Proof. intros Hi. apply (Rsort_In _ vals). pose proof n1_pos. unfold s in *. apply nth_In. lia. Qed.

Lemma quantile_extremes : In (quantile vals 0) vals /\ In (quantile vals 1) vals /\
  forall x, In x vals -> quantile vals 0 <= x <= quantile vals 1.
Proof.
  rewrite quantile_0, quantile_1. split; [apply s_In; lia|]. split; [apply s_In; lia|].
  intros x Hx. split; [now apply s0_min|now apply sn_max].
Qed.
End Q.

Lemma quantile_perm l l' a : Permutation l l' -> quantile l a = quantile l' a.
Proof. intros H. unfold quantile. rewrite (Rsort_perm_eq l l' H), (Permutation_length H). reflexivity. Qed.

Lemma nth_map_mul c l i : nth i (map (fun x => c * x) l) 0 = c * nth i l 0.
Proof. revert i. induction l as [|x l IH]; intros [|i]; simpl; try lra. apply IH. Qed.

Lemma quantile_scale c l a : 0 <= c -> quantile (map (fun x => c * x) l) a = c * quantile l a.
Proof.
  intros Hc. unfold quantile. rewrite Rsort_scale by assumption. rewrite map_length, !nth_map_mul. ring.
Qed.

(** ** vectorised prediction *)
Lemma vectorize_isolated fcs X X' : 
  (forall p f, In (p, f) fcs -> forall g g', get_multiindex_loc X [p] = Ok g -> get_multiindex_loc X' [p] = Ok g' ->
      drop_levels g = drop_levels g') ->
  vectorize_predict fcs (Some X) = vectorize_predict fcs (Some X').
Proof.
  intros H. unfold vectorize_predict.
  rewrite (mapM_ext _ (fun pf => xi <- get_multiindex_loc X' [fst pf] ;; snd pf (Some (drop_levels xi)))); [reflexivity|].
  intros [p f] Hp. specialize (H p f Hp _ _ eq_refl eq_refl). cbn [fst snd get_multiindex_loc bind]. now rewrite H.
Qed.

Lemma vectorize_rows fcs X out : vectorize_predict fcs X = Ok out ->
  exists outs, Forall2 (fun pf o => match X with
                          | None => snd pf None = Ok o
                          | Some x => snd pf (Some (mkFrame 0 (f_cols x)
                               (map (fun r => mkRow [] (r_time r) (r_vals r))
                                  (filter (fun r => path_eqb (firstn (length (fst pf)) (r_path r)) (fst pf)) (f_rows x))))) = Ok o
                          end) fcs outs /\ f_rows out = flat_map (fun o => f_rows o) outs.
Proof.
  unfold vectorize_predict. destruct (mapM _ fcs) as [outs|e] eqn:E; [|discriminate]. cbn [bind].
  intros H. exists outs. split.
  - apply mapM_ok in E. clear H. induction E as [|[p f] o l1 l2 H1 H2 IH]; constructor; [|assumption].
    destruct X as [x|]; [|assumption]. simpl in *.
    unfold drop_levels in H1. simpl in H1. rewrite <- H1. do 3 f_equal. apply f_equal.
    apply filter_ext. intros r. unfold path_in. simpl. now rewrite orb_false_r.
  - destruct outs; [discriminate|]. injection H as <-. reflexivity.
Qed.
