(** Facts about time scaling and changepoint grids (Model/Trend.v). *)
From Coq Require Import Reals String List ZArith Lra Lia Arith Bool Sorted.
From Verif.Model Require Import Base Num XFloat Arr Frame Trend.
From Verif.Spec Require Import TrendSpec.
From Verif.Facts Require Import BaseFacts NumFacts.
Import ListNotations.
Local Open Scope R_scope.

Lemma last_map {A B} (f : A -> B) l d d' : l <> [] -> last (map f l) d' = f (last l d).
Proof.
  induction l as [|x l IH]; [congruence|]. intros _. destruct l as [|y l]; [reflexivity|].
  change (last (map f (x :: y :: l)) d') with (last (map f (y :: l)) d').
  rewrite IH by congruence. reflexivity.
Qed.

Lemma fit_time_shape ts s st : fit_time ts = Ok (s, st) ->
  exists x y l, ts = x :: y :: l /\ s = Rmean (diffs ts) /\ st = Rmin_list x (y :: l) / s.
Proof.
  destruct ts as [|x [|y l]]; simpl; try discriminate. intros [= <- <-]. exists x, y, l. auto.
Qed.

Lemma fit_time_increasing x y l : increasing (x :: y :: l) ->
  exists s, fit_time (x :: y :: l) = Ok (s, x / s) /\ 0 < s /\
    s = (last (y :: l) 0 - x) / INR (length (y :: l)).
Proof.
  intros H. exists (Rmean (diffs (x :: y :: l))).
  assert (E : Rmean (diffs (x :: y :: l)) = (last (y :: l) 0 - x) / INR (length (y :: l))).
  { unfold Rmean. now rewrite diffs_sum, diffs_length. }
  split; [|split].
  - unfold fit_time. now rewrite increasing_min.
  - rewrite E. pose proof (increasing_last_lt _ _ _ H) as L.
    change (last (x :: y :: l) 0) with (last (y :: l) 0) in L.
    apply Rdiv_lt_0_compat; [lra|]. apply INR_len_pos. congruence.
  - exact E.
Qed.

Theorem fit_time_ok ts : increasing ts -> (2 <= length ts)%nat ->
  exists s st, fit_time ts = Ok (s, st) /\ 0 < s /\
    scale_time s st (hd 0 ts) = 0 /\
    scale_time s st (last ts 0) = INR (length ts - 1) /\
    (forall a b, a < b -> scale_time s st a < scale_time s st b).
Proof.
  intros H L. destruct ts as [|x [|y l]]; simpl in L; try lia.
  destruct (fit_time_increasing x y l H) as (s & E & P & Es). exists s, (x / s).
  split; [assumption|]. split; [assumption|]. unfold scale_time. split; [|split].
  - simpl. lra.
  - change (last (x :: y :: l) 0) with (last (y :: l) 0).
    replace (length (x :: y :: l) - 1)%nat with (length (y :: l)) by (simpl; lia).
    assert (0 < INR (length (y :: l))) by (apply INR_len_pos; congruence).
    pose proof (increasing_last_lt _ _ _ H) as LL.
    change (last (x :: y :: l) 0) with (last (y :: l) 0) in LL.
    rewrite Es. field. split; lra.
  - intros a b Hab. assert (0 < / s) by now apply Rinv_0_lt_compat. unfold Rdiv. nra.
Qed.

Theorem fit_time_regular a d n : 0 < d -> (2 <= n)%nat ->
  exists s st, fit_time (map (fun k => a + INR k * d) (seq 0 n)) = Ok (s, st) /\
    forall k : Z, scale_time s st (a + IZR k * d) = IZR k.
Proof.
  intros Hd Hn. set (ts := map (fun k => a + INR k * d) (seq 0 n)).
  assert (Inc : increasing ts).
  { apply seq_map_sorted. intros i j Hij. apply lt_INR in Hij. nra. }
  assert (L : length ts = n) by (unfold ts; now rewrite map_length, seq_length).
  destruct n as [|[|n]]; try lia.
  change ts with (a + INR 0 * d :: a + INR 1 * d :: map (fun k => a + INR k * d) (seq 2 n)) in *.
  destruct (fit_time_increasing _ _ _ Inc) as (s & E & P & Es).
  exists s. eexists. split; [exact E|].
  assert (Last : last ((a + INR 1 * d) :: map (fun k => a + INR k * d) (seq 2 n)) 0 = a + INR (S n) * d).
  { change ((a + INR 1 * d) :: map (fun k => a + INR k * d) (seq 2 n))
      with (map (fun k => a + INR k * d) (seq 1 (S n))).
    rewrite (last_map _ _ 0%nat) by (simpl; congruence). rewrite seq_S, last_last.
    f_equal. }
  rewrite Last in Es.
  assert (Es' : s = d).
  { rewrite Es. cbn [length]. rewrite map_length, seq_length.
    assert (0 < INR (S n)) by (apply lt_0_INR; lia). change (INR 0) with 0. field. lra. }
  intros k. clear - Es' Hd. rewrite Es'. unfold scale_time. change (INR 0) with 0. field. lra.
Qed.

Theorem fit_time_affine a b ts s st : 0 < a -> increasing ts ->
  fit_time ts = Ok (s, st) ->
  exists s' st', fit_time (map (fun t => a * t + b) ts) = Ok (s', st') /\
    forall t, scale_time s' st' (a * t + b) = scale_time s st t.
Proof.
  intros Ha Inc E. destruct (fit_time_shape _ _ _ E) as (x & y & l & -> & Es & Est).
  destruct (fit_time_increasing _ _ _ Inc) as (s0 & E0 & P0 & _). rewrite E in E0.
  injection E0 as <- Est'.
  cbn [map fit_time]. eexists _, _. split; [reflexivity|]. intros t. unfold scale_time.
  pose proof (diffs_affine a b (x :: y :: l)) as D. cbn [map] in D. rewrite D, Rmean_scale, <- Es.
  pose proof (Rmin_list_affine a b x (y :: l) Ha) as M. cbn [map] in M. rewrite M, Est. field.
  split; lra.
Qed.

(** fewer than two distinct times cannot be scaled *)
Lemma fit_time_short ts : (length ts < 2)%nat -> fit_time ts = Err ValueError.
Proof. destruct ts as [|x [|y l]]; simpl; intros; try lia; reflexivity. Qed.

(** ** days *)
Lemma days_whole_seconds k : days_since_epoch (k * 1000000000) = IZR k / 86400.
Proof. unfold days_since_epoch. now rewrite Z.div_mul by lia. Qed.

Lemma days_monotone a b : (a <= b)%Z -> days_since_epoch a <= days_since_epoch b.
Proof.
  intros H. unfold days_since_epoch. assert (a / 1000000000 <= b / 1000000000)%Z by (apply Z.div_le_mono; lia).
  apply IZR_le in H0. lra.
Qed.

Lemma days_diff a b : days_since_epoch (b * 1000000000) - days_since_epoch (a * 1000000000)
                      = IZR (b - a) / 86400.
Proof. rewrite !days_whole_seconds, minus_IZR. lra. Qed.

Lemma days_strict a b : (a + 1000000000 <= b)%Z -> days_since_epoch a < days_since_epoch b.
Proof.
  intros H. unfold days_since_epoch.
  assert (a / 1000000000 + 1 <= b / 1000000000)%Z.
  { rewrite <- Z.div_add by lia. apply Z.div_le_mono; lia. }
  apply IZR_le in H0. rewrite plus_IZR in H0. lra.
Qed.

(** ** changepoint grid *)
Theorem changepoint_grid t_max I r : 0 < I ->
  (forall c, In c (changepoint_times t_max I r) <->
     exists k : nat, c = INR k * I /\ c < changepoint_limit t_max r) /\
  increasing (changepoint_times t_max I r) /\
  (forall n : nat, length (changepoint_times t_max I r) = n <->
     (INR n * I >= changepoint_limit t_max r /\ (n = 0%nat \/ INR (n - 1) * I < changepoint_limit t_max r))).
Proof.
  intros HI. unfold changepoint_times. split; [|split].
  - intros c. now apply arange0_In.
  - now apply arange0_increasing.
  - intros n. split.
    + intros <-. split.
      * destruct (Rge_dec (INR (length (arange0 (changepoint_limit t_max r) I)) * I) (changepoint_limit t_max r)); [assumption|].
        exfalso. assert (H : INR (length (arange0 (changepoint_limit t_max r) I)) * I < changepoint_limit t_max r) by lra.
        apply arange0_bound in H; [|assumption]. lia.
      * destruct (length (arange0 (changepoint_limit t_max r) I)) as [|m] eqn:E; [auto|]. right.
        replace (S m - 1)%nat with m by lia. apply (arange0_bound (changepoint_limit t_max r) I m HI). lia.
    + intros [H1 H2]. set (L := length (arange0 (changepoint_limit t_max r) I)).
      assert (A : (L <= n)%nat).
      { destruct (le_lt_dec L n); [assumption|]. exfalso. unfold L in l.
        apply arange0_bound in l; [|assumption]. lra. }
      destruct H2 as [->|H2]; [lia|].
      apply arange0_bound in H2; [|assumption]. fold L in H2. lia.
Qed.

Lemma limit_fraction t_max r : 0 < r < 1 -> changepoint_limit t_max r = t_max * r.
Proof.
  intros H. unfold changepoint_limit.
  destruct (Rltb r 1) eqn:E1; [|apply Rltb_false in E1; lra].
  destruct (Rltb 0 r) eqn:E2; [reflexivity|apply Rltb_false in E2; lra].
Qed.
Lemma limit_count t_max r : 1 <= r -> changepoint_limit t_max r = r.
Proof.
  intros H. unfold changepoint_limit.
  destruct (Rltb r 1) eqn:E1; [apply Rltb_true in E1; lra|]. simpl.
  destruct (Rleb 1 r) eqn:E2; [reflexivity|apply Rleb_false in E2; lra].
Qed.
Lemma limit_negative t_max r : r <= 0 -> changepoint_limit t_max r = t_max + r.
Proof.
  intros H. unfold changepoint_limit.
  destruct (Rltb 0 r) eqn:E2; [apply Rltb_true in E2; lra|]. rewrite andb_false_r.
  destruct (Rleb 1 r) eqn:E3; [apply Rleb_true in E3; lra|reflexivity].
Qed.

(** ** design matrix entries *)
Lemma entry_after t c : c <= t -> changepoint_entry t c = t - c + 1.
Proof.
  intros H. unfold changepoint_entry, clip_low.
  destruct (Rleb c t) eqn:E; [|apply Rleb_false in E; lra].
  rewrite Rmax_right; lra.
Qed.
Lemma entry_before t c : 1 <= c -> t < c -> changepoint_entry t c = 0.
Proof.
  intros H1 H2. unfold changepoint_entry, clip_low.
  destruct (Rleb c t) eqn:E; [apply Rleb_true in E; lra|].
  rewrite Rmax_left; lra.
Qed.
Lemma entry_grid (t c : Z) : (0 <= t)%Z -> (0 <= c)%Z ->
  changepoint_entry (IZR t) (IZR c) = pos_part (IZR t - IZR c + 1).
Proof.
  intros Ht Hc. unfold pos_part. destruct (Z_le_gt_dec c t).
  - apply IZR_le in l. rewrite entry_after by assumption.
    destruct (Rle_dec (IZR t - IZR c + 1) 0); lra.
  - assert (1 <= c)%Z by lia. assert (t + 1 <= c)%Z by lia. apply IZR_le in H, H0.
    rewrite plus_IZR in H0. rewrite entry_before by lra.
    destruct (Rle_dec (IZR t - IZR c + 1) 0); lra.
Qed.

(** the entry jumps from 0 to 1 at a changepoint c >= 1 *)
Lemma entry_discontinuous c : 1 <= c -> ~ continuous_at (fun t => changepoint_entry t c) c.
Proof.
  intros Hc H. destruct (H (1/2)) as (d & Hd & Hy); [lra|].
  specialize (Hy (c - d / 2)). rewrite entry_before in Hy by lra. rewrite entry_after in Hy by lra.
  assert (Rabs (c - d / 2 - c) < d) by (rewrite Rabs_left; lra).
  specialize (Hy H0). rewrite Rabs_left in Hy; lra.
Qed.

Lemma entry_continuous_elsewhere c t : 1 <= c -> t <> c -> continuous_at (fun t => changepoint_entry t c) t.
Proof.
  intros Hc N eps He. destruct (Rlt_dec t c).
  - exists (c - t). split; [lra|]. intros y Hy. apply Rabs_def2 in Hy.
    rewrite !entry_before by lra. rewrite Rminus_diag_eq by reflexivity. rewrite Rabs_R0. lra.
  - exists (Rmin eps (t - c)). split; [apply Rmin_glb_lt; lra|]. intros y Hy.
    pose proof (Rmin_l eps (t - c)). pose proof (Rmin_r eps (t - c)).
    assert (HH := Rabs_def2 _ _ Hy). rewrite !entry_after by lra.
    replace (y - c + 1 - (t - c + 1)) with (y - t) by ring. lra.
Qed.

(** ** failing fits *)
Lemma to_list_scalar {A} (a : A) n : to_list_if_scalar (Scalar a) n = repeat a n.
Proof. reflexivity. Qed.

Theorem setup_changepoints_spec t_max iv rg n :
  (forall I, In I (to_list_if_scalar iv n) -> 0 < I) ->
  (exists cps, setup_changepoints t_max iv rg n = Ok cps /\
     Forall2 (fun ir cp => 0 < changepoint_limit t_max (snd ir) /\ hd_error cp = Some 0 /\
                           cp = changepoint_times t_max (fst ir) (snd ir))
             (combine (to_list_if_scalar iv n) (to_list_if_scalar rg n)) cps)
  \/
  (setup_changepoints t_max iv rg n = Err ValueError /\
   exists ir, In ir (combine (to_list_if_scalar iv n) (to_list_if_scalar rg n)) /\
     changepoint_limit t_max (snd ir) <= 0).
Proof.
  intros HI. unfold setup_changepoints.
  assert (HP : forall ir, In ir (combine (to_list_if_scalar iv n) (to_list_if_scalar rg n)) -> 0 < fst ir).
  { intros [i r] H. apply in_combine_l in H. simpl. auto. }
  revert HP. generalize (combine (to_list_if_scalar iv n) (to_list_if_scalar rg n)) as l. intros l HP.
  clear HI. induction l as [|ir l IH]; simpl.
  - left. exists []. split; [reflexivity|constructor].
  - assert (P : 0 < fst ir) by (apply HP; simpl; auto).
    destruct (changepoint_times t_max (fst ir) (snd ir)) as [|c cs] eqn:E; simpl.
    + right. split; [reflexivity|]. exists ir. split; [auto|]. unfold changepoint_times in E.
      now apply arange0_nil in E.
    + assert (Lim : 0 < changepoint_limit t_max (snd ir)).
      { destruct (Rlt_dec 0 (changepoint_limit t_max (snd ir))); [assumption|]. exfalso.
        assert (changepoint_times t_max (fst ir) (snd ir) = []) by (apply arange0_nil; [assumption|lra]).
        congruence. }
      assert (c = 0) by (eapply arange0_head; exact E).
      destruct IH as [(cps & Ec & F)|(Ec & ir' & Hin & Hl)]; [intros; apply HP; simpl; auto| |].
      * rewrite Ec. simpl. left. eexists. split; [reflexivity|]. constructor; [|assumption].
        subst c. auto.
      * rewrite Ec. simpl. right. split; [reflexivity|]. exists ir'. auto.
Qed.

Theorem no_changepoints_iff t_max iv rg n :
  (forall I, In I (to_list_if_scalar iv n) -> 0 < I) ->
  (setup_changepoints t_max iv rg n = Err ValueError <->
   exists ir, In ir (combine (to_list_if_scalar iv n) (to_list_if_scalar rg n)) /\
     changepoint_limit t_max (snd ir) <= 0).
Proof.
  intros HI. destruct (setup_changepoints_spec t_max iv rg n HI) as [(cps & E & F)|[E H]].
  - rewrite E. split; [discriminate|]. intros (ir & Hin & Hl). exfalso.
    clear -F Hin Hl. induction F; [contradiction|]. destruct Hin as [->|Hin]; [lra|auto].
  - rewrite E. tauto.
Qed.

Theorem some_changepoints t_max iv rg n cps :
  (forall I, In I (to_list_if_scalar iv n) -> 0 < I) ->
  setup_changepoints t_max iv rg n = Ok cps ->
  Forall (fun cp => hd_error cp = Some 0) cps /\
  length cps = length (combine (to_list_if_scalar iv n) (to_list_if_scalar rg n)).
Proof.
  intros HI E. destruct (setup_changepoints_spec t_max iv rg n HI) as [(cps' & E' & F)|[E' H]]; [|congruence].
  assert (cps' = cps) by congruence. subst. split.
  - clear -F. induction F; constructor; tauto.
  - symmetry. eapply Forall2_len; eauto.
Qed.
