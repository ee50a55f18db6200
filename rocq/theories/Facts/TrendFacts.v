(** Facts about fitted trends (Model/Trend.v). *)
From Coq Require Import Reals String List ZArith Lra Lia Arith Bool Sorted.
From Verif.Model Require Import Base Num XFloat Arr Frame Trend.
From Verif.Spec Require Import TrendSpec.
From Verif.Facts Require Import BaseFacts NumFacts TimeFacts.
Import ListNotations.
Local Open Scope R_scope.

(** ** lists *)
Lemma combine_app {A B} (l1 l2 : list A) (m1 m2 : list B) : length l1 = length m1 ->
  combine (l1 ++ l2) (m1 ++ m2) = combine l1 m1 ++ combine l2 m2.
Proof.
  revert m1. induction l1 as [|x l1 IH]; intros [|y m1] H; simpl in *; try discriminate; [reflexivity|].
  f_equal. apply IH. lia.
Qed.

Lemma map_snd_combine_seq {A B} (f : A -> B) (l : list A) k :
  map (fun jc => f (snd jc)) (combine (seq k (length l)) l) = map f l.
Proof. revert k. induction l as [|x l IH]; intros k; simpl; [reflexivity|]. now rewrite IH. Qed.

Lemma map_seq_nth {A B} (f : A -> B) (l : list A) d :
  map (fun i => f (nth i l d)) (seq 0 (length l)) = map f l.
Proof.
  induction l as [|x l IH]; [reflexivity|]. cbn [length]. cbn [seq map]. f_equal.
  rewrite <- seq_shift, map_map. exact IH.
Qed.

Lemma split_nth {A} (i : nat) (l : list A) d : (i < length l)%nat ->
  l = firstn i l ++ nth i l d :: skipn (S i) l.
Proof.
  revert i. induction l as [|x l IH]; intros [|i] H; simpl in *; try lia; [reflexivity|].
  f_equal. apply IH. lia.
Qed.

Lemma length_concat {A} (l : list (list A)) :
  length (concat l) = fold_right Nat.add 0%nat (map (@length A) l).
Proof. induction l; simpl; [reflexivity|]. rewrite app_length. congruence. Qed.

Lemma concat_uniform_length {A} (L : list (list A)) T :
  (forall l, In l L -> length l = T) -> length (concat L) = (length L * T)%nat.
Proof.
  induction L as [|x L IH]; intros H; simpl; [reflexivity|].
  rewrite app_length, (H x) by (simpl; auto). rewrite IH; [reflexivity|]. intros l Hl. apply H. simpl. auto.
Qed.

Lemma nth_concat_uniform {A} (L : list (list A)) T i j d :
  (forall l, In l L -> length l = T) -> (i < length L)%nat -> (j < T)%nat ->
  nth (i * T + j) (concat L) d = nth j (nth i L []) d.
Proof.
  revert i. induction L as [|x L IH]; intros [|i] H Hi Hj; simpl in *; try lia.
  - rewrite app_nth1; [reflexivity|]. rewrite H; auto.
  - rewrite app_nth2; rewrite H by auto; [|lia].
    replace (T + i * T + j - T)%nat with (i * T + j)%nat by lia. apply IH; auto. lia.
Qed.

(** ** masked products *)
Lemma weighted_dot f cps coefs : weighted f cps coefs = dot (map f cps) coefs.
Proof.
  unfold weighted. revert coefs. induction cps as [|c cps IH]; intros [|x coefs]; simpl; try reflexivity.
  rewrite <- IH. reflexivity.
Qed.

Lemma masked_dot (f : R -> R) pre cp post bpre b bpost lo hi k :
  length pre = length bpre -> length cp = length b -> length post = length bpost ->
  lo = (k + length pre)%nat -> hi = (lo + length cp)%nat ->
  dot (map (fun jc => (if (lo <=? fst jc)%nat && (fst jc <? hi)%nat then 1 else 0) * f (snd jc))
         (combine (seq k (length (pre ++ cp ++ post))) (pre ++ cp ++ post)))
      (bpre ++ b ++ bpost)
  = dot (map f cp) b.
Proof.
  intros Hp Hc Ho -> ->. rewrite !app_length, !seq_app.
  rewrite !combine_app by now rewrite seq_length.
  rewrite !map_app. rewrite dot_app by (rewrite map_length, combine_length, seq_length; lia).
  rewrite dot_app by (rewrite map_length, combine_length, seq_length; lia).
  rewrite (dot_zero_l _ bpre).
  2:{ intros x Hx. apply in_map_iff in Hx as ([j c] & <- & Hj). apply in_combine_l in Hj.
      apply in_seq in Hj. simpl. destruct (k + length pre <=? j)%nat eqn:E; [apply Nat.leb_le in E; lia|].
      simpl. lra. }
  rewrite (dot_zero_l _ bpost).
  2:{ intros x Hx. apply in_map_iff in Hx as ([j c] & <- & Hj). apply in_combine_l in Hj.
      apply in_seq in Hj. simpl. destruct (j <? k + length pre + length cp)%nat eqn:E;
      [apply Nat.ltb_lt in E; lia|]. rewrite andb_false_r. lra. }
  rewrite Rplus_0_l, Rplus_0_r. f_equal.
  rewrite <- (map_snd_combine_seq f cp (k + length pre)).
  apply map_ext_in. intros [j c] Hj. apply in_combine_l in Hj. apply in_seq in Hj. simpl.
  destruct (k + length pre <=? j)%nat eqn:E1; [|apply Nat.leb_gt in E1; lia].
  destruct (j <? k + length pre + length cp)%nat eqn:E2; [|apply Nat.ltb_ge in E2; lia]. simpl. lra.
Qed.

Definition same_lengths (cps blocks : list (list R)) : Prop :=
  Forall2 (fun c b => length c = length b) cps blocks.

Lemma Forall2_app_split {A B} (P : A -> B -> Prop) l1 l2 m :
  Forall2 P (l1 ++ l2) m -> Forall2 P l1 (firstn (length l1) m) /\ Forall2 P l2 (skipn (length l1) m).
Proof.
  revert m. induction l1 as [|x l1 IH]; intros m H; simpl in *; [auto|].
  inversion H; subst. apply IH in H4 as [? ?]. simpl. split; [constructor|]; assumption.
Qed.

Lemma same_lengths_concat cps blocks : same_lengths cps blocks -> length (concat cps) = length (concat blocks).
Proof. induction 1; simpl; [reflexivity|]. rewrite !app_length. congruence. Qed.

Definition masked_row (cps : list (list R)) (i : nat) (t : R) : list R :=
  let ns := n_changepoint_per_series cps in
  let start_idx := fold_right Nat.add 0%nat (firstn i ns) in
  let end_idx := (start_idx + nth i ns 0)%nat in
  map (fun jc => (if (start_idx <=? fst jc)%nat && (fst jc <? end_idx)%nat then 1 else 0)
                 * changepoint_entry t (snd jc))
      (combine (seq 0 (length (concat cps))) (concat cps)).

Lemma multi_matrix_rows cps ts :
  multi_changepoint_matrix cps ts = map (fun i => map (masked_row cps i) ts) (seq 0 (length cps)).
Proof. reflexivity. Qed.

Lemma masked_row_length cps i t : length (masked_row cps i t) = length (concat cps).
Proof. unfold masked_row. rewrite map_length, combine_length, seq_length. lia. Qed.

Lemma masked_row_dot cps blocks i t : same_lengths cps blocks -> (i < length cps)%nat ->
  dot (masked_row cps i t) (concat blocks)
  = weighted (changepoint_entry t) (nth i cps []) (nth i blocks []).
Proof.
  intros HS Hi. rewrite weighted_dot. pose proof (Forall2_len _ _ _ HS) as L.
  unfold masked_row. unfold n_changepoint_per_series.
  assert (E1 : cps = firstn i cps ++ [nth i cps []] ++ skipn (S i) cps) by now apply split_nth.
  assert (E2 : blocks = firstn i blocks ++ [nth i blocks []] ++ skipn (S i) blocks) by (apply split_nth; lia).
  assert (C1 : concat cps = concat (firstn i cps) ++ nth i cps [] ++ concat (skipn (S i) cps)).
  { rewrite E1 at 1. rewrite concat_app. reflexivity. }
  assert (C2 : concat blocks = concat (firstn i blocks) ++ nth i blocks [] ++ concat (skipn (S i) blocks)).
  { rewrite E2 at 1. rewrite concat_app. reflexivity. }
  rewrite C1, C2.
  assert (F1 : same_lengths (firstn i cps) (firstn i blocks)).
  { unfold same_lengths in HS. rewrite <- (firstn_skipn i cps) in HS. apply Forall2_app_split in HS as [HS _].
    rewrite firstn_length_le in HS by lia. exact HS. }
  assert (F2 : same_lengths (skipn i cps) (skipn i blocks)).
  { unfold same_lengths in HS. rewrite <- (firstn_skipn i cps) in HS. apply Forall2_app_split in HS as [_ HS].
    rewrite firstn_length_le in HS by lia. exact HS. }
  assert (K1 : skipn i cps = nth i cps [] :: skipn (S i) cps).
  { rewrite E1 at 1. rewrite skipn_app, firstn_length_le by lia. rewrite skipn_all2 by (rewrite firstn_length_le; lia).
    rewrite Nat.sub_diag. reflexivity. }
  assert (K2 : skipn i blocks = nth i blocks [] :: skipn (S i) blocks).
  { rewrite E2 at 1. rewrite skipn_app, firstn_length_le by lia. rewrite skipn_all2 by (rewrite firstn_length_le; lia).
    rewrite Nat.sub_diag. reflexivity. }
  rewrite K1, K2 in F2. inversion F2 as [|? ? ? ? Hc Ht]; subst.
  apply masked_dot.
  - now apply same_lengths_concat.
  - exact Hc.
  - now apply same_lengths_concat.
  - rewrite length_concat, firstn_map. reflexivity.
  - f_equal. rewrite (nth_indep _ 0%nat (length (@nil R))) by (rewrite map_length; lia).
    now rewrite map_nth.
Qed.

(** ** the piecewise linear trend *)
Lemma forallb_true {A} (p : A -> bool) l : (forall x, In x l -> p x = true) -> forallb p l = true.
Proof. intros H. apply forallb_forall. exact H. Qed.

Lemma broadcast2_same {A B} (a : list A) (b : list B) : length a = length b ->
  broadcast2 a b = Ok (combine a b).
Proof. intros H. unfold broadcast2. rewrite H, Nat.eqb_refl. reflexivity. Qed.

Lemma combine_map_seq {A B} (g : nat -> A) (l : list B) d :
  combine (map g (seq 0 (length l))) l = map (fun i => (g i, nth i l d)) (seq 0 (length l)).
Proof.
  assert (H : forall k (l : list B), combine (map g (seq k (length l))) l
             = map (fun i => (g (k + i)%nat, nth i l d)) (seq 0 (length l))).
  { intros k l0. revert k. induction l0 as [|x l0 IH]; intros k; [reflexivity|].
    cbn [length seq map combine]. rewrite Nat.add_0_r. f_equal.
    rewrite IH, <- seq_shift, map_map. apply map_ext. intros i. simpl. now rewrite Nat.add_succ_r. }
  apply H.
Qed.

Definition trend_value (t o : R) (cps coefs : list R) : R := o + weighted (changepoint_entry t) cps coefs.

Theorem piecewise_predict_multi sq n cps blocks offs ts :
  same_lengths cps blocks -> length offs = length cps -> n = length cps ->
  sq = false \/ (2 <= length cps)%nat ->
  exists a, piecewise_predict sq n (get_changepoint_matrix sq cps ts) offs (concat blocks) = Ok a /\
    arr_wf a /\
    (ts <> [] -> cps <> [] -> a_shape a = [length cps; length ts; 1%nat]) /\
    forall i j, (i < length cps)%nat -> (j < length ts)%nat ->
      aget a [i; j; 0%nat] = trend_value (nth j ts 0) (nth i offs 0) (nth i cps []) (nth i blocks []).
Proof.
  intros HS Lo Hn Hsq.
  assert (M : get_changepoint_matrix sq cps ts = D3 (multi_changepoint_matrix cps ts)).
  { unfold get_changepoint_matrix. rewrite multi_matrix_rows.
    destruct cps as [|c1 [|c2 cps']]; simpl in *; try reflexivity.
    destruct Hsq as [->|H]; [reflexivity|lia]. }
  rewrite M. unfold piecewise_predict. rewrite multi_matrix_rows.
  rewrite forallb_true.
  2:{ intros s Hs. apply in_map_iff in Hs as (i & <- & _). apply forallb_true. intros r Hr.
      apply in_map_iff in Hr as (t & <- & _). rewrite masked_row_length. apply Nat.eqb_eq.
      now apply same_lengths_concat. }
  rewrite broadcast2_same by (rewrite map_length, seq_length; lia). cbn [bind].
  rewrite <- Lo, (combine_map_seq _ offs 0), map_map.
  assert (Sq : (n =? 1)%nat && sq = false).
  { destruct Hsq as [->|H]; [apply andb_false_r|]. destruct (Nat.eqb_spec n 1); [lia|reflexivity]. }
  rewrite Sq. eexists. split; [reflexivity|].
  set (L := map (fun x => map (fun r => dot r (concat blocks) + snd (map (masked_row cps x) ts, nth x offs 0)) (fst (map (masked_row cps x) ts, nth x offs 0))) (seq 0 (length offs))).
  assert (U : forall l, In l L -> length l = length ts).
  { intros l Hl. apply in_map_iff in Hl as (i & <- & _). simpl. now rewrite !map_length. }
  assert (LL : length L = length offs) by (unfold L; now rewrite map_length, seq_length).
  assert (T1 : (match map (fun i => map (masked_row cps i) ts) (seq 0 (length offs)) with
               | [] => 0%nat | s :: _ => length s end) = match cps with [] => 0%nat | _ => length ts end).
  { rewrite Lo. destruct cps; [reflexivity|]. simpl. now rewrite map_length. }
  rewrite T1. split; [|split].
  - unfold arr_wf. cbn [a_flat a_shape]. rewrite (concat_uniform_length L (length ts)) by assumption.
    rewrite LL. unfold prod_shape. simpl. rewrite map_length, seq_length, Lo.
    destruct cps; simpl; lia.
  - intros _ Hc. cbn [a_shape]. rewrite map_length, seq_length, Lo. destruct cps; [congruence|reflexivity].
  - intros i j Hi Hj. unfold aget, ravel. cbn [a_shape a_flat]. unfold prod_shape. simpl.
    replace (i * (match cps with [] => 0 | _ :: _ => length ts end * 1) + (j * 1 + 0))%nat
      with (i * length ts + j)%nat by (destruct cps; simpl in *; lia).
    rewrite nth_concat_uniform by (assumption || lia).
    unfold L. rewrite (nth_indep _ [] ((fun x => map (fun r => dot r (concat blocks) + snd (map (masked_row cps x) ts, nth x offs 0)) (fst (map (masked_row cps x) ts, nth x offs 0))) 0%nat))
      by (rewrite map_length, seq_length; lia).
    rewrite (map_nth (fun x => map (fun r => dot r (concat blocks) + snd (map (masked_row cps x) ts, nth x offs 0)) (fst (map (masked_row cps x) ts, nth x offs 0)))). rewrite seq_nth by lia. simpl. rewrite map_map.
    rewrite (nth_indep _ 0 ((fun t => dot (masked_row cps i t) (concat blocks) + nth i offs 0) 0))
      by (rewrite map_length; lia).
    rewrite (map_nth (fun t => dot (masked_row cps i t) (concat blocks) + nth i offs 0)).
    rewrite masked_row_dot by (assumption || lia). unfold trend_value. ring.
Qed.

Theorem piecewise_predict_single cp coefs o ts : length cp = length coefs ->
  piecewise_predict true 1 (get_changepoint_matrix true [cp] ts) [o] coefs
  = Ok (mkArr [length ts; 1%nat] (map (fun t => trend_value t o cp coefs) ts)).
Proof.
  intros L. unfold get_changepoint_matrix. rewrite multi_matrix_rows. cbn [length seq map].
  unfold piecewise_predict. rewrite forallb_true.
  2:{ intros r Hr. apply in_map_iff in Hr as (t & <- & _). rewrite masked_row_length. simpl.
      rewrite app_nil_r. now apply Nat.eqb_eq. }
  rewrite map_map.
  assert (E : map (fun t => dot (masked_row [cp] 0 t) coefs) ts
              = map (fun t => weighted (changepoint_entry t) cp coefs) ts).
  { apply map_ext. intros t. pose proof (masked_row_dot [cp] [coefs] 0 t) as H. simpl in H.
    rewrite app_nil_r in H. apply H; [|lia]. repeat constructor. assumption. }
  rewrite E.
  assert (B : broadcast2 (map (fun t => weighted (changepoint_entry t) cp coefs) ts) [o]
              = Ok (map (fun t => (weighted (changepoint_entry t) cp coefs, o)) ts)).
  { unfold broadcast2. rewrite map_length. destruct ts as [|t1 [|t2 ts]]; try reflexivity.
    cbn [length Nat.eqb map]. simpl. now rewrite map_map. }
  rewrite B. cbn [bind]. rewrite map_length, map_map. do 2 f_equal. apply map_ext. intros t.
  unfold trend_value. simpl. ring.
Qed.

(** ** slope *)
Lemma entry_diff_after t t' c : c <= t -> t <= t' -> changepoint_entry t' c - changepoint_entry t c = t' - t.
Proof. intros. rewrite !entry_after by lra. ring. Qed.

Theorem slope_after t t' o cps coefs : t <= t' -> length cps = length coefs ->
  (forall c, In c cps -> c <= t) ->
  trend_value t' o cps coefs - trend_value t o cps coefs = (t' - t) * fold_right Rplus 0 coefs.
Proof.
  intros Ht. revert coefs. unfold trend_value. induction cps as [|c cps IH]; intros [|b coefs] L H;
    simpl in L; try discriminate; unfold weighted in *; simpl in *; [lra|].
  assert (L' : length cps = length coefs) by lia.
  specialize (IH coefs L' (fun c' Hc' => H c' (or_intror Hc'))).
  pose proof (entry_diff_after t t' c (H c (or_introl eq_refl)) Ht). nra.
Qed.

Theorem slope_between t t' o cps coefs : t <= t' ->
  (forall c, In c cps -> c <= t \/ (1 <= c /\ t' < c)) ->
  trend_value t' o cps coefs - trend_value t o cps coefs = (t' - t) * active_sum t cps coefs.
Proof.
  intros Ht. revert coefs. unfold trend_value. induction cps as [|c cps IH]; intros [|b coefs] H;
    unfold weighted, active_sum in *; simpl in *; try lra.
  specialize (IH coefs (fun c' Hc' => H c' (or_intror Hc'))).
  destruct (H c (or_introl eq_refl)) as [Hc|[H1 H2]].
  - pose proof (entry_diff_after t t' c Hc Ht). destruct (Rle_dec c t); [nra|lra].
  - rewrite (entry_before t' c), (entry_before t c) by lra. destruct (Rle_dec c t); [lra|nra].
Qed.

(** ** prior location *)
Lemma concat_repeat_zero {A B} (f : A -> nat) (l : list (A * B)) x :
  In x (concat (map (fun nr => zeros_with_first_value (f (fst nr)) (snd nr)) l)) -> x = 0.
Proof.
  intros H. apply in_concat in H as (z & Hz & Hx). apply in_map_iff in Hz as (nr & <- & _).
  unfold zeros_with_first_value in Hx. now apply repeat_spec in Hx.
Qed.

Lemma res_bind_ok {A B} (m : res A) (k : A -> res B) b : (x <- m ;; k x) = Ok b -> exists a, m = Ok a /\ k a = Ok b.
Proof. destruct m; simpl; [eauto|discriminate]. Qed.

Lemma piecewise_fit_inv ns_of p y f : piecewise_fit ns_of p y = Ok f ->
  exists ts, fit_time (map (fun t => days_since_epoch (ns_of t)) (time_ids y)) = Ok (pf_t_scale f, pf_t_start f) /\
    ts = map (scale_time (pf_t_scale f) (pf_t_start f)) (map (fun t => days_since_epoch (ns_of t)) (time_ids y)) /\
    pf_n_series f = n_series_of y /\ pf_params f = p /\
    setup_changepoints (Rmax_list (hd 0 ts) (tl ts)) (pw_interval p) (pw_range p) (n_series_of y) = Ok (pf_cps f) /\
    suggest p y ts = Ok (pf_global_rates f, pf_offset_loc f) /\
    (pf_cp_loc f, pf_cp_scale f) = changepoint_prior_vectors (pf_cps f) (pw_prior_scale p) (pf_global_rates f) /\
    pf_series f = match f_levels y with 0%nat => None | _ => Some (series_ids y) end.
Proof.
  unfold piecewise_fit. intros H.
  apply res_bind_ok in H as ([s st] & E1 & H). apply res_bind_ok in H as (cps & E2 & H).
  apply res_bind_ok in H as ([rates offs] & E3 & H).
  destruct (changepoint_prior_vectors cps (pw_prior_scale p) rates) as [loc sc] eqn:E4.
  injection H as <-. eexists. cbn. repeat split; eauto.
Qed.

Theorem prior_loc_zero ns_of p y f : piecewise_fit ns_of p y = Ok f ->
  forall x, In x (pf_cp_loc f) -> x = 0.
Proof.
  intros H. apply piecewise_fit_inv in H as (ts & _ & _ & _ & _ & _ & _ & E & _).
  unfold changepoint_prior_vectors in E. injection E as -> _. intros x Hx.
  eapply (concat_repeat_zero (fun n => n)). exact Hx.
Qed.

(** ** linear suggestion *)
Theorem suggest_linear_first t0 t1 y0 y1 k m : suggest_linear t0 t1 y0 y1 = (k, m) -> m + k * t0 = y0.
Proof. unfold suggest_linear. intros [= <- <-]. ring. Qed.
Theorem suggest_linear_last t0 t1 y0 y1 k m : t0 <> t1 -> suggest_linear t0 t1 y0 y1 = (k, m) ->
  m + k * t1 = 2 * y0 - y1.
Proof. unfold suggest_linear. intros N [= <- <-]. field. lra. Qed.

(** ** logistic suggestion *)
Lemma xlog_ratio cap y : 0 < y < cap -> xlog (xsub (xdiv (XF cap) (XF y)) (XF 1)) = XF (ln (cap / y - 1)).
Proof.
  intros [H1 H2]. simpl. destruct (Reqb y 0) eqn:E; [apply Reqb_true in E; lra|]. simpl.
  assert (P : 0 < cap / y + - (1)).
  { assert (1 < cap / y); [|lra]. apply Rmult_lt_reg_r with y; [lra|]. unfold Rdiv.
    rewrite Rmult_assoc, Rinv_l by lra. lra. }
  destruct (Rltb 0 (cap / y + - (1))) eqn:E2; [reflexivity|apply Rltb_false in E2; lra].
Qed.

Definition L_of cap y := ln (cap / y - 1).
Lemma logistic_L cap y : 0 < y < cap -> logistic cap (- L_of cap y) = y.
Proof.
  intros [H1 H2]. unfold logistic, L_of. rewrite Ropp_involutive.
  assert (1 < cap / y). { apply Rmult_lt_reg_r with y; [lra|]. unfold Rdiv. rewrite Rmult_assoc, Rinv_l by lra. lra. }
  rewrite exp_ln by lra. field. lra.
Qed.
Lemma logistic_inj cap x x' : 0 < cap -> logistic cap x = logistic cap x' -> x = x'.
Proof.
  intros Hc H. unfold logistic in H. pose proof (exp_pos (- x)). pose proof (exp_pos (- x')).
  assert (E : 1 + exp (- x) = 1 + exp (- x')).
  { apply Rmult_eq_reg_l with (/ cap); [|apply Rinv_neq_0_compat; lra].
    apply (f_equal Rinv) in H. unfold Rdiv in H. rewrite !Rinv_mult in H. rewrite !Rinv_inv in H. exact H. }
  assert (- x = - x') by (apply exp_inv; lra). lra.
Qed.

Definition logistic_km (t0 t1 cap : R) (y : R * R) : R * R :=
  let k := (L_of cap (snd y) - L_of cap (fst y)) / (t0 - t1) in (k, - (L_of cap (snd y) + k * t1)).

Lemma no_zero_start ys : (forall y, In y ys -> fst y <> 0) -> existsb (fun y : R * R => Reqb (fst y) 0) ys = false.
Proof.
  intros H. apply not_true_is_false. intros E. apply existsb_exists in E as (y & Hy & E).
  apply Reqb_true in E. eapply H; eauto.
Qed.

Lemma suggest_logistic_inside t0 t1 ys cap : t0 < t1 ->
  (forall y, In y ys -> 0 < fst y < cap /\ 0 < snd y < cap) ->
  suggest_logistic t0 t1 ys cap =
  Ok (map (fun y => (XF (fst (logistic_km t0 t1 cap y)), XF (snd (logistic_km t0 t1 cap y)))) ys).
Proof.
  intros Ht H. unfold suggest_logistic. rewrite no_zero_start by (intros y Hy; destruct (H y Hy); lra).
  rewrite (map_ext_in _ (fun y => (XF (L_of cap (fst y)), XF (L_of cap (snd y)))) ys).
  2:{ intros y Hy. destruct (H y Hy). now rewrite !xlog_ratio by assumption. }
  destruct (existsb _ _) eqn:E.
  - exfalso. apply existsb_exists in E as (l & Hl & E). apply in_map_iff in Hl as (y & <- & _).
    simpl in E. discriminate.
  - rewrite map_map. f_equal. apply map_ext. intros y. unfold logistic_km. cbn [fst snd xsub xneg xadd xdiv].
    destruct (Reqb (t0 - t1) 0) eqn:E0; [apply Reqb_true in E0; lra|]. cbn [xmul xadd xneg]. reflexivity.
Qed.

Theorem suggest_logistic_interpolates t0 t1 ys cap : t0 < t1 ->
  (forall y, In y ys -> 0 < fst y < cap /\ 0 < snd y < cap) ->
  exists kms, suggest_logistic t0 t1 ys cap = Ok (map (fun km => (XF (fst km), XF (snd km))) kms) /\
    Forall2 (fun y km =>
      logistic cap (fst km * t0 + snd km) = fst y /\ logistic cap (fst km * t1 + snd km) = snd y /\
      forall k m, logistic cap (k * t0 + m) = fst y -> logistic cap (k * t1 + m) = snd y ->
        k = fst km /\ m = snd km) ys kms.
Proof.
  intros Ht H. exists (map (logistic_km t0 t1 cap) ys). split.
  - rewrite map_map. now apply suggest_logistic_inside.
  - induction ys as [|y ys IH]; [constructor|]. cbn [map]. constructor; [|apply IH; intros; apply H; simpl; auto].
    destruct (H y (or_introl eq_refl)) as [H0 H1]. assert (Hc : 0 < cap) by lra.
    assert (A0 : fst (logistic_km t0 t1 cap y) * t0 + snd (logistic_km t0 t1 cap y) = - L_of cap (fst y)).
    { unfold logistic_km. simpl. field. lra. }
    assert (A1 : fst (logistic_km t0 t1 cap y) * t1 + snd (logistic_km t0 t1 cap y) = - L_of cap (snd y)).
    { unfold logistic_km. simpl. ring. }
    rewrite A0, A1. split; [now apply logistic_L|]. split; [now apply logistic_L|].
    intros k m E0 E1. rewrite <- (logistic_L cap (fst y)) in E0 by assumption.
    rewrite <- (logistic_L cap (snd y)) in E1 by assumption.
    apply logistic_inj in E0, E1; try assumption. rewrite <- A0 in E0. rewrite <- A1 in E1.
    set (k' := fst (logistic_km t0 t1 cap y)) in *. set (m' := snd (logistic_km t0 t1 cap y)) in *.
    assert ((k - k') * (t1 - t0) = 0) by lra. apply Rmult_integral in H2 as [H2|H2]; [|lra].
    split; [lra|]. assert (k = k') by lra. subst k. lra.
Qed.

Theorem suggest_logistic_independent t0 t1 ys cap kms :
  (forall y, In y ys -> fst y <> 0) ->
  suggest_logistic t0 t1 ys cap = Ok kms ->
  Forall2 (fun y km => suggest_logistic t0 t1 [y] cap = Ok [km]) ys kms.
Proof.
  intros Hz H. unfold suggest_logistic in H. rewrite no_zero_start in H by assumption.
  destruct (existsb _ _) eqn:E in H; [discriminate|]. injection H as <-.
  induction ys as [|y ys IH]; [constructor|]. cbn [map existsb fst snd] in *. apply orb_false_iff in E as [E1 E2].
  constructor; [|apply IH; [intros; apply Hz; simpl; auto|exact E2]].
  unfold suggest_logistic. rewrite no_zero_start by (intros y' [<-|[]]; apply Hz; simpl; auto).
  cbn [map existsb fst snd]. rewrite orb_false_r. rewrite E1. reflexivity.
Qed.

(** ** suggestions for positive data *)
Lemma mapM_in {A B} (f : A -> res B) l bs : mapM f l = Ok bs -> forall b, In b bs -> exists a, In a l /\ f a = Ok b.
Proof.
  revert bs. induction l as [|x l IH]; simpl; intros bs H b Hb.
  - injection H as <-. contradiction.
  - apply res_bind_ok in H as (y & Ey & H). apply res_bind_ok in H as (ys & Eys & H). injection H as <-.
    destruct Hb as [<-|Hb]; [eauto|]. destruct (IH ys Eys b Hb) as (a & ? & ?). eauto.
Qed.

Lemma endpoints_inside m es v : endpoints m = Ok es ->
  (forall s x, In s m -> In x s -> 0 < x < v) ->
  forall e, In e es -> 0 < fst e < v /\ 0 < snd e < v.
Proof.
  intros E H e He. unfold endpoints in E. destruct (mapM_in _ _ _ E e He) as (s & Hs & Ee).
  destruct s as [|x s]; [discriminate|]. injection Ee as <-. simpl. split.
  - apply (H (x :: s)); simpl; auto.
  - apply (H (x :: s)); auto. change (match s with [] => x | _ :: _ => last s 0 end) with (last (x :: s) 0).
    clear. revert x. induction s as [|y s IH]; intros x; [simpl; auto|]. right. apply IH.
Qed.

Theorem suggest_positive_ok p y ts m es : hd 0 ts < last ts 0 ->
  pw_detrend p = false -> target_matrix y = Ok m -> endpoints m = Ok es ->
  (exists s, In s m) ->
  (forall s x, In s m -> In x s -> 0 < x) ->
  match pw_logistic p with
  | Some (Some c) => forall s x, In s m -> In x s -> x < c
  | _ => True end ->
  exists r, suggest p y ts = Ok r.
Proof.
  intros Ht Hd Em Ee Hne Hpos Hc. unfold suggest. rewrite Hd, Em. cbn [bind]. rewrite Ee. cbn [bind].
  destruct (pw_logistic p) as [[c|]|]; [| |eauto].
  - cbn [bind]. rewrite suggest_logistic_inside; [cbn [bind]; eauto|assumption|].
    apply (endpoints_inside m); [assumption|]. intros s x Hs Hx. split; [eauto|]. eauto.
  - destruct (concat m) as [|v vs] eqn:Ec.
    + exfalso. destruct Hne as (s & Hs). destruct s as [|x s].
      * unfold endpoints in Ee. clear -Ee Hs. revert es Ee. induction m as [|s m IH]; [contradiction|].
        intros es Ee. simpl in Ee. destruct Hs as [->|Hs]; [discriminate|].
        apply res_bind_ok in Ee as (? & _ & Ee). apply res_bind_ok in Ee as (? & Ee & _). eauto.
      * assert (In x (concat m)) by (apply in_concat; exists (x :: s); simpl; auto). rewrite Ec in H. contradiction.
    + cbn [bind]. rewrite suggest_logistic_inside; [cbn [bind]; eauto|assumption|].
      apply (endpoints_inside m); [assumption|]. intros s x Hs Hx. split; [eauto|].
      assert (0 < x) by eauto.
      assert (x <= Rmax_list v vs). { apply Rmax_list_ge. rewrite <- Ec. apply in_concat. eauto. }
      nra.
Qed.

(** ** logistic trend bounds *)
Theorem logistic_bounds cap x : 0 < cap -> 0 < logistic cap x < cap.
Proof.
  intros H. unfold logistic. pose proof (exp_pos (- x)). split.
  - apply Rdiv_lt_0_compat; lra.
  - apply Rmult_lt_reg_r with (1 + exp (- x)); [lra|]. unfold Rdiv. rewrite Rmult_assoc, Rinv_l by lra. nra.
Qed.
Theorem logistic_increasing cap x x' : 0 < cap -> x < x' -> logistic cap x < logistic cap x'.
Proof.
  intros H Hx. unfold logistic, Rdiv. apply Rmult_lt_compat_l; [assumption|].
  pose proof (exp_pos (- x)). pose proof (exp_pos (- x')).
  apply Rinv_lt_contravar; [nra|]. assert (exp (- x') < exp (- x)) by (apply exp_increasing; lra). lra.
Qed.

Theorem logistic_predict_bounds sq n m cap offs coefs a :
  (forall c, In c cap -> 0 < c) ->
  logistic_predict sq n m cap offs coefs = Ok a ->
  forall x, In x (a_flat a) -> exists c, In c cap /\ 0 < x < c.
Proof.
  intros Hc H x Hx. unfold logistic_predict in H. apply res_bind_ok in H as (tr & _ & H).
  assert (G : forall bs T (r : res arr),
    r = (bc <- broadcast2 bs cap ;; Ok (mkArr [length bc; T; 1%nat] (concat (map (fun x => map (logistic (snd x)) (fst x)) bc)))) ->
    r = Ok a -> exists c, In c cap /\ 0 < x < c).
  { clear H. intros bs T r -> Hr. apply res_bind_ok in Hr as (bc & Eb & Hr). injection Hr as <-.
    cbn [a_flat] in Hx. apply in_concat in Hx as (z & Hz & Hx). apply in_map_iff in Hz as ([b c] & <- & Hb).
    cbn [fst snd] in Hx. apply in_map_iff in Hx as (v & <- & _).
    assert (In c cap).
    { unfold broadcast2 in Eb. destruct (length bs =? length cap)%nat.
      - injection Eb as <-. eapply in_combine_r; eauto.
      - assert (HH : In (b, c) bc -> In c cap); [|auto]. clear Hb. intros Hb.
        destruct bs as [|b0 [|b1 bs]]; destruct cap as [|c0 [|c1 cap]]; try discriminate;
          injection Eb as <-; cbn [map In] in Hb |- *;
          repeat match goal with H : _ \/ _ |- _ => destruct H end;
          repeat match goal with H : (_, _) = (_, _) |- _ => injection H as <- <- end;
          try match goal with H : In _ (map _ _) |- _ => apply in_map_iff in H as (? & [= <- <-] & ?) end;
          tauto. }
    exists c. split; [assumption|]. apply logistic_bounds. auto. }
  destruct n as [|[|n]].
  - destruct (a_shape tr) as [|T [|w1 [|w2 [|? ?]]]]; try discriminate; exact (G _ _ _ eq_refl H).
  - destruct cap as [|c [|c' cap]].
    + destruct (a_shape tr) as [|T [|w1 [|w2 [|? ?]]]]; try discriminate; exact (G _ _ _ eq_refl H).
    + injection H as <-. simpl in Hx. apply in_map_iff in Hx as (v & <- & _). exists c. split; [simpl; auto|].
      apply logistic_bounds. apply Hc. simpl. auto.
    + destruct (a_shape tr) as [|T [|w1 [|w2 [|? ?]]]]; try discriminate; exact (G _ _ _ eq_refl H).
  - destruct (a_shape tr) as [|T [|w1 [|w2 [|? ?]]]]; try discriminate; exact (G _ _ _ eq_refl H).
Qed.

(** ** flat trend *)
Theorem flat_constant {V} (X : frame V) c : forall x, In x (a_flat (flat_predict (flat_transform X) c)) -> x = c.
Proof.
  intros x Hx. unfold flat_predict, flat_transform, arr_map in Hx. simpl in Hx.
  apply in_map_iff in Hx as (v & <- & Hv). apply repeat_spec in Hv. subst. ring.
Qed.
Theorem flat_prior_moments mean s c r : 0 < mean -> 0 < s -> flat_prior mean s = (c, r) ->
  0 < c /\ 0 < r /\ c / r = mean /\ c / (r * r) = s * s.
Proof.
  intros Hm Hs. unfold flat_prior. intros [= <- <-].
  assert (0 < mean / (s * s)) by (apply Rdiv_lt_0_compat; nra).
  repeat split; [nra|assumption| |]; field; lra.
Qed.
Theorem flat_prior_invalid mean s c r : mean <= 0 -> 0 < s -> flat_prior mean s = (c, r) -> r <= 0.
Proof.
  intros Hm Hs. unfold flat_prior. intros [= <- <-]. assert (0 < / (s * s)) by (apply Rinv_0_lt_compat; nra).
  unfold Rdiv. nra.
Qed.

(** ** documented meaning of changepoint_range *)
Theorem range_fraction t_max I r c : 0 < I -> 0 < r < 1 ->
  (In c (changepoint_times t_max I r) <-> exists k : nat, c = INR k * I /\ c < t_max * r).
Proof.
  intros HI Hr. rewrite <- (limit_fraction t_max r Hr). now apply changepoint_grid.
Qed.

Theorem range_first_points (n r : nat) c : (1 <= r <= n)%nat ->
  (In c (changepoint_times (INR (n - 1)) 1 (INR r)) <-> exists k : nat, (k < r)%nat /\ c = INR k).
Proof.
  intros [H1 H2]. rewrite (proj1 (changepoint_grid (INR (n - 1)) 1 (INR r) Rlt_0_1)).
  rewrite limit_count by (apply (le_INR 1); assumption).
  split; intros (k & A & B); exists k.
  - subst c. rewrite Rmult_1_r in *. split; [now apply INR_lt|reflexivity].
  - subst c. rewrite Rmult_1_r. split; [reflexivity|]. now apply lt_INR.
Qed.

Theorem range_negative (n r : nat) c : (r < n)%nat -> (1 <= r)%nat ->
  (In c (changepoint_times (INR (n - 1)) 1 (- INR r)) <-> exists k : nat, (k + r + 1 < n)%nat /\ c = INR k).
Proof.
  intros H1 H2. rewrite (proj1 (changepoint_grid (INR (n - 1)) 1 (- INR r) Rlt_0_1)).
  assert (P : 1 <= INR r) by (apply (le_INR 1); assumption).
  rewrite limit_negative by lra. rewrite minus_INR by lia. simpl (INR 1).
  split; intros (k & A & B); exists k.
  - subst c. rewrite Rmult_1_r in *. split; [|reflexivity]. apply INR_lt. rewrite !plus_INR. simpl (INR 1). lra.
  - subst c. rewrite Rmult_1_r. split; [reflexivity|]. apply lt_INR in A. rewrite !plus_INR in A. simpl (INR 1) in A. lra.
Qed.

Theorem range_negative_wrong : exists (n r k : nat), (k + r < n)%nat /\
  ~ In (INR k) (changepoint_times (INR (n - 1)) 1 (- INR r)).
Proof.
  exists 3%nat, 1%nat, 1%nat. split; [lia|]. intros H. apply range_negative in H as (k & A & B); try lia.
  apply INR_eq in B. lia.
Qed.

Theorem range_one t_max c : In c (changepoint_times t_max 1 1) <-> c = 0.
Proof.
  rewrite (proj1 (changepoint_grid t_max 1 1 Rlt_0_1)). rewrite limit_count by lra. split.
  - intros (k & -> & H). destruct k; [simpl; lra|]. exfalso. rewrite S_INR in H. pose proof (pos_INR k). lra.
  - intros ->. exists 0%nat. simpl. lra.
Qed.

Theorem range_after_end : exists t_max r c, 1 < r /\ t_max < c /\ In c (changepoint_times t_max 1 r).
Proof.
  exists 1, 3, 2. split; [lra|]. split; [lra|]. apply changepoint_grid; [lra|].
  rewrite limit_count by lra. exists 2%nat. simpl. lra.
Qed.

Theorem range_before_end t_max I r c : 0 < I -> 0 <= t_max -> r < 1 ->
  In c (changepoint_times t_max I r) -> c <= t_max.
Proof.
  intros HI Ht Hr H. apply changepoint_grid in H as (k & _ & H); [|assumption].
  destruct (Rlt_dec 0 r).
  - rewrite limit_fraction in H by lra. nra.
  - rewrite limit_negative in H by lra. lra.
Qed.

(** ** continuity *)
Lemma continuous_const c x : continuous_at (fun _ => c) x.
Proof. intros e He. exists 1. split; [lra|]. intros. rewrite Rminus_diag_eq, Rabs_R0 by reflexivity. lra. Qed.
Lemma continuous_plus f g x : continuous_at f x -> continuous_at g x -> continuous_at (fun t => f t + g t) x.
Proof.
  intros Hf Hg e He. destruct (Hf (e/2)) as (d1 & P1 & F); [lra|]. destruct (Hg (e/2)) as (d2 & P2 & G); [lra|].
  exists (Rmin d1 d2). split; [now apply Rmin_glb_lt|]. intros y Hy.
  pose proof (Rmin_l d1 d2). pose proof (Rmin_r d1 d2).
  specialize (F y ltac:(lra)). specialize (G y ltac:(lra)).
  replace (f y + g y - (f x + g x)) with ((f y - f x) + (g y - g x)) by ring.
  eapply Rle_lt_trans; [apply Rabs_triang|]. lra.
Qed.
Lemma continuous_scale f b x : continuous_at f x -> continuous_at (fun t => f t * b) x.
Proof.
  intros Hf e He. pose proof (Rabs_pos b). destruct (Hf (e / (Rabs b + 1))) as (d & P & F).
  { apply Rdiv_lt_0_compat; lra. }
  exists d. split; [assumption|]. intros y Hy. specialize (F y Hy).
  replace (f y * b - f x * b) with ((f y - f x) * b) by ring. rewrite Rabs_mult.
  assert (0 <= Rabs (f y - f x)) by apply Rabs_pos.
  apply Rle_lt_trans with (Rabs (f y - f x) * (Rabs b + 1)); [nra|].
  apply Rmult_lt_reg_r with (/ (Rabs b + 1)); [apply Rinv_0_lt_compat; lra|].
  rewrite Rmult_assoc, Rinv_r by lra. unfold Rdiv in F. lra.
Qed.
Lemma continuous_weighted (g : R -> R -> R) cps coefs x :
  (forall c, In c cps -> continuous_at (fun t => g t c) x) ->
  continuous_at (fun t => weighted (g t) cps coefs) x.
Proof.
  revert coefs. induction cps as [|c cps IH]; intros [|b coefs] H; try exact (continuous_const 0 x).
  unfold weighted. cbn [combine map fold_right fst snd].
  apply continuous_plus.
  - apply continuous_scale. apply H. simpl. auto.
  - apply (IH coefs). intros. apply H. simpl. auto.
Qed.
Lemma continuous_ext f g x : (forall y, f y = g y) -> continuous_at f x -> continuous_at g x.
Proof. intros E H e He. destruct (H e He) as (d & P & F). exists d. split; [assumption|]. intros y Hy. rewrite <- !E. auto. Qed.

Theorem trend_discontinuous c : 1 <= c -> ~ continuous_at (fun t => weighted (changepoint_entry t) [c] [1]) c.
Proof.
  intros Hc H. apply (entry_discontinuous c Hc). eapply continuous_ext; [|exact H].
  intros y. unfold weighted. simpl. ring.
Qed.

Theorem trend_continuous_elsewhere cps coefs o t :
  (forall c, In c cps -> 1 <= c /\ c <> t) ->
  continuous_at (fun t => o + weighted (changepoint_entry t) cps coefs) t.
Proof.
  intros H. apply continuous_plus; [apply continuous_const|]. apply continuous_weighted.
  intros c Hc. destruct (H c Hc). apply entry_continuous_elsewhere; [assumption|congruence].
Qed.

Lemma pos_part_continuous a x : continuous_at (fun t => pos_part (t - a)) x.
Proof.
  intros e He. exists e. split; [assumption|]. intros y Hy. apply Rabs_def2 in Hy. unfold pos_part.
  destruct (Rle_dec (y - a) 0), (Rle_dec (x - a) 0); apply Rabs_def1; lra.
Qed.

Lemma weighted_ext f g cps coefs : (forall c, In c cps -> f c = g c) -> weighted f cps coefs = weighted g cps coefs.
Proof. intros H. rewrite !weighted_dot. f_equal. now apply map_ext_in. Qed.

Theorem trend_grid_hinge cps coefs :
  (forall c, In c cps -> exists k : Z, (0 <= k)%Z /\ c = IZR k) ->
  (forall t : Z, (0 <= t)%Z ->
     weighted (changepoint_entry (IZR t)) cps coefs
     = weighted (fun c => pos_part (IZR t - (c - 1))) cps coefs) /\
  (forall x, continuous_at (fun x => weighted (fun c => pos_part (x - (c - 1))) cps coefs) x).
Proof.
  intros H. split.
  - intros t Ht. apply weighted_ext. intros c Hc. destruct (H c Hc) as (k & Hk & ->).
    rewrite entry_grid by assumption. f_equal. ring.
  - intros x. apply (continuous_weighted (fun x c => pos_part (x - (c - 1)))). intros c Hc. apply pos_part_continuous.
Qed.

(** ** more on fits *)
Theorem setup_changepoints_err t_max iv rg n e : setup_changepoints t_max iv rg n = Err e -> e = ValueError.
Proof.
  unfold setup_changepoints. generalize (combine (to_list_if_scalar iv n) (to_list_if_scalar rg n)).
  induction l as [|ir l IH]; simpl; [discriminate|].
  destruct (changepoint_times t_max (fst ir) (snd ir)); simpl; [congruence|].
  destruct (mapM _ l); simpl in *; [discriminate|]. auto.
Qed.

Theorem suggest_linear_wrong t0 t1 y0 y1 k m : t0 <> t1 -> y0 <> y1 ->
  suggest_linear t0 t1 y0 y1 = (k, m) -> m + k * t1 <> y1 /\ m + k * t1 = 2 * y0 - y1.
Proof. intros Ht Hy E. rewrite (suggest_linear_last t0 t1 y0 y1 k m Ht E). split; [lra|reflexivity]. Qed.

Theorem flat_constant_shape {V} (X : frame V) c :
  a_shape (flat_predict (flat_transform X) c) = [length (f_rows X); 1%nat] /\
  (forall x, In x (a_flat (flat_predict (flat_transform X) c)) -> x = c) /\
  length (a_flat (flat_predict (flat_transform X) c)) = length (f_rows X).
Proof.
  split; [reflexivity|]. split; [apply flat_constant|]. simpl. now rewrite map_length, repeat_length.
Qed.

Theorem logistic_predict_single sq m c offs coefs tr :
  piecewise_predict sq 1 m offs coefs = Ok tr ->
  logistic_predict sq 1 m [c] offs coefs = Ok (mkArr (a_shape tr) (map (fun x => c / (1 + exp (- x))) (a_flat tr))).
Proof. intros H. unfold logistic_predict. rewrite H. reflexivity. Qed.

Lemma firstn_skipn_nth {A} (l : list A) k T j d : (j < T)%nat -> nth j (firstn T (skipn k l)) d = nth (k + j) l d.
Proof.
  intros Hj. revert l. induction k as [|k IH]; intros l.
  - simpl. revert T l Hj. induction j as [|j IHj]; intros [|T] [|x l] H; try lia; simpl; try reflexivity.
    apply IHj. lia.
  - destruct l; [|apply IH]. rewrite skipn_nil, firstn_nil. simpl. now destruct j.
Qed.

Theorem logistic_predict_multi sq n cps blocks offs caps ts :
  Forall2 (fun cp b => length cp = length b) cps blocks -> length offs = length cps ->
  length caps = length cps -> n = length cps -> (2 <= n)%nat -> ts <> [] ->
  exists a, logistic_predict sq n (get_changepoint_matrix sq cps ts) caps offs (concat blocks) = Ok a /\
    a_shape a = [n; length ts; 1%nat] /\
    forall i j, (i < n)%nat -> (j < length ts)%nat ->
      aget a [i; j; 0%nat] = nth i caps 0 /
        (1 + exp (- (nth i offs 0 + weighted (changepoint_entry (nth j ts 0)) (nth i cps []) (nth i blocks [])))).
Proof.
  intros HS Lo Lc Hn H2 Hts.
  destruct (piecewise_predict_multi sq n cps blocks offs ts HS Lo Hn) as (tr & E & W & Sh & V); [right; lia|].
  assert (Hc : cps <> []) by (destruct cps; simpl in *; [lia|congruence]). specialize (Sh Hts Hc).
  unfold logistic_predict. rewrite E. cbn [bind].
  destruct n as [|[|n']]; [lia|lia|]. rewrite Sh. cbv beta iota.
  set (N := length cps) in *. set (T := length ts) in *.
  assert (Lch : length (chunks T N (a_flat tr)) = N) by (unfold chunks; now rewrite map_length, seq_length).
  assert (Lchc : length (chunks T N (a_flat tr)) = length caps) by lia.
  rewrite (broadcast2_same (chunks T N (a_flat tr)) caps Lchc). cbn [bind].
  eexists. split; [reflexivity|]. cbn [a_shape].
  assert (Lcb : length (combine (chunks T N (a_flat tr)) caps) = S (S n')) by (rewrite combine_length; lia).
  rewrite Lcb. split; [reflexivity|].
  intros i j Hi Hj. unfold aget, ravel. cbn [a_shape a_flat]. unfold prod_shape. simpl fold_right.
  replace (i * (T * 1) + (j * 1 + 0))%nat with (i * T + j)%nat by lia.
  assert (Lfl : length (a_flat tr) = (N * T)%nat).
  { unfold arr_wf in W. rewrite W, Sh. unfold prod_shape. simpl. lia. }
  rewrite nth_concat_uniform.
  - rewrite (nth_indep _ [] ((fun x : list R * R => map (logistic (snd x)) (fst x)) ([], 0))) by (rewrite map_length; lia).
    rewrite (map_nth (fun x : list R * R => map (logistic (snd x)) (fst x))).
    rewrite combine_nth by assumption. cbn [fst snd].
    assert (Lb : length (nth i (chunks T N (a_flat tr)) []) = T).
    { unfold chunks. rewrite (nth_indep _ [] ((fun i0 => firstn T (skipn (i0 * T) (a_flat tr))) 0%nat)) by (rewrite map_length, seq_length; lia).
      rewrite (map_nth (fun i0 => firstn T (skipn (i0 * T) (a_flat tr)))), seq_nth by lia.
      rewrite firstn_length, skipn_length. simpl. nia. }
    rewrite (nth_indep _ 0 (logistic (nth i caps 0) 0)) by (rewrite map_length; lia).
    rewrite map_nth. unfold logistic. do 5 f_equal.
    unfold chunks. rewrite (nth_indep _ [] ((fun i0 => firstn T (skipn (i0 * T) (a_flat tr))) 0%nat)) by (rewrite map_length, seq_length; lia).
    rewrite (map_nth (fun i0 => firstn T (skipn (i0 * T) (a_flat tr)))), seq_nth by lia. simpl plus.
    rewrite firstn_skipn_nth by lia.
    specialize (V i j ltac:(lia) Hj). unfold trend_value in V. rewrite <- V. unfold aget, ravel. rewrite Sh. unfold prod_shape. simpl fold_right.
    f_equal. lia.
  - intros l Hl. apply in_map_iff in Hl as ([b c] & <- & Hb). cbn [fst snd]. rewrite map_length.
    apply in_combine_l in Hb. unfold chunks in Hb. apply in_map_iff in Hb as (i0 & <- & Hi0). apply in_seq in Hi0.
    rewrite firstn_length, skipn_length. nia.
  - rewrite map_length. lia.
  - lia.
Qed.
