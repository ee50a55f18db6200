(** Longer histories at the same distances keep the changepoints (C94). *)
From Coq Require Import Reals String Bool ZArith List Lia Lra Arith.
From Verif.Model Require Import Base Num XFloat Arr Frame Trend.
From Verif.Spec Require Import TrendSpec GrowSpec.
From Verif.Facts Require Import BaseFacts NumFacts TimeFacts TrendFacts TrendExamples.
Import ListNotations.
Local Open Scope R_scope.

Lemma regular_length a d n : length (regular a d n) = n.
Proof. unfold regular. now rewrite map_length, seq_length. Qed.

(** the time axis of a regular history *)
Lemma regular_axis a d n s st : 0 < d -> fit_time (regular a d n) = Ok (s, st) -> (2 <= n)%nat /\ s = d /\ st = a / d.
Proof.
  intros D E. destruct (le_lt_dec 2 n) as [N|N].
  - split; [exact N|]. destruct (fit_time_regular a d n D N) as (s' & st' & E' & H). change (map _ (seq 0 n)) with (regular a d n) in E'.
    rewrite E in E'. injection E' as <- <-. pose proof (H 0%Z) as H0. pose proof (H 1%Z) as H1. unfold scale_time in H0, H1.
    assert (S : d / s = 1). { replace (a + 1 * d) with (a + 0 * d + d) in H1 by ring. unfold Rdiv in *. rewrite Rmult_plus_distr_r in H1. lra. }
    assert (P : s <> 0). { intros ->. unfold Rdiv in S. rewrite Rinv_0 in S. lra. }
    assert (S' : s = d). { apply (Rmult_eq_compat_r s) in S. unfold Rdiv in S. rewrite Rmult_assoc, Rinv_l in S by exact P. lra. }
    split; [exact S'|]. rewrite S' in H0. replace (a + 0 * d) with a in H0 by ring. lra.
  - rewrite fit_time_short in E by (rewrite regular_length; exact N). discriminate E.
Qed.

Lemma regular_scaled a d n : 0 < d -> map (scale_time d (a / d)) (regular a d n) = map INR (seq 0 n).
Proof.
  intros D. unfold regular. rewrite map_map. apply map_ext. intros k. unfold scale_time. field. lra.
Qed.
Lemma regular_max n : (2 <= n)%nat -> Rmax_list (hd 0 (map INR (seq 0 n))) (tl (map INR (seq 0 n))) = INR (n - 1).
Proof.
  intros N. destruct n as [|n]; [lia|]. cbn [seq map hd tl]. change (INR 0 :: map INR (seq 1 n)) with (map INR (seq 0 (S n))).
  rewrite increasing_max.
  - change (INR 0 :: map INR (seq 1 n)) with (map INR (seq 0 (S n))). rewrite (last_map INR _ 0%nat) by discriminate.
    rewrite seq_S, last_last. f_equal. lia.
  - change (INR 0 :: map INR (seq 1 n)) with (map INR (seq 0 (S n))). apply seq_map_sorted. intros i j H. now apply lt_INR.
Qed.

Lemma limit_grows m m' r : m <= m' -> changepoint_limit m r <= changepoint_limit m' r.
Proof.
  intros H. unfold changepoint_limit. destruct (Rltb r 1 && Rltb 0 r) eqn:E.
  - apply andb_true_iff in E as [_ P]. apply Rltb_true in P. apply Rmult_le_compat_r; lra.
  - destruct (Rleb 1 r); lra.
Qed.
Lemma arange0_prefix s s' i : 0 < i -> s <= s' -> prefix (arange0 s i) (arange0 s' i).
Proof.
  intros I H. unfold arange0. assert (L : (Rceil (s / i) <= Rceil (s' / i))%Z).
  { destruct (Z_le_gt_dec (Rceil (s / i)) (Rceil (s' / i))) as [G|G]; [exact G|]. exfalso.
    assert (G' : (Rceil (s' / i) < Rceil (s / i))%Z) by lia. apply Rceil_lt in G'. pose proof (proj2 (Rceil_spec (s' / i))).
    assert (s / i <= s' / i) by (apply Rmult_le_compat_r; [left; now apply Rinv_0_lt_compat|exact H]). lra. }
  exists (map (fun k => INR k * i) (seq (Z.to_nat (Rceil (s / i))) (Z.to_nat (Rceil (s' / i)) - Z.to_nat (Rceil (s / i))))).
  rewrite <- map_app. f_equal. rewrite <- (Nat.add_0_l (Z.to_nat (Rceil (s / i)))) at 2. rewrite <- seq_app. f_equal. lia.
Qed.

Lemma setup_prefix m m' iv rg n cps cps' : (forall i, In i (to_list_if_scalar iv n) -> 0 < i) -> m <= m' ->
  setup_changepoints m iv rg n = Ok cps -> setup_changepoints m' iv rg n = Ok cps' -> Forall2 prefix cps cps'.
Proof.
  intros P H E E'. destruct (setup_changepoints_spec m iv rg n P) as [(c & Ec & F)|[Ec _]]; [|congruence].
  destruct (setup_changepoints_spec m' iv rg n P) as [(c' & Ec' & F')|[Ec' _]]; [|congruence].
  rewrite E in Ec. injection Ec as <-. rewrite E' in Ec'. injection Ec' as <-.
  assert (Q : forall ir, In ir (combine (to_list_if_scalar iv n) (to_list_if_scalar rg n)) -> 0 < fst ir).
  { intros [i r] I. apply in_combine_l in I. exact (P i I). }
  clear E E' P. revert cps' F' Q. induction F as [|ir cp l cps (_ & _ & C) F IH]; intros cps' F' Q; inversion F' as [|? cp' ? cps2 (_ & _ & C') F2]; subst; constructor.
  - apply arange0_prefix; [apply Q; now left|]. now apply limit_grows.
  - apply IH; [exact F2|]. intros ir' I. apply Q. now right.
Qed.

Definition days_of (ns_of : Z -> Z) (y : frame R) : list R := map (fun t => days_since_epoch (ns_of t)) (time_ids y).
Definition changepoint_days (f : piecewise_fitted) : list (list R) := map (map (calendar_day (pf_t_scale f) (pf_t_start f))) (pf_cps f).

Section Grow.
Variables (ns_of : Z -> Z) (p : piecewise_params) (y y' : frame R) (f f' : piecewise_fitted) (a d : R) (n n' : nat).
Hypothesis D : 0 < d.
Hypothesis N : (n <= n')%nat.
Hypothesis DY : days_of ns_of y = regular a d n.
Hypothesis DY' : days_of ns_of y' = regular a d n'.
Hypothesis S : n_series_of y = n_series_of y'.
Hypothesis I : forall i, In i (to_list_if_scalar (pw_interval p) (n_series_of y)) -> 0 < i.
Hypothesis E : piecewise_fit ns_of p y = Ok f.
Hypothesis E' : piecewise_fit ns_of p y' = Ok f'.

Lemma grow_axis : pf_t_scale f = d /\ pf_t_start f = a / d /\ pf_t_scale f' = d /\ pf_t_start f' = a / d /\ Forall2 prefix (pf_cps f) (pf_cps f').
Proof.
  apply piecewise_fit_inv in E as (ts & T & Et & Sn & Pp & C & _). apply piecewise_fit_inv in E' as (ts' & T' & Et' & Sn' & Pp' & C' & _).
  change (map (fun t => days_since_epoch (ns_of t)) (time_ids y)) with (days_of ns_of y) in T, Et. rewrite DY in T, Et.
  change (map (fun t => days_since_epoch (ns_of t)) (time_ids y')) with (days_of ns_of y') in T', Et'. rewrite DY' in T', Et'.
  destruct (regular_axis a d n _ _ D T) as (N2 & A & B). destruct (regular_axis a d n' _ _ D T') as (N2' & A' & B').
  split; [exact A|]. split; [exact B|]. split; [exact A'|]. split; [exact B'|].
  rewrite A, B in Et. rewrite A', B' in Et'. rewrite regular_scaled in Et, Et' by exact D. subst ts ts'. rewrite regular_max in C by exact N2. rewrite regular_max in C' by exact N2'.
  rewrite <- S in C'. apply (setup_prefix (INR (n - 1)) (INR (n' - 1)) (pw_interval p) (pw_range p) (n_series_of y)); [exact I| |exact C|exact C'].
  apply le_INR. lia.
Qed.

Lemma c94_regular : Forall2 prefix (changepoint_days f) (changepoint_days f').
Proof.
  destruct grow_axis as (A & B & A' & B' & F). unfold changepoint_days. rewrite A, B, A', B'. clear -F.
  induction F as [|c c' l l' [m ->] F IH]; cbn [map]; constructor; [|exact IH].
  exists (map (calendar_day d (a / d)) m). now rewrite map_app.
Qed.

(** what the longer history can express contains what the shorter one can *)
End Grow.

Definition row_values (coefs : list R) (series : list (list (list R))) : list (list R) := map (map (fun r => dot r coefs)) series.

Lemma broadcast2_map {A B C} (h : A -> C) (l : list A) (o : list B) :
  broadcast2 (map h l) o = bind (broadcast2 l o) (fun so => Ok (map (fun s => (h (fst s), snd s)) so)).
Proof.
  unfold broadcast2. rewrite map_length. destruct (length l =? length o)%nat eqn:E.
  - cbn [bind]. f_equal. clear E. revert o. induction l as [|x l IH]; intros [|z o]; cbn [map combine]; try reflexivity. now rewrite IH.
  - destruct l as [|x [|x' l]]; destruct o as [|z [|z' o]]; cbn [map bind fst snd]; try reflexivity;
      try (now rewrite map_map); f_equal; f_equal; try (f_equal; now rewrite map_map); now rewrite ?map_map.
Qed.

Definition D3_values (n : nat) (sq : bool) (ts : list R) (vals : list (list R)) (offset : list R) : res arr :=
  so <- broadcast2 vals offset ;;
  let out := concat (map (fun s => map (fun x => x + snd s) (fst s)) so) in
  let T := match vals with [] => 0%nat | s :: _ => length s end in
  if (n =? 1)%nat && sq then Ok (mkArr [length out; 1%nat] out) else Ok (mkArr [length so; T; 1%nat] out).

Lemma predict_D3 sq n series offset coefs ts : forallb (forallb (fun r => length r =? length coefs)%nat) series = true ->
  piecewise_predict sq n (D3 series) offset coefs = D3_values n sq ts (row_values coefs series) offset.
Proof.
  intros H. unfold piecewise_predict, D3_values, row_values. rewrite H, broadcast2_map. destruct (broadcast2 series offset) as [so|e]; [|reflexivity].
  cbn [bind]. assert (V : concat (map (fun s => map (fun r => dot r coefs + snd s) (fst s)) so)
    = concat (map (fun s => map (fun x => x + snd s) (fst s)) (map (fun s => (map (fun r => dot r coefs) (fst s), snd s)) so))).
  { rewrite map_map. f_equal. apply map_ext. intros s. cbn [fst snd]. now rewrite map_map. }
  rewrite <- V, map_length. destruct series; cbn [map]; [reflexivity|]. now rewrite map_length.
Qed.

Lemma matrix_widths cps blocks ts : same_lengths cps blocks ->
  forallb (forallb (fun r => length r =? length (concat blocks))%nat) (multi_changepoint_matrix cps ts) = true.
Proof.
  intros H. rewrite multi_matrix_rows. apply forallb_forall. intros m Im. apply in_map_iff in Im as (i & <- & _).
  apply forallb_forall. intros r Ir. apply in_map_iff in Ir as (t & <- & _). apply Nat.eqb_eq. rewrite masked_row_length. now apply same_lengths_concat.
Qed.

Lemma predict_by_values sq n cps cps' blocks blocks' ts offs : same_lengths cps blocks -> same_lengths cps' blocks' -> length cps = length cps' ->
  (forall i t, (i < length cps)%nat -> weighted (changepoint_entry t) (nth i cps []) (nth i blocks []) = weighted (changepoint_entry t) (nth i cps' []) (nth i blocks' [])) ->
  piecewise_predict sq n (get_changepoint_matrix sq cps ts) offs (concat blocks) = piecewise_predict sq n (get_changepoint_matrix sq cps' ts) offs (concat blocks').
Proof.
  intros L L' N W. pose proof (matrix_widths _ _ ts L) as F. pose proof (matrix_widths _ _ ts L') as F'.
  assert (V : row_values (concat blocks) (multi_changepoint_matrix cps ts) = row_values (concat blocks') (multi_changepoint_matrix cps' ts)).
  { rewrite !multi_matrix_rows. unfold row_values. rewrite !map_map, <- N. apply map_ext_in. intros i Hi. apply in_seq in Hi. rewrite !map_map. apply map_ext. intros t.
    rewrite (masked_row_dot cps blocks i t L) by lia. rewrite (masked_row_dot cps' blocks' i t L') by lia. apply W. lia. }
  unfold get_changepoint_matrix. assert (M : length (multi_changepoint_matrix cps ts) = length (multi_changepoint_matrix cps' ts)).
  { rewrite !multi_matrix_rows, !map_length, !seq_length. exact N. }
  revert F F' V M. generalize (multi_changepoint_matrix cps ts) (multi_changepoint_matrix cps' ts). intros m m' F F' V M.
  destruct m as [|x [|x2 m]]; destruct m' as [|x' [|x2' m']]; try discriminate M.
  - rewrite !(predict_D3 _ _ _ _ _ ts) by assumption. now rewrite V.
  - destruct sq.
    + unfold piecewise_predict. cbn [forallb] in F, F'. rewrite andb_true_r in F, F'. rewrite F, F'. cbn [row_values map] in V. injection V as V. now rewrite V.
    + rewrite !(predict_D3 _ _ _ _ _ ts) by assumption. now rewrite V.
  - rewrite !(predict_D3 _ _ _ _ _ ts) by assumption. now rewrite V.
Qed.

Lemma weighted_padded g c b m : length c = length b -> weighted g (c ++ m) (b ++ repeat 0 (length m)) = weighted g c b.
Proof.
  intros L. rewrite !weighted_dot. revert b L. induction c as [|x c IH]; intros [|z b] L; try discriminate L; cbn [app map dot].
  - induction m as [|k m IHm]; cbn [map length repeat dot]; [reflexivity|]. cbn [app map dot] in IHm. rewrite IHm. cbn. ring.
  - injection L as L. now rewrite (IH b L).
Qed.

Lemma pad_blocks cps cps' blocks : Forall2 prefix cps cps' -> same_lengths cps blocks ->
  exists blocks', Forall2 padded blocks blocks' /\ same_lengths cps' blocks' /\
    forall g i, (i < length cps)%nat -> weighted g (nth i cps []) (nth i blocks []) = weighted g (nth i cps' []) (nth i blocks' []).
Proof.
  intros F. revert blocks. induction F as [|c c' l l' [m ->] F IH]; intros blocks H; inversion H as [|? b ? bs Hb Hbs]; subst.
  - exists []. split; [constructor|]. split; [constructor|]. intros g i Hi. cbn in Hi. lia.
  - destruct (IH bs Hbs) as (bs' & P & L & W). exists ((b ++ repeat 0 (length m)) :: bs'). split; [|split].
    + constructor; [now exists (length m)|exact P].
    + constructor; [rewrite !app_length, repeat_length; lia|exact L].
    + intros g [|i] Hi; cbn [nth]; [symmetry; now apply weighted_padded|]. apply W. cbn in Hi. lia.
Qed.

Section Nest.
Variables (ns_of : Z -> Z) (p : piecewise_params) (y y' : frame R) (f f' : piecewise_fitted) (a d : R) (n n' : nat).
Hypothesis D : 0 < d.
Hypothesis N : (n <= n')%nat.
Hypothesis DY : days_of ns_of y = regular a d n.
Hypothesis DY' : days_of ns_of y' = regular a d n'.
Hypothesis S : n_series_of y = n_series_of y'.
Hypothesis LV : f_levels y = f_levels y'.
Hypothesis I : forall i, In i (to_list_if_scalar (pw_interval p) (n_series_of y)) -> 0 < i.
Hypothesis E : piecewise_fit ns_of p y = Ok f.
Hypothesis E' : piecewise_fit ns_of p y' = Ok f'.

Lemma c94_nested blocks : same_lengths (pf_cps f) blocks -> exists blocks', Forall2 padded blocks blocks' /\ same_lengths (pf_cps f') blocks' /\
  forall fh offset, piecewise_predict (pw_squeeze p) (pf_n_series f') (piecewise_transform ns_of f' fh) offset (concat blocks')
    = piecewise_predict (pw_squeeze p) (pf_n_series f) (piecewise_transform ns_of f fh) offset (concat blocks).
Proof.
  intros L. destruct (grow_axis ns_of p y y' f f' a d n n' D N DY DY' S I E E') as (A & B & A' & B' & F).
  destruct (pad_blocks _ _ _ F L) as (blocks' & P & L' & W). exists blocks'. split; [exact P|]. split; [exact L'|]. intros fh offset.
  pose proof (piecewise_fit_inv _ _ _ _ E) as (_ & _ & _ & Sn & Pp & _ & _ & _ & Se). pose proof (piecewise_fit_inv _ _ _ _ E') as (_ & _ & _ & Sn' & Pp' & _ & _ & _ & Se').
  unfold piecewise_transform. rewrite Sn, Sn', S, Pp, Pp', A, B, A', B'.
  assert (T : (match pf_series f with None => fh | Some _ => times_unique fh end) = (match pf_series f' with None => fh | Some _ => times_unique fh end)).
  { rewrite Se, Se', LV. destruct (f_levels y'); reflexivity. }
  rewrite T. symmetry. apply predict_by_values; [exact L|exact L'| |].
  - exact (Forall2_len _ _ _ F).
  - intros i t Hi. now apply W.
Qed.
End Nest.
