(** Facts about frames: bottom series, tensors, re-indexing, aggregation. *)
From Coq Require Import Reals Lra String Bool ZArith Lia List Permutation.
From Verif.Model Require Import Base Num Frame Aggregate.
From Verif.Spec Require Import FrameSpec.
From Verif.Facts Require Import BaseFacts OrderFacts NumFacts.
Import ListNotations.

Lemma nth_map_seq {B} (g : nat -> B) n j d : j < n -> nth j (map g (seq 0 n)) d = g j.
Proof.
  intros H. rewrite (nth_indep _ d (g 0)) by (now rewrite map_length, seq_length).
  rewrite map_nth, seq_nth by assumption. reflexivity.
Qed.

(** ** first appearance *)
Section FA.
Context {A : Type} (eqb : A -> A -> bool).
Hypothesis eqb_eq : forall a b, eqb a b = true <-> a = b.

Lemma unique_aux_app seen l1 l2 :
  exists seen', (forall x, In x seen' <-> In x seen \/ In x l1) /\
  unique_aux eqb seen (l1 ++ l2) = unique_aux eqb seen l1 ++ unique_aux eqb seen' l2.
Proof.
  revert seen. induction l1 as [|x l1 IH]; intros seen; simpl.
  - exists seen. split; [tauto|reflexivity].
  - destruct (existsb (eqb x) seen) eqn:E.
    + apply existsb_eqb in E; [|assumption]. destruct (IH seen) as (s' & H1 & H2). exists s'. split; [|exact H2].
      intros y. rewrite H1. split; [tauto|]. intros [?|[->|?]]; auto.
    + destruct (IH (x :: seen)) as (s' & H1 & H2). exists s'. split.
      * intros y. rewrite H1. simpl. tauto.
      * simpl. now rewrite H2.
Qed.

Lemma unique_first_appearance l : first_appearance l (unique eqb l).
Proof.
  split; [now apply unique_NoDup|]. split; [intros; symmetry; now apply unique_In|].
  intros pre x suf -> Hx. unfold unique.
  destruct (unique_aux_app [] pre (x :: suf)) as (s' & H1 & H2). rewrite H2. simpl.
  destruct (existsb (eqb x) s') eqn:E.
  - apply existsb_eqb in E; [|assumption]. apply H1 in E. simpl in E. tauto.
  - exists (unique_aux eqb [] pre), (unique_aux eqb (x :: s') suf). split; [reflexivity|].
    intros y. change (unique_aux eqb [] pre) with (unique eqb pre). now apply unique_In.
Qed.
End FA.

Lemma series_ids_first {V} (f : frame V) : first_appearance (map r_path (f_rows f)) (series_ids f).
Proof. apply unique_first_appearance, path_eqb_eq. Qed.

Lemma series_ids_In {V} (f : frame V) p : In p (series_ids f) <-> exists r, In r (f_rows f) /\ r_path r = p.
Proof.
  unfold series_ids. rewrite paths_unique_In, in_map_iff. split; intros (r & H1 & H2); eauto.
Qed.

(** ** bottom series *)
Lemma filter_nil_none {A} (p : A -> bool) l : filter p l = [] -> forall x, In x l -> p x = false.
Proof.
  intros H x Hx. destruct (p x) eqn:E; [|reflexivity].
  assert (In x (filter p l)) by (apply filter_In; auto). rewrite H in H0. contradiction.
Qed.

Definition bottom_label (n : nat) (p : path) : bool :=
  match n with
  | 1 => negb (path_eqb p [total_name])
  | _ => negb (String.eqb (last p ""%string) total_name)
  end.

Lemma bottom_label_last n p : length p = n -> n <> 0 ->
  bottom_label n p = negb (String.eqb (last p ""%string) total_name).
Proof.
  intros L N. unfold bottom_label. destruct n as [|[|n]]; try reflexivity.
  destruct p as [|x [|y p]]; try discriminate. simpl. now rewrite andb_true_r.
Qed.

Lemma loc_bottom_spec {V} (f : frame V) : frame_wf f -> f_levels f <> 0 ->
  loc_bottom_series f =
  let g := filter_rows (fun r => negb (String.eqb (last (r_path r) ""%string) total_name)) f in
  match f_rows g with [] => Err IndexError | _ => Ok g end.
Proof.
  intros W N. unfold loc_bottom_series.
  assert (E : get_bottom_series_idx f = Ok (filter (bottom_label (f_levels f)) (series_ids f))).
  { unfold get_bottom_series_idx. destruct (f_levels f) as [|[|n]] eqn:El; [congruence| |]; reflexivity. }
  destruct (f_levels f) as [|n] eqn:El; [congruence|]. rewrite E. cbn [bind]. clear E.
  set (P := fun r : row V => negb (String.eqb (last (r_path r) ""%string) total_name)).
  assert (HB : forall r, In r (f_rows f) -> bottom_label (S n) (r_path r) = P r).
  { intros r Hr. apply bottom_label_last; [|congruence]. destruct (W r Hr). congruence. }
  assert (HI : forall r, In r (f_rows f) ->
             path_in (firstn (S n) (r_path r)) (filter (bottom_label (S n)) (series_ids f)) = P r).
  { intros r Hr. destruct (W r Hr) as [_ L]. rewrite firstn_all2 by lia.
    destruct (P r) eqn:EP.
    - apply path_in_iff, filter_In. split; [apply series_ids_In; eauto|]. rewrite HB; assumption.
    - destruct (path_in _ _) eqn:X; [|reflexivity]. apply path_in_iff, filter_In in X.
      destruct X as [_ X]. rewrite HB in X by assumption. congruence. }
  unfold get_multiindex_loc.
  destruct (filter (bottom_label (S n)) (series_ids f)) as [|p0 ps] eqn:EF.
  - assert (Z0 : filter P (f_rows f) = []).
    { destruct (filter P (f_rows f)) as [|r l] eqn:X; [reflexivity|]. exfalso.
      assert (Hr : In r (filter P (f_rows f))) by (rewrite X; simpl; auto).
      apply filter_In in Hr. destruct Hr as [Hr HP]. rewrite <- HI in HP by assumption. discriminate. }
    simpl. rewrite Z0. reflexivity.
  - assert (Hp0 : In p0 (series_ids f)) by (apply (filter_In (bottom_label (S n))); rewrite EF; simpl; auto).
    assert (L0 : length p0 = S n).
    { apply series_ids_In in Hp0. destruct Hp0 as (r & Hr & <-). destruct (W r Hr). congruence. }
    rewrite L0.
    assert (EQ : filter (fun r : row V => path_in (firstn (S n) (r_path r)) (p0 :: ps)) (f_rows f)
                 = filter P (f_rows f)).
    { apply filter_ext_in. intros r Hr. now apply HI. }
    unfold filter_rows. rewrite EQ. simpl.
    destruct (filter P (f_rows f)) as [|r l] eqn:X; [|reflexivity]. exfalso.
    assert (In p0 (filter (bottom_label (S n)) (series_ids f))) by (rewrite EF; simpl; auto).
    apply filter_In in H. destruct H as [H1 H2]. apply series_ids_In in H1.
    destruct H1 as (r & Hr & <-). rewrite HB in H2 by assumption.
    apply (filter_nil_none P _ X) in Hr. congruence.
Qed.

Lemma filter_filter {A} (p q : A -> bool) l : filter p (filter q l) = filter (fun x => q x && p x) l.
Proof.
  induction l as [|x l IH]; simpl; [reflexivity|]. destruct (q x); simpl; [|assumption].
  destruct (p x); now rewrite IH.
Qed.

Lemma filter_rows_wf {V} (p : row V -> bool) f : frame_wf f -> frame_wf (filter_rows p f).
Proof. intros W r Hr. simpl in Hr. apply filter_In in Hr. apply W, Hr. Qed.

Lemma loc_bottom_idem {V} (f g : frame V) : frame_wf f ->
  loc_bottom_series f = Ok g -> loc_bottom_series g = Ok g.
Proof.
  intros W. destruct (f_levels f) eqn:El.
  - unfold loc_bottom_series. rewrite El. intros [= <-]. now rewrite El.
  - rewrite loc_bottom_spec by (assumption || congruence). cbn zeta.
    set (P := fun r : row V => negb (String.eqb (last (r_path r) ""%string) total_name)).
    destruct (f_rows (filter_rows P f)) as [|r l] eqn:E; [discriminate|]. intros [= <-].
    rewrite loc_bottom_spec; [|now apply filter_rows_wf|simpl; congruence]. cbn zeta. fold P.
    assert (X : filter_rows P (filter_rows P f) = filter_rows P f).
    { unfold filter_rows. simpl. f_equal. rewrite filter_filter.
      apply filter_ext. intros a. now destruct (P a). }
    rewrite X, E. reflexivity.
Qed.

(** ** aggregation *)
Lemma is_bottom_no_total p : is_bottom p = no_total p.
Proof.
  unfold is_bottom, no_total, str_in, total_name. induction p as [|x p IH]; simpl; [reflexivity|].
  rewrite IH, negb_orb. f_equal. f_equal. apply String.eqb_sym.
Qed.

Lemma no_total_cons x p : no_total (x :: p) = (negb (String.eqb x total_name) && no_total p)%bool.
Proof.
  unfold no_total, str_in. cbn [existsb]. rewrite negb_orb. now rewrite String.eqb_sym.
Qed.

Lemma under_iff q p : under q p = true <-> node_of q p.
Proof.
  unfold under, node_of. rewrite existsb_exists. split.
  - intros (k & Hk & E). apply path_eqb_eq in E. apply in_seq in Hk. exists k. split; [lia|exact E].
  - intros (k & Hk & E). exists k. split; [apply in_seq; lia|now apply path_eqb_eq].
Qed.

Lemma below_total q : forallb (String.eqb total_name) q = true <-> q = repeat total_name (length q).
Proof.
  induction q as [|x q IH]; cbn [forallb length repeat]; [tauto|].
  rewrite andb_true_iff, IH, String.eqb_eq. split.
  - intros [<- H]. now f_equal.
  - intros [= E H]. auto.
Qed.

Lemma below_iff q p : no_total p = true -> length q = length p ->
  (below q p = true <-> node_of q p).
Proof.
  revert p. induction q as [|x q IH]; intros [|y p] NT L; simpl in L; try discriminate.
  - simpl. split; [|reflexivity]. exists 0. simpl. auto.
  - rewrite no_total_cons, andb_true_iff, negb_true_iff in NT. destruct NT as [Ny NT].
    apply String.eqb_neq in Ny. cbn [below].
    destruct (String.eqb_spec x total_name) as [->|Nx].
    + rewrite (below_total q). split.
      * intros E. exists 0. simpl. split; [lia|]. rewrite E.
        replace (length q) with (length p) by lia. reflexivity.
      * intros (k & Hk & E). destruct k as [|k]; simpl in E.
        -- injection E as E. rewrite E at 1. f_equal. lia.
        -- injection E as E _. exfalso. apply Ny. symmetry. exact E.
    + rewrite andb_true_iff, String.eqb_eq, IH by (assumption || lia). split.
      * intros [-> (k & Hk & E)]. exists (S k). simpl. split; [lia|]. now f_equal.
      * intros (k & Hk & E). destruct k as [|k]; simpl in E.
        -- injection E as E _. contradiction.
        -- injection E as -> E. split; [reflexivity|]. exists k. simpl in Hk. split; [lia|exact E].
Qed.

Lemma node_of_bottom q p : no_total q = true -> length q = length p -> node_of q p -> q = p.
Proof.
  intros NT L (k & Hk & E). destruct (Nat.eq_dec k (length p)) as [->|N].
  - rewrite firstn_all, Nat.sub_diag in E. simpl in E. now rewrite app_nil_r in E.
  - exfalso. assert (In total_name q).
    { rewrite E. apply in_or_app. right. destruct (length p - k) eqn:X; [lia|]. left. reflexivity. }
    unfold no_total in NT. apply negb_true_iff, str_in_false in NT. contradiction.
Qed.

Lemma pad_firstn n k p : length p = n -> k <= n ->
  pad_total n (firstn k p) = firstn k p ++ repeat total_name (length p - k).
Proof. intros L Hk. unfold pad_total. rewrite firstn_length, L. repeat f_equal. lia. Qed.

Lemma pad_length n k p : length p = n -> k <= n -> length (pad_total n (firstn k p)) = n.
Proof.
  intros L Hk. rewrite pad_firstn by assumption. rewrite app_length, repeat_length, firstn_length. lia.
Qed.

Lemma pad_last n k p : length p = n -> k < n -> last (pad_total n (firstn k p)) ""%string = total_name.
Proof.
  intros L Hk. rewrite pad_firstn by (assumption || lia). destruct (length p - k) as [|m] eqn:E; [lia|].
  replace (S m) with (m + 1) by lia. rewrite repeat_app, app_assoc. simpl. now rewrite last_last.
Qed.

Lemma pad_not_bottom n k p : length p = n -> k < n -> no_total (pad_total n (firstn k p)) = false.
Proof.
  intros L Hk. rewrite pad_firstn by (assumption || lia). unfold no_total. apply negb_false_iff, str_in_iff.
  apply in_or_app. right. destruct (length p - k) eqn:E; [lia|]. left. reflexivity.
Qed.

(** the aggregated rows of [aggregate] *)
Section Agg.
Variables (keep : path -> bool) (f : frame R).
Hypothesis W : frame_wf f.
Hypothesis N0 : f_levels f <> 0.

Let bottom := filter (fun r : row R => no_total (r_path r)) (f_rows f).
Let nodes := filter keep (paths_unique (flat_map (fun p => ancestors (f_levels f) p)
                            (paths_unique (map r_path bottom)))).
Let agg_of (q : path) : list (row R) :=
  let below_q := filter (fun r : row R => below q (r_path r)) bottom in
  map (fun t => mkRow q t (sum_vals (length (f_cols f)) (filter (fun r => Z.eqb (r_time r) t) below_q)))
      (times_unique (map r_time below_q)).
Let agg := flat_map agg_of nodes.

Lemma aggregate_eq : aggregate keep f = mkFrame (f_levels f) (f_cols f) (key_sort label (agg ++ bottom)).
Proof. unfold aggregate. destruct (f_levels f) eqn:E; [congruence|]. reflexivity. Qed.

Lemma bottom_wf r : In r bottom -> length (r_vals r) = length (f_cols f) /\ length (r_path r) = f_levels f /\
  no_total (r_path r) = true /\ In r (f_rows f).
Proof. intros H. apply filter_In in H. destruct H as [H1 H2]. destruct (W r H1). auto. Qed.

Lemma nodes_In q : In q nodes <-> keep q = true /\
  exists r k, In r bottom /\ k < f_levels f /\ q = pad_total (f_levels f) (firstn k (r_path r)).
Proof.
  unfold nodes. rewrite filter_In, paths_unique_In, in_flat_map. split.
  - intros [(p & Hp & Hq) K]. split; [assumption|].
    rewrite paths_unique_In, in_map_iff in Hp. destruct Hp as (r & <- & Hr).
    unfold ancestors in Hq. rewrite in_map_iff in Hq. destruct Hq as (k & <- & Hk).
    apply in_seq in Hk. exists r, k. repeat split; [assumption|lia].
  - intros [K (r & k & Hr & Hk & ->)]. split; [|assumption]. exists (r_path r). split.
    + apply paths_unique_In, in_map_iff. eauto.
    + unfold ancestors. apply in_map_iff. exists k. split; [reflexivity|apply in_seq; lia].
Qed.

Lemma agg_In r : In r agg <-> In (r_path r) nodes /\
  (exists b, In b bottom /\ below (r_path r) (r_path b) = true /\ r_time b = r_time r) /\
  r_vals r = sum_vals (length (f_cols f))
     (filter (fun b => Z.eqb (r_time b) (r_time r)) (filter (fun b => below (r_path r) (r_path b)) bottom)).
Proof.
  unfold agg. rewrite in_flat_map. split.
  - intros (q & Hq & H). unfold agg_of in H. cbn zeta in H. apply in_map_iff in H. destruct H as (t & <- & Ht).
    simpl. split; [assumption|]. split; [|reflexivity].
    apply times_unique_In, in_map_iff in Ht. destruct Ht as (b & <- & Hb). apply filter_In in Hb.
    exists b. tauto.
  - intros (Hq & (b & Hb & Hbelow & Ht) & Hv). exists (r_path r). split; [assumption|].
    unfold agg_of. cbn zeta. apply in_map_iff. exists (r_time r). split.
    + rewrite <- Hv. destruct r; reflexivity.
    + apply times_unique_In, in_map_iff. exists b. split; [assumption|]. apply filter_In. auto.
Qed.

Lemma agg_path r : In r agg -> length (r_path r) = f_levels f /\ no_total (r_path r) = false /\
  last (r_path r) ""%string = total_name /\ length (r_vals r) = length (f_cols f).
Proof.
  intros H. apply agg_In in H. destruct H as (Hq & _ & Hv). apply nodes_In in Hq.
  destruct Hq as [_ (b & k & Hb & Hk & E)]. apply bottom_wf in Hb. destruct Hb as (_ & L & _).
  rewrite E. repeat split.
  - apply pad_length; [assumption|lia].
  - now apply pad_not_bottom.
  - now apply pad_last.
  - rewrite Hv. unfold sum_vals. now rewrite map_length, seq_length.
Qed.

Lemma aggregate_wf : frame_wf (aggregate keep f).
Proof.
  rewrite aggregate_eq. intros r Hr. cbn [f_rows f_cols f_levels] in *.
  apply key_sort_In in Hr. apply in_app_or in Hr. destruct Hr as [Hr|Hr].
  - apply agg_path in Hr. tauto.
  - apply bottom_wf in Hr. tauto.
Qed.

Lemma bottom_last r : In r bottom -> String.eqb (last (r_path r) ""%string) total_name = false.
Proof.
  intros H. apply bottom_wf in H. destruct H as (_ & L & NT & _). apply String.eqb_neq. intros E.
  unfold no_total in NT. apply negb_true_iff, str_in_false in NT. apply NT. rewrite <- E.
  destruct (r_path r) as [|x p]; [simpl in L; congruence|].
  clear. revert x. induction p as [|y p IH]; intros x; [simpl; auto|]. right. apply (IH y).
Qed.

Lemma filter_all {A} (p : A -> bool) l : (forall x, In x l -> p x = true) -> filter p l = l.
Proof.
  induction l as [|x l IH]; intros H; simpl; [reflexivity|].
  rewrite H by (simpl; auto). f_equal. apply IH. intros; apply H; simpl; auto.
Qed.
Lemma filter_none {A} (p : A -> bool) l : (forall x, In x l -> p x = false) -> filter p l = [].
Proof.
  induction l as [|x l IH]; intros H; simpl; [reflexivity|].
  rewrite H by (simpl; auto). apply IH. intros; apply H; simpl; auto.
Qed.

(** selecting the bottom rows of the aggregate *)
Lemma bottom_of_aggregate : bottom <> [] ->
  loc_bottom_series (aggregate keep f) = Ok (mkFrame (f_levels f) (f_cols f) (key_sort label bottom)).
Proof.
  intros NE. rewrite loc_bottom_spec by (try apply aggregate_wf; rewrite aggregate_eq; exact N0).
  rewrite aggregate_eq. cbn zeta. unfold filter_rows. cbn [f_rows f_cols f_levels].
  set (P := fun r : row R => negb (String.eqb (last (r_path r) ""%string) total_name)).
  assert (E : filter P (key_sort label (agg ++ bottom)) = key_sort label bottom).
  { rewrite key_sort_filter, filter_app.
    rewrite (filter_none P agg), (filter_all P bottom); [reflexivity| |].
    - intros r Hr. unfold P. now rewrite bottom_last.
    - intros r Hr. unfold P. apply agg_path in Hr. destruct Hr as (_ & _ & -> & _).
      now rewrite String.eqb_refl. }
  rewrite E. destruct (key_sort label bottom) eqn:X; [|reflexivity]. exfalso. apply NE.
  apply Permutation_nil. rewrite <- X. symmetry. apply key_sort_perm.
Qed.

Lemma filter_perm {A} (p : A -> bool) l l' : Permutation l l' -> Permutation (filter p l) (filter p l').
Proof.
  induction 1; simpl; [reflexivity| | |].
  - destruct (p x); auto.
  - destruct (p x), (p y); try reflexivity. constructor.
  - etransitivity; eassumption.
Qed.

Lemma nth_sum_vals k rows j : j < k -> nth j (sum_vals k rows) 0%R = Rsum (map (fun r => nth j (r_vals r) 0%R) rows).
Proof.
  intros H. unfold sum_vals. now rewrite nth_map_seq.
Qed.

(** the sum over the bottom rows of the result is the sum over the bottom rows of the input *)
Lemma bottom_sum_aggregate q t j :
  bottom_sum (aggregate keep f) q t j =
  Rsum (map (fun r => nth j (r_vals r) 0%R)
         (filter (fun r => under q (r_path r) && Z.eqb (r_time r) t)%bool bottom)).
Proof.
  unfold bottom_sum. rewrite aggregate_eq. cbn [f_rows].
  apply Rsum_perm, Permutation_map.
  rewrite <- (filter_perm _ _ _ (key_sort_perm label (agg ++ bottom))).
  rewrite filter_app, (filter_none _ agg).
  - simpl. erewrite filter_ext_in; [reflexivity|]. intros r Hr. apply bottom_wf in Hr.
    rewrite is_bottom_no_total. destruct Hr as (_ & _ & -> & _). reflexivity.
  - intros r Hr. apply agg_path in Hr. rewrite is_bottom_no_total. destruct Hr as (_ & -> & _). reflexivity.
Qed.

Lemma agg_coherent r j : In r agg -> j < length (f_cols f) ->
  nth j (r_vals r) 0%R = bottom_sum (aggregate keep f) (r_path r) (r_time r) j.
Proof.
  intros Hr Hj. rewrite bottom_sum_aggregate. pose proof (agg_path r Hr) as (L & _ & _ & _).
  apply agg_In in Hr. destruct Hr as (_ & _ & ->). rewrite nth_sum_vals by assumption.
  rewrite filter_filter. f_equal. f_equal. apply filter_ext_in. intros b Hb. f_equal.
  apply bottom_wf in Hb. destruct Hb as (_ & Lb & NT & _).
  apply eq_true_iff_eq. rewrite under_iff. apply below_iff; congruence.
Qed.

(** a bottom row is the only bottom row under its own label *)
Lemma bottom_self r j : (forall r1 r2, In r1 (f_rows f) -> In r2 (f_rows f) -> label r1 = label r2 -> r1 = r2) ->
  NoDup (f_rows f) -> In r bottom ->
  nth j (r_vals r) 0%R = bottom_sum (aggregate keep f) (r_path r) (r_time r) j.
Proof.
  intros U ND Hr. rewrite bottom_sum_aggregate.
  assert (NDb : NoDup bottom) by (apply NoDup_filter; assumption).
  assert (E : Permutation [r] (filter (fun b => under (r_path r) (r_path b) && Z.eqb (r_time b) (r_time r))%bool bottom)).
  { apply NoDup_Permutation; [repeat constructor; simpl; tauto|now apply NoDup_filter|].
    intros b. rewrite filter_In. split.
    - intros [<-|[]]. split; [assumption|]. rewrite Z.eqb_refl, andb_true_r. apply under_iff.
      exists (length (r_path r)). rewrite firstn_all, Nat.sub_diag. simpl. rewrite app_nil_r. auto.
    - intros [Hb E]. apply andb_true_iff in E. destruct E as [E1 E2]. apply Z.eqb_eq in E2. left.
      apply under_iff in E1. pose proof (bottom_wf _ Hr) as (_ & Lr & NTr & Ir).
      pose proof (bottom_wf _ Hb) as (_ & Lb & NTb & Ib).
      apply node_of_bottom in E1; [|assumption|congruence]. apply U; try assumption.
      unfold label. congruence. }
  rewrite <- (Rsum_perm _ _ (Permutation_map _ E)). simpl. lra.
Qed.

Lemma aggregate_coherent :
  (forall r1 r2, In r1 (f_rows f) -> In r2 (f_rows f) -> label r1 = label r2 -> r1 = r2) ->
  NoDup (f_rows f) -> coherent (aggregate keep f).
Proof.
  intros U ND r j Hr Hj.
  assert (X : f_rows (aggregate keep f) = key_sort label (agg ++ bottom)) by now rewrite aggregate_eq.
  assert (Y : f_cols (aggregate keep f) = f_cols f) by now rewrite aggregate_eq.
  rewrite X in Hr. rewrite Y in Hj. apply key_sort_In in Hr. apply in_app_or in Hr. destruct Hr as [Hr|Hr].
  - now apply agg_coherent.
  - now apply bottom_self.
Qed.

(** every kept aggregate above a bottom row is present at the time of that row *)
Lemma aggregate_complete b k : In b (f_rows f) -> no_total (r_path b) = true -> k < f_levels f ->
  keep (firstn k (r_path b) ++ repeat total_name (f_levels f - k)) = true ->
  exists r, In r (f_rows (aggregate keep f)) /\ r_time r = r_time b /\
            r_path r = firstn k (r_path b) ++ repeat total_name (f_levels f - k).
Proof.
  intros Hb NT Hk K. assert (Bb : In b bottom) by (apply filter_In; auto).
  pose proof (bottom_wf _ Bb) as (_ & L & _).
  set (q := firstn k (r_path b) ++ repeat total_name (f_levels f - k)) in *.
  assert (Eq : q = pad_total (f_levels f) (firstn k (r_path b))).
  { rewrite pad_firstn by (assumption || lia). unfold q. now rewrite L. }
  set (r := mkRow q (r_time b) (sum_vals (length (f_cols f))
     (filter (fun b' => Z.eqb (r_time b') (r_time b)) (filter (fun b' => below q (r_path b')) bottom)))).
  exists r. split; [|split; reflexivity].
  rewrite aggregate_eq. cbn [f_rows]. apply key_sort_In, in_or_app. left. apply agg_In. simpl.
  split; [|split; [|reflexivity]].
  - apply nodes_In. split; [assumption|]. exists b, k. auto.
  - exists b. split; [assumption|]. split; [|reflexivity]. apply below_iff; [assumption| |].
    + rewrite Eq. rewrite pad_length; [congruence|assumption|lia].
    + exists k. split; [lia|]. unfold q. now rewrite L.
Qed.

Lemma aggregate_bottom_In r : In r (f_rows f) -> no_total (r_path r) = true -> In r (f_rows (aggregate keep f)).
Proof.
  intros H1 H2. rewrite aggregate_eq. cbn [f_rows]. apply key_sort_In, in_or_app. right. apply filter_In; auto.
Qed.
End Agg.

Lemma bottom_of_aggregate_all keep f : frame_wf f -> f_levels f <> 0 -> f_rows f <> [] ->
  (forall r, In r (f_rows f) -> ~ In total_name (r_path r)) ->
  loc_bottom_series (aggregate keep f) = Ok (sort_index f).
Proof.
  intros W N NE NT.
  assert (E : filter (fun r : row R => no_total (r_path r)) (f_rows f) = f_rows f).
  { apply filter_all. intros r Hr. unfold no_total. apply negb_true_iff, str_in_false. now apply NT. }
  rewrite bottom_of_aggregate; try assumption; rewrite E; [reflexivity|assumption].
Qed.

(** ** tensors *)
Section Tensor.
Context {V : Type}.

Definition tensor_step (st : option nat * list (list (list V))) (s : path * list (row V)) :=
  let '(len, acc) := st in
  let rows := snd s in
  let len' := match len with None => length rows | Some n => n end in
  if Nat.eqb (length rows) len' then Ok (Some len', (acc ++ [map r_vals rows])%list)
  else Err ValueError.

Lemma tensor_fold_some n (l : list (path * list (row V))) acc :
  (forall s, In s l -> length (snd s) = n) ->
  foldM tensor_step (Some n, acc) l = Ok (Some n, acc ++ map (fun s => map r_vals (snd s)) l).
Proof.
  revert acc. induction l as [|s l IH]; intros acc H; simpl; [now rewrite app_nil_r|].
  rewrite (proj2 (Nat.eqb_eq _ _) (H s (or_introl eq_refl))). simpl. rewrite IH by (intros; apply H; simpl; auto).
  now rewrite <- app_assoc.
Qed.

Lemma tensor_fold_bad n (l : list (path * list (row V))) acc :
  (exists s, In s l /\ length (snd s) <> n) -> foldM tensor_step (Some n, acc) l = Err ValueError.
Proof.
  revert acc. induction l as [|s l IH]; intros acc (s' & Hs & N); [contradiction|]. simpl.
  destruct (Nat.eqb_spec (length (snd s)) n) as [E|E]; [|reflexivity]. simpl. apply IH.
  destruct Hs as [->|Hs]; [congruence|eauto].
Qed.

Lemma series_to_tensor_eq (f : frame V) : f_levels f <> 0 ->
  series_to_tensor f = ('(_, out) <- foldM tensor_step (None, []) (iterate_all_series f) ;; Ok out).
Proof. intros N. unfold series_to_tensor. destruct (f_levels f); [congruence|reflexivity]. Qed.

Lemma series_to_tensor_ok (f : frame V) n : f_levels f <> 0 ->
  (forall p, In p (series_ids f) -> length (rows_of f p) = n) ->
  series_to_tensor f = Ok (map (fun p => map r_vals (rows_of f p)) (series_ids f)).
Proof.
  intros N H. rewrite series_to_tensor_eq by assumption. unfold iterate_all_series.
  destruct (series_ids f) as [|p ps]; [reflexivity|].
  simpl. rewrite Nat.eqb_refl. simpl.
  rewrite (tensor_fold_some (length (rows_of f p))).
  - simpl. now rewrite map_map.
  - intros s Hs. apply in_map_iff in Hs. destruct Hs as (p' & <- & Hp). simpl.
    rewrite !H; simpl; auto.
Qed.

Lemma series_to_tensor_bad (f : frame V) p1 p2 : f_levels f <> 0 ->
  In p1 (series_ids f) -> In p2 (series_ids f) -> length (rows_of f p1) <> length (rows_of f p2) ->
  series_to_tensor f = Err ValueError.
Proof.
  intros N H1 H2 D. rewrite series_to_tensor_eq by assumption. unfold iterate_all_series.
  destruct (series_ids f) as [|p ps]; [contradiction|].
  cbn [map foldM tensor_step snd]. rewrite Nat.eqb_refl. cbn [bind].
  rewrite tensor_fold_bad; [reflexivity|].
  assert (G : exists q, In q (p :: ps) /\ length (rows_of f q) <> length (rows_of f p)).
  { destruct (Nat.eq_dec (length (rows_of f p1)) (length (rows_of f p))) as [E|E]; [|eauto].
    exists p2. split; [assumption|congruence]. }
  destruct G as (q & [->|Hq] & D'); [congruence|].
  exists (q, rows_of f q). split; [|assumption]. apply in_map_iff. eauto.
Qed.
End Tensor.

(** ** re-indexing *)
Lemma str_insert_In x y l : In x (str_insert y l) <-> x = y \/ In x l.
Proof.
  induction l as [|z l IH]; simpl; [intuition congruence|]. destruct (String.leb y z); simpl; [intuition congruence|].
  rewrite IH. tauto.
Qed.
Lemma str_sort_In x l : In x (str_sort l) <-> In x l.
Proof. induction l as [|y l IH]; simpl; [tauto|]. rewrite str_insert_In, IH. intuition congruence. Qed.
Lemma str_insert_perm y l : Permutation (y :: l) (str_insert y l).
Proof.
  induction l as [|z l IH]; simpl; [reflexivity|]. destruct (String.leb y z); [reflexivity|].
  rewrite perm_swap. now constructor.
Qed.
Lemma str_sort_perm l : Permutation l (str_sort l).
Proof. induction l as [|y l IH]; simpl; [reflexivity|]. rewrite <- str_insert_perm. now constructor. Qed.

Lemma product_In p ls : In p (product ls) <-> Forall2 (fun x l => In x l) p ls.
Proof.
  revert p. induction ls as [|vs ls IH]; intros p; simpl.
  - split; [intros [<-|[]]; constructor | inversion 1; auto].
  - rewrite in_flat_map. split.
    + intros (v & Hv & H). apply in_map_iff in H. destruct H as (q & <- & Hq). constructor; [assumption|now apply IH].
    + inversion 1; subst. exists x. split; [assumption|]. apply in_map_iff. eexists. split; [reflexivity|]. now apply IH.
Qed.

Lemma NoDup_flat_map {A B} (g : A -> list B) l :
  NoDup l -> (forall x, In x l -> NoDup (g x)) ->
  (forall x y z, In x l -> In y l -> In z (g x) -> In z (g y) -> x = y) -> NoDup (flat_map g l).
Proof.
  induction l as [|x l IH]; intros ND HN HD; simpl; [constructor|]. inversion ND; subst.
  assert (N1 : NoDup (g x)) by (apply HN; simpl; auto).
  assert (N2 : NoDup (flat_map g l)) by (apply IH; [assumption|intros; apply HN; simpl; auto|intros; eapply HD; simpl; eauto]).
  assert (D : forall z, In z (g x) -> ~ In z (flat_map g l)).
  { intros z Hz Hf. apply in_flat_map in Hf. destruct Hf as (y & Hy & Hz').
    assert (x = y) by (eapply HD; simpl; eauto). subst. contradiction. }
  clear -N1 N2 D. induction (g x) as [|z zs IHz]; simpl; [assumption|]. inversion N1; subst.
  constructor.
  - rewrite in_app_iff. intros [?|?]; [contradiction|]. apply (D z); simpl; auto.
  - apply IHz; [assumption|]. intros; apply D; simpl; auto.
Qed.

Lemma product_NoDup ls : (forall l, In l ls -> NoDup l) -> NoDup (product ls).
Proof.
  induction ls as [|vs ls IH]; intros H; simpl; [repeat constructor; simpl; tauto|].
  apply NoDup_flat_map.
  - apply H. simpl; auto.
  - intros v _. apply FinFun.Injective_map_NoDup; [intros a b E; congruence|].
    apply IH. intros; apply H; simpl; auto.
  - intros x y z _ _ Hx Hy. apply in_map_iff in Hx. apply in_map_iff in Hy.
    destruct Hx as (a & <- & _), Hy as (b & E & _). congruence.
Qed.

Section Reindex.
Context {V : Type} (f : frame V).
Hypothesis W : frame_wf f.

Lemma index_levels_NoDup l : In l (index_levels f) -> NoDup l.
Proof.
  unfold index_levels. rewrite in_map_iff. intros (i & <- & _).
  eapply Permutation_NoDup; [apply str_sort_perm|]. apply strs_unique_NoDup.
Qed.

Lemma Forall2_nth {A B} (P : A -> B -> Prop) l1 l2 d1 d2 :
  length l1 = length l2 -> (forall i, i < length l1 -> P (nth i l1 d1) (nth i l2 d2)) -> Forall2 P l1 l2.
Proof.
  revert l2. induction l1 as [|x l1 IH]; intros [|y l2] L H; try discriminate; constructor.
  - apply (H 0). simpl. lia.
  - apply IH; [simpl in L; lia|]. intros i Hi. apply (H (S i)). simpl. lia.
Qed.
Lemma Forall2_nth_inv {A B} (P : A -> B -> Prop) l1 l2 d1 d2 i :
  Forall2 P l1 l2 -> i < length l1 -> P (nth i l1 d1) (nth i l2 d2).
Proof.
  intros H. revert i. induction H as [|x y l1 l2 HP H IH]; intros i Hi; [simpl in Hi; lia|].
  destruct i; [assumption|]. apply IH. simpl in Hi. lia.
Qed.

Lemma index_levels_length : length (index_levels f) = f_levels f.
Proof. unfold index_levels. now rewrite map_length, seq_length. Qed.

Lemma index_levels_nth i x : i < f_levels f ->
  (In x (nth i (index_levels f) []) <-> exists r, In r (f_rows f) /\ nth i (r_path r) ""%string = x).
Proof.
  intros Hi. unfold index_levels. rewrite nth_map_seq by assumption.
  rewrite str_sort_In, strs_unique_In, in_map_iff. split; intros (r & H1 & H2); eauto.
Qed.

Lemma product_levels_In p : In p (product (index_levels f)) <->
  length p = f_levels f /\
  forall i, i < f_levels f -> exists r, In r (f_rows f) /\ nth i (r_path r) ""%string = nth i p ""%string.
Proof.
  rewrite product_In. split.
  - intros H. pose proof (Forall2_len _ _ _ H) as L. rewrite index_levels_length in L. split; [assumption|].
    intros i Hi. apply (index_levels_nth i); [assumption|].
    apply (Forall2_nth_inv (fun x l => In x l) p _ ""%string [] i H). lia.
  - intros [L H]. apply (Forall2_nth _ p _ ""%string []); [now rewrite index_levels_length|].
    intros i Hi. apply index_levels_nth; [lia|]. apply H. lia.
Qed.

Lemma series_in_product p : In p (series_ids f) -> In p (product (index_levels f)).
Proof.
  rewrite series_ids_In. intros (r & Hr & <-). apply product_levels_In. split; [apply W, Hr|]. eauto.
Qed.

Definition reindex_labels (times : list Z) : list (path * Z) :=
  map fst (reindex_time_series f times).

Lemma reindex_labels_eq times : reindex_labels times =
  match f_levels f with
  | 0 => map (fun t => ([], t)) times
  | _ => flat_map (fun p => map (fun t => (p, t)) times) (product (index_levels f))
  end.
Proof.
  unfold reindex_labels, reindex_time_series. rewrite map_map. simpl.
  erewrite map_ext; [apply map_id|]. intros [? ?]. reflexivity.
Qed.

Lemma reindex_labels_In times p t : f_levels f <> 0 ->
  (In (p, t) (reindex_labels times) <-> In p (product (index_levels f)) /\ In t times).
Proof.
  intros N. rewrite reindex_labels_eq. destruct (f_levels f) eqn:E; [congruence|]. rewrite in_flat_map. split.
  - intros (q & Hq & H). apply in_map_iff in H. destruct H as (t' & [= <- <-] & Ht). auto.
  - intros [Hp Ht]. exists p. split; [assumption|]. apply in_map_iff. eauto.
Qed.

Lemma reindex_NoDup times : NoDup times -> NoDup (reindex_labels times).
Proof.
  intros ND. rewrite reindex_labels_eq. destruct (f_levels f).
  - apply FinFun.Injective_map_NoDup; [intros a b E; congruence|assumption].
  - apply NoDup_flat_map.
    + apply product_NoDup. apply index_levels_NoDup.
    + intros p _. apply FinFun.Injective_map_NoDup; [intros a b E; congruence|assumption].
    + intros x y z _ _ Hx Hy. apply in_map_iff in Hx. apply in_map_iff in Hy.
      destruct Hx as (a & <- & _), Hy as (b & E & _). congruence.
Qed.

(** the values are those of the old frame *)
Lemma reindex_values times p t v : In (p, t, v) (reindex_time_series f times) ->
  v = option_map r_vals (find_row f p t).
Proof.
  unfold reindex_time_series. rewrite in_map_iff. intros ([p' t'] & E & _). simpl in E. congruence.
Qed.

Lemma reindex_full times p t : f_levels f <> 0 -> full_crossing f ->
  (In (p, t) (reindex_labels times) <-> In p (series_ids f) /\ In t times).
Proof.
  intros N FC. rewrite reindex_labels_In by assumption. split.
  - intros [Hp Ht]. split; [|assumption]. apply product_levels_In in Hp. destruct Hp as [L H].
    apply series_ids_In. destruct (FC p L H) as (r & Hr & E). eauto.
  - intros [Hp Ht]. split; [now apply series_in_product|assumption].
Qed.
End Reindex.

Lemma find_row_some {V} (f : frame V) p t r : find_row f p t = Some r ->
  In r (f_rows f) /\ r_path r = p /\ r_time r = t.
Proof.
  unfold find_row. intros H. apply find_some in H. destruct H as [H1 H2].
  apply andb_true_iff in H2. destruct H2 as [H2 H3]. apply path_eqb_eq in H2. apply Z.eqb_eq in H3. auto.
Qed.
Lemma find_row_none {V} (f : frame V) p t : find_row f p t = None ->
  forall r, In r (f_rows f) -> r_path r = p -> r_time r = t -> False.
Proof.
  unfold find_row. intros H r Hr E1 E2. apply (find_none _ _ H) in Hr.
  rewrite E1, E2, path_eqb_refl, Z.eqb_refl in Hr. discriminate.
Qed.
