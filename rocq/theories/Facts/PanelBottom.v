(** Aggregation and bottom series of panels. *)
From Coq Require Import Reals Lra String Bool ZArith List Sorted Permutation Lia.
From Verif.Model Require Import Base Num Regex Frame Arr Expand Aggregate Scale Forecaster.
From Verif.Spec Require Import FrameSpec ScaleSpec LineSpec TotalSpec PanelSpec.
From Verif.Facts Require Import BaseFacts NumFacts OrderFacts FrameFacts FrameProps ScaleFacts LineFacts AlignFacts PanelGrid HistoryTimes.
Import ListNotations.
Local Open Scope string_scope.

Lemma NoDup_app_disjoint {A} (l l' : list A) : NoDup l -> NoDup l' -> (forall x, In x l -> ~ In x l') -> NoDup (l ++ l').
Proof.
  induction l as [|a l IH]; intros N N' D; [exact N'|]. inversion N; subst. simpl. constructor.
  - intros I. apply in_app_or in I as [I|I]; [contradiction|]. apply (D a); simpl; auto.
  - apply IH; auto. intros x Hx. apply D. simpl. auto.
Qed.

Lemma aggregate_levels keep (f : frame R) : f_levels (aggregate keep f) = f_levels f /\ f_cols (aggregate keep f) = f_cols f.
Proof. unfold aggregate. destruct (f_levels f) eqn:E; [auto|]. cbn. auto. Qed.

Lemma aggregate_nodup keep (f : frame R) : frame_wf f -> f_levels f <> 0 -> NoDup (labels f) -> NoDup (labels (aggregate keep f)).
Proof.
  intros W L N. pose proof (agg_path keep f W L) as AP. rewrite (aggregate_eq keep f L). unfold labels. cbn [f_rows].
  set (bottom := filter (fun r : row R => no_total (r_path r)) (f_rows f)) in *.
  match goal with |- context [key_sort label (?a ++ bottom)] => set (agg := a) in * end.
  eapply Permutation_NoDup; [apply Permutation_map, key_sort_perm|]. rewrite map_app. apply NoDup_app_disjoint.
  - unfold agg. assert (NN : NoDup (filter keep (paths_unique (flat_map (fun p => ancestors (f_levels f) p) (paths_unique (map r_path bottom)))))) by (apply NoDup_filter, paths_unique_NoDup).
    clear AP. clear agg. induction (filter keep _) as [|q qs IH]; [constructor|]. inversion NN; subst. cbn [flat_map]. rewrite map_app. apply NoDup_app_disjoint; [|now apply IH|].
    + rewrite map_map. cbn [r_path r_time]. apply FinFun.Injective_map_NoDup; [intros a b [= E]; exact E|apply times_unique_NoDup].
    + intros [p t] I J. apply in_map_iff in I as (r & E & I). apply in_map_iff in I as (t0 & <- & _). cbn in E. injection E as <- _.
      apply in_map_iff in J as (r & E & J). apply in_flat_map in J as (q' & Hq & J). apply in_map_iff in J as (t1 & <- & _). cbn in E. injection E as -> _. contradiction.
  - unfold bottom. clear -N. unfold labels in N. induction (f_rows f) as [|r l IH]; [constructor|]. cbn [map] in N. inversion N; subst. cbn [filter]. destruct (no_total (r_path r)); [|auto].
    cbn [map]. constructor; [|auto]. intros I. apply H1. apply in_map_iff in I as (r' & E & I). apply filter_In in I as [I _]. apply in_map_iff. eauto.
  - intros [p t] I J. apply in_map_iff in I as (r & [= E1 E2] & I). apply AP in I as (_ & NT & _). apply in_map_iff in J as (r' & [= E3 E4] & J). apply filter_In in J as [_ J]. congruence.
Qed.

Lemma total_path_In p : total_path p -> In "__total" p.
Proof.
  unfold total_path. destruct p as [|x p]; [discriminate|]. revert x. induction p as [|y p IH]; intros x H; [simpl in *; auto|]. right. apply IH. exact H.
Qed.

Definition is_bottom (r : row R) : bool := negb (String.eqb (last (r_path r) "") total_name).
Lemma is_bottom_iff r : is_bottom r = true <-> ~ total_path (r_path r).
Proof. unfold is_bottom, total_path. rewrite negb_true_iff, String.eqb_neq. reflexivity. Qed.

(** the rows of the bottom series of a panel *)
Lemma panel_bottom ids times (X : frame R) : panel ids times X -> (forall p, In p ids -> ~ total_path p) -> ids <> [] -> times <> [] ->
  exists Xb, loc_bottom_series X = Ok Xb /\ grid ids times Xb /\ f_cols Xb = f_cols X.
Proof.
  intros (W & L & N & I) NT Ei Et. rewrite (loc_bottom_spec X W L). cbn zeta. fold is_bottom. set (Xb := filter_rows is_bottom X).
  assert (G : grid ids times Xb).
  { split; [now apply filter_rows_wf|]. split; [exact L|]. split; [now apply NoDup_labels_filter|]. intros p t. split.
    - intros H. apply in_map_iff in H as (r & [= E1 E2] & Hr). apply filter_In in Hr as [Hr B]. apply is_bottom_iff in B. rewrite E1 in B. apply (I p t B). apply in_map_iff. exists r. rewrite E1, E2. auto.
    - intros [H1 H2]. pose proof (NT p H1) as B. pose proof (proj2 (I p t B) (conj H1 H2)) as H. apply in_map_iff in H as (r & [= E1 E2] & Hr). apply in_map_iff. exists r. split; [congruence|].
      apply filter_In. split; [exact Hr|]. apply is_bottom_iff. now rewrite E1. }
  pose proof (grid_nonempty ids times Xb G Ei Et) as NE. exists Xb. split; [|split; [exact G|reflexivity]]. change (f_rows (filter_rows is_bottom X)) with (f_rows Xb). destruct (f_rows Xb); [congruence|reflexivity].
Qed.

Lemma grid_bottom ids times (y : frame R) p : grid ids times y -> times <> [] -> (forall r, In r (f_rows y) -> ~ In "__total" (r_path r)) -> In p ids -> ~ total_path p.
Proof.
  intros G Et NT Hp H. apply total_path_In in H. destruct (nonempty_In _ Et) as (t & Ht). destruct (grid_label ids times y G p t Hp Ht) as (r & Hr & E & _). apply (NT r Hr). now rewrite E.
Qed.

Lemma panel_grid ids times (y : frame R) : panel ids times y -> (forall r, In r (f_rows y) -> ~ In "__total" (r_path r)) -> ids <> [] -> times <> [] -> (forall p, In p ids -> ~ total_path p) -> grid ids times y.
Proof.
  intros (W & L & N & I) NT Ei Et NI. split; [exact W|]. split; [exact L|]. split; [exact N|]. intros p t. split; intros H.
  - apply I; [|exact H]. apply in_map_iff in H as (r & [= E1 E2] & Hr). intros T. apply (NT r Hr). rewrite E1. now apply total_path_In.
  - apply I; [|exact H]. apply NI. apply H.
Qed.

Lemma grid_panel ids times (y : frame R) : grid ids times y -> panel ids times y.
Proof. intros (W & L & N & I). split; [exact W|]. split; [exact L|]. split; [exact N|]. intros p t _. apply I. Qed.

Lemma aggregate_panel keep ids times (y : frame R) : grid ids times y -> ids <> [] -> times <> [] -> (forall r, In r (f_rows y) -> ~ In "__total" (r_path r)) ->
  panel ids times (aggregate keep y).
Proof.
  intros G Ei Et NT. pose proof (grid_nonempty ids times y G Ei Et) as NE. pose proof G as (W & L & N & I). pose proof (bottom_of_aggregate_all keep y W L NE NT) as B.
  pose proof (aggregate_wf keep y W L) as WA. destruct (aggregate_levels keep y) as [LA CA]. assert (LA0 : f_levels (aggregate keep y) <> 0) by congruence.
  rewrite (loc_bottom_spec _ WA LA0) in B. cbn zeta in B. fold is_bottom in B.
  split; [exact WA|]. split; [exact LA0|]. split; [now apply aggregate_nodup|]. intros p t NP.
  assert (EB : filter_rows is_bottom (aggregate keep y) = sort_index y).
  { set (g := filter_rows is_bottom (aggregate keep y)) in *. assert (B' : match f_rows g with [] => Err IndexError | _ :: _ => Ok g end = Ok (sort_index y)) by exact B.
    destruct (f_rows g); [discriminate|]. congruence. }
  rewrite <- I. transitivity (In (p, t) (labels (filter_rows is_bottom (aggregate keep y)))).
  - unfold labels, filter_rows. cbn [f_rows]. rewrite !in_map_iff. split; intros (r & E & Hr); exists r; (split; [exact E|]).
    + apply filter_In. split; [exact Hr|]. apply is_bottom_iff. injection E as -> _. exact NP.
    + apply filter_In in Hr. apply Hr.
  - rewrite EB. unfold labels, sort_index. cbn [f_rows]. rewrite !in_map_iff. split; intros (r & E & Hr); exists r; (split; [exact E|]); apply key_sort_In in Hr || (apply key_sort_In); exact Hr.
Qed.

(** tables without columns for the same labels *)
Lemma empty_labels n index : labels (empty_frame n index) = index.
Proof. unfold labels, empty_frame. cbn [f_rows]. rewrite map_map. rewrite <- (map_id index) at 2. apply map_ext. now intros [p t]. Qed.

Lemma empty_wf n index : (forall pt, In pt index -> List.length (fst pt) = n) -> frame_wf (empty_frame n index).
Proof. intros H r Hr. unfold empty_frame in *. cbn [f_rows f_cols f_levels] in *. apply in_map_iff in Hr as (pt & <- & Hp). cbn. split; [reflexivity|]. now apply H. Qed.

Lemma panel_empty ids times (X : frame R) : panel ids times X -> panel ids times (empty_frame (f_levels X) (index_of X)).
Proof.
  intros (W & L & N & I). split.
  - apply empty_wf. intros pt Hp. apply in_map_iff in Hp as (r & <- & Hr). now apply W.
  - split; [exact L|]. rewrite empty_labels. split; [exact N|exact I].
Qed.

(** * Targets with totals *)
Definition strip (y : frame R) : frame R := filter_rows (fun r => no_total (r_path r)) y.
Lemma without_strip y : without_totals y = strip y.
Proof.
  unfold without_totals, strip, filter_rows. f_equal. apply filter_ext. intros r. unfold no_total. destruct (in_dec string_dec "__total" (r_path r)) as [H|H]; symmetry.
  - apply negb_false_iff. now apply str_in_iff.
  - apply negb_true_iff. now apply str_in_false.
Qed.
Lemma strip_In y r : In r (f_rows (strip y)) <-> In r (f_rows y) /\ ~ In "__total" (r_path r).
Proof. unfold strip, filter_rows. cbn [f_rows]. rewrite filter_In. unfold no_total. rewrite negb_true_iff, str_in_false. reflexivity. Qed.
Lemma aggregate_strip keep y : f_levels y <> 0 -> aggregate keep (strip y) = aggregate keep y.
Proof.
  intros L. unfold aggregate, strip, filter_rows. cbn [f_levels f_cols f_rows]. destruct (f_levels y); [congruence|].
  assert (E : filter (fun r => no_total (r_path r)) (filter (fun r => no_total (r_path r)) (f_rows y)) = filter (fun r => no_total (r_path r)) (f_rows y)).
  { apply FrameFacts.filter_all. intros r Hr. now apply filter_In in Hr. }
  rewrite E. reflexivity.
Qed.
Lemma total_of_path p q : total_of p q -> total_path p.
Proof.
  intros (k & Hk & ->). unfold total_path. destruct (List.length q - k) as [|m] eqn:E; [lia|]. replace (S m) with (m + 1) by lia. rewrite repeat_app, app_assoc. cbn [repeat]. now rewrite last_last.
Qed.
Definition target_totals (ids : list path) (times : list Z) (y : frame R) : Prop :=
  forall r, In r (f_rows y) -> In "__total" (r_path r) -> (exists q, In q ids /\ total_of (r_path r) q) /\ In (r_time r) times.
Lemma strip_grid ids times (y : frame R) : panel ids times y -> target_totals ids times y -> (forall p, In p ids -> ~ total_path p) -> grid ids times (strip y).
Proof.
  intros (W & L & N & I) TT NI. split; [now apply filter_rows_wf|]. split; [exact L|]. split; [now apply NoDup_labels_filter|]. intros p t. split; intros H.
  - apply in_map_iff in H as (r & [= E1 E2] & Hr). apply strip_In in Hr as [Hr NT]. apply I; [|apply in_map_iff; exists r; rewrite E1, E2; auto]. intros T. apply NT. rewrite E1. now apply total_path_In.
  - pose proof (proj2 (I p t (NI p (proj1 H))) H) as J. apply in_map_iff in J as (r & [= E1 E2] & Hr). apply in_map_iff. exists r. rewrite E1, E2. split; [reflexivity|]. apply strip_In. split; [exact Hr|].
    intros T. destruct (TT r Hr T) as [(q & _ & Q) _]. apply total_of_path in Q. rewrite E1 in Q. exact (NI p (proj1 H) Q).
Qed.
Lemma strip_no_totals y r : In r (f_rows (strip y)) -> ~ In "__total" (r_path r).
Proof. intros H. now apply strip_In in H. Qed.
Lemma target_times ids times (y : frame R) : panel ids times y -> target_totals ids times y -> (forall p, In p ids -> ~ total_path p) -> ids <> [] ->
  forall t, In t (map r_time (f_rows y)) <-> In t times.
Proof.
  intros PY TT NI Ei t. pose proof (strip_grid ids times y PY TT NI) as G. rewrite in_map_iff. split.
  - intros (r & <- & Hr). destruct (in_dec string_dec "__total" (r_path r)) as [T|T]; [now apply (TT r Hr)|]. apply (grid_row ids times _ G). now apply strip_In.
  - intros Ht. destruct (nonempty_In _ Ei) as (q & Hq). destruct (grid_label ids times _ G q t Hq Ht) as (r & Hr & _ & E). apply strip_In in Hr as [Hr _]. eauto.
Qed.

(** the labels of an aggregated panel *)
Lemma aggregate_full keep ids times (y : frame R) : grid ids times y -> ids <> [] -> times <> [] -> (forall r, In r (f_rows y) -> ~ In "__total" (r_path r)) ->
  full_panel keep ids times (aggregate keep y).
Proof.
  intros G Ei Et NT. pose proof (aggregate_panel keep ids times y G Ei Et NT) as (W & L & N & I). pose proof G as (W0 & L0 & N0 & I0).
  assert (NTb : forall r, In r (f_rows y) -> no_total (r_path r) = true) by (intros r Hr; unfold no_total; apply negb_true_iff, str_in_false; now apply NT).
  split; [exact W|]. split; [exact L|]. split; [exact N|]. intros p t. split.
  - intros H. apply in_map_iff in H as (r & [= E1 E2] & Hr). rewrite (aggregate_eq keep y L0) in Hr. cbn [f_rows] in Hr. apply key_sort_In in Hr. apply in_app_or in Hr as [Hr|Hr].
    + apply (agg_In keep y) in Hr as (Hn & (b & Hb & _ & Hb2) & _). apply (nodes_In keep y L0) in Hn as [K (r0 & k & Hr0 & Hk & Eq)]. apply filter_In in Hb as [Hb _]. apply filter_In in Hr0 as [Hr0 _].
      rewrite E1 in K, Eq. split.
      * right. split; [exact K|]. exists (r_path r0). split; [apply (grid_row ids times y G r0 Hr0)|]. exists k. destruct (W0 r0 Hr0) as [_ LP]. rewrite LP. split; [exact Hk|]. rewrite Eq, pad_firstn by (assumption || lia). now rewrite LP.
      * rewrite <- E2, <- Hb2. apply (grid_row ids times y G b Hb).
    + apply filter_In in Hr as [Hr _]. pose proof (grid_row ids times y G r Hr) as [A B]. rewrite E1 in A. rewrite E2 in B. auto.
  - intros [[Hp|[K (q & Hq & k & Hk & ->)]] Ht].
    + destruct (grid_label ids times y G p t Hp Ht) as (r & Hr & E1 & E2). apply in_map_iff. exists r. split; [now rewrite E1, E2|]. apply aggregate_bottom_In; auto.
    + destruct (grid_label ids times y G q t Hq Ht) as (r & Hr & E1 & E2). destruct (W0 r Hr) as [_ LP]. rewrite E1 in LP.
      destruct (aggregate_complete keep y W0 L0 r k Hr (NTb r Hr)) as (r' & Hr' & T' & P').
      { lia. } { rewrite E1, <- LP. exact K. }
      apply in_map_iff. exists r'. split; [|exact Hr']. rewrite T', P', E1, E2, <- LP. reflexivity.
Qed.
Lemma full_is_panel keep ids times F : full_panel keep ids times F -> panel ids times F.
Proof.
  intros (W & L & N & I). split; [exact W|]. split; [exact L|]. split; [exact N|]. intros p t NT. rewrite I. split; [|tauto]. intros [[H|[_ (q & _ & H)]] Ht]; [auto|]. destruct NT. now apply (total_of_path p q).
Qed.
