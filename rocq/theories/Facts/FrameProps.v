(** Closing lemmas for the frame properties. *)
From Coq Require Import Reals Lra String Bool ZArith Lia List Arith Permutation Sorted.
From Verif.Model Require Import Base Num Arr Frame Aggregate Scale.
From Verif.Spec Require Import FrameSpec ScaleSpec.
From Verif.Facts Require Import BaseFacts NumFacts OrderFacts FrameFacts ScaleFacts ArrFacts PredictFacts PanelExamples.
Import ListNotations.
Local Open Scope string_scope.

Lemma strong_key_sorted {A} (key : A -> path * Z) l :
  StronglySorted (fun a b => label_leb a b = true) (map key l) -> key_sorted key l.
Proof.
  induction l as [|x l IH]; simpl; intros H; [constructor|]. inversion H as [|? ? H1 H2]; subst.
  constructor; [|auto]. intros y Hy. rewrite Forall_forall in H2. apply H2. now apply in_map.
Qed.

Lemma sort_index_id (f : frame R) : sorted_index f -> sort_index f = f.
Proof.
  intros H. unfold sort_index. rewrite key_sort_id; [now destruct f|]. apply strong_key_sorted. exact H.
Qed.

Lemma c50_bottom keep (f : frame R) : frame_wf f -> f_levels f <> 0 -> f_rows f <> [] ->
  (forall r, In r (f_rows f) -> ~ In "__total" (r_path r)) ->
  exists g, loc_bottom_series (aggregate keep f) = Ok g /\ f_levels g = f_levels f /\ f_cols g = f_cols f /\
    Permutation (f_rows f) (f_rows g) /\ sorted_index g /\
    forall p, (sorted_index (filter_rows (fun r => path_eqb (r_path r) p) f) -> rows_of g p = rows_of f p).
Proof.
  intros W L N T. exists (sort_index f). split; [now apply bottom_of_aggregate_all|]. split; [reflexivity|]. split; [reflexivity|].
  split; [apply key_sort_perm|]. split; [apply sort_index_sorted|].
  intros p Hp. unfold rows_of, sort_index. simpl. rewrite key_sort_filter. apply key_sort_id. apply strong_key_sorted. exact Hp.
Qed.

Lemma c50_sorted keep (f : frame R) : frame_wf f -> f_levels f <> 0 -> f_rows f <> [] ->
  (forall r, In r (f_rows f) -> ~ In "__total" (r_path r)) -> sorted_index f ->
  loc_bottom_series (aggregate keep f) = Ok f.
Proof. intros W L N T H. rewrite bottom_of_aggregate_all by assumption. now rewrite sort_index_id. Qed.

Lemma c50_order {V} (f g : frame V) : frame_wf f -> f_levels f <> 0 -> loc_bottom_series f = Ok g ->
  f_levels g = f_levels f /\ f_cols g = f_cols f /\
  f_rows g = filter (fun r => negb (String.eqb (last (r_path r) "") "__total")) (f_rows f).
Proof.
  intros W L H. rewrite loc_bottom_spec in H by assumption. cbv zeta in H.
  destruct (f_rows (filter_rows _ f)); [discriminate|]. injection H as <-. repeat split; reflexivity.
Qed.

Lemma c50_flat {V} (f : frame V) : f_levels f = 0 -> loc_bottom_series f = Ok f.
Proof. intros H. unfold loc_bottom_series. now rewrite H. Qed.

(** ** C55 *)
Lemma reindex_In {V} (f : frame V) times p t v : In (p, t, v) (reindex_time_series f times) -> In (p, t) (reindex_labels f times).
Proof. intros H. unfold reindex_labels. apply in_map_iff. exists (p, t, v). auto. Qed.

Lemma c55_each {V} (f : frame V) times p t : frame_wf f -> f_levels f <> 0 -> NoDup times ->
  (exists r, In r (f_rows f) /\ r_path r = p) -> In t times ->
  exists v, In (p, t, v) (reindex_time_series f times) /\
    forall v', In (p, t, v') (reindex_time_series f times) -> v' = v.
Proof.
  intros W L ND Hr Ht.
  assert (H : In (p, t) (reindex_labels f times)).
  { apply reindex_labels_In; [assumption|]. split; [|assumption]. apply series_in_product; [assumption|]. now apply series_ids_In. }
  unfold reindex_labels in H. apply in_map_iff in H. destruct H as (((p', t') & v) & [= -> ->] & H).
  exists v. split; [assumption|]. intros v' H'. apply reindex_values in H. apply reindex_values in H'. congruence.
Qed.

Lemma c55_nodup {V} (f : frame V) times : NoDup times -> NoDup (map fst (reindex_time_series f times)).
Proof. intros H. now apply reindex_NoDup. Qed.

Lemma c55_values {V} (f : frame V) times p t v :
  In (p, t, v) (reindex_time_series f times) ->
  match v with
  | Some vs => exists r, In r (f_rows f) /\ r_path r = p /\ r_time r = t /\ r_vals r = vs
  | None => forall r, In r (f_rows f) -> r_path r = p -> r_time r = t -> False
  end.
Proof.
  intros H. apply reindex_values in H. destruct (find_row f p t) as [r|] eqn:E; simpl in H; subst v.
  - destruct (find_row_some _ _ _ _ E) as (H1 & H2 & H3). eauto.
  - intros r. now apply find_row_none.
Qed.

Lemma c55_exact {V} (f : frame V) times p t : frame_wf f -> f_levels f <> 0 -> full_crossing f ->
  ((exists v, In (p, t, v) (reindex_time_series f times)) <->
   (exists r, In r (f_rows f) /\ r_path r = p) /\ In t times).
Proof.
  intros W L FC. rewrite <- series_ids_In. rewrite <- (reindex_full f W times p t L FC). unfold reindex_labels. split.
  - intros [v H]. apply in_map_iff. exists (p, t, v). auto.
  - intros H. apply in_map_iff in H. destruct H as (((p', t') & v) & [= -> ->] & H). eauto.
Qed.

Lemma c55_phantom : exists (f : frame R) times p t v, frame_wf f /\ f_levels f <> 0 /\
  In (p, t, v) (reindex_time_series f times) /\ forall r, In r (f_rows f) -> r_path r <> p.
Proof.
  exists shops, [7%Z], ["n"; "c"], 7%Z, None. split; [exact shops_wf|]. split; [discriminate|]. split.
  - vm_compute. auto 20.
  - intros r Hr. simpl in Hr. rows_cases; discriminate.
Qed.

(** ** C56 *)
Lemma c56_ok {V} (f : frame V) n : f_levels f <> 0 ->
  (forall r, In r (f_rows f) -> length (rows_of f (r_path r)) = n) ->
  exists ids, first_appearance (map r_path (f_rows f)) ids /\
    series_to_tensor f = Ok (map (fun p => map r_vals (filter (fun r => path_eqb (r_path r) p) (f_rows f))) ids).
Proof.
  intros L H. exists (series_ids f). split; [apply series_ids_first|]. rewrite (series_to_tensor_ok f n); [reflexivity|assumption|].
  intros p Hp. apply series_ids_In in Hp. destruct Hp as (r & Hr & <-). now apply H.
Qed.

Lemma c56_bad {V} (f : frame V) r1 r2 : f_levels f <> 0 -> In r1 (f_rows f) -> In r2 (f_rows f) ->
  length (rows_of f (r_path r1)) <> length (rows_of f (r_path r2)) -> series_to_tensor f = Err ValueError.
Proof. intros L H1 H2 N. apply (series_to_tensor_bad f (r_path r1) (r_path r2)); auto; apply series_ids_In; eauto. Qed.

Lemma c56_flat {V} (f : frame V) : f_levels f = 0 -> series_to_tensor f = Ok [map r_vals (f_rows f)].
Proof. intros H. unfold series_to_tensor. now rewrite H. Qed.

(** ** examples *)
Definition crossing : frame R := mkFrame 1 ["y"] [mkRow ["b"] 0%Z [1%R]; mkRow ["a"] 0%Z [2%R]; mkRow ["b"] 1%Z [3%R]; mkRow ["a"] 1%Z [4%R]].
Lemma crossing_wf : frame_wf crossing.
Proof. intros r Hr. simpl in Hr. rows_cases; split; reflexivity. Qed.
Lemma crossing_full : full_crossing crossing.
Proof.
  intros [|x [|y p]] L H; simpl in L; try discriminate. destruct (H 0) as (r & Hr & E); [simpl; lia|].
  exists r. split; [assumption|]. simpl in Hr. rows_cases; simpl in *; now subst.
Qed.
Lemma crossing_case : frame_wf crossing /\ f_levels crossing <> 0 /\ full_crossing crossing /\
  (forall r, In r (f_rows crossing) -> length (rows_of crossing (r_path r)) = 2) /\
  series_to_tensor crossing = Ok [[[1%R]; [3%R]]; [[2%R]; [4%R]]].
Proof.
  split; [exact crossing_wf|]. split; [discriminate|]. split; [exact crossing_full|]. split; [|reflexivity].
  intros r Hr. simpl in Hr. rows_cases; reflexivity.
Qed.
Lemma shops_case : frame_wf shops /\ f_levels shops <> 0 /\ f_rows shops <> [] /\
  (forall r, In r (f_rows shops) -> ~ In "__total" (r_path r)) /\ sorted_index shops /\
  length (f_rows (aggregate (fun _ => true) shops)) = 12.
Proof.
  split; [exact shops_wf|]. split; [discriminate|]. split; [discriminate|]. split; [exact shops_no_total|]. split; [|reflexivity].
  rewrite <- shops_sorted. apply sort_index_sorted.
Qed.
