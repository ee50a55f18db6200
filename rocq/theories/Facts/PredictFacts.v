(** Facts about predictive data frames. *)
From Coq Require Import Reals Lra String Bool ZArith Lia List Arith Permutation Sorted.
From Verif.Model Require Import Base Num Arr Frame Aggregate Scale Predict.
From Verif.Spec Require Import FrameSpec ScaleSpec PredictSpec.
From Verif.Facts Require Import BaseFacts NumFacts OrderFacts FrameFacts ScaleFacts ArrFacts.
Import ListNotations.
Local Open Scope string_scope.

(** ** labels *)
Lemma multiindex_panel lb times : lb_levels lb <> 0 -> lb_index lb <> [] ->
  periodindex_to_multiindex lb times =
  Ok (flat_map (fun p => map (fun t => (p, t)) times)
        (filter_series_tuples (lb_hier lb) (paths_unique (map fst (lb_index lb))))).
Proof.
  intros L NE. unfold periodindex_to_multiindex. destruct (lb_levels lb); [congruence|].
  destruct (paths_unique (map fst (lb_index lb))) as [|p ps] eqn:E; [|reflexivity].
  apply unique_nil in E; [|apply path_eqb_eq]. destruct (lb_index lb); [congruence|discriminate].
Qed.

Lemma key_sorted_strong {A} (key : A -> path * Z) l : key_sorted key l ->
  StronglySorted (fun a b => label_leb a b = true) (map key l).
Proof.
  induction 1 as [|x l Hx Hl IH]; simpl; constructor; [assumption|].
  apply Forall_forall. intros y Hy. apply in_map_iff in Hy. destruct Hy as (z & <- & Hz). auto.
Qed.

Lemma sort_index_sorted (f : frame R) : sorted_index (sort_index f).
Proof. unfold sorted_index, labels, sort_index. simpl. apply (key_sorted_strong label), key_sort_sorted. Qed.

Lemma map_nth_seq {A B} (g : A -> B) (l : list A) d : map g l = map (fun i => g (nth i l d)) (seq 0 (length l)).
Proof.
  induction l as [|x l IH]; simpl; [reflexivity|]. f_equal. rewrite IH, <- seq_shift, map_map. reflexivity.
Qed.
Lemma flat_map_nth_seq {A B} (g : A -> list B) (l : list A) d :
  flat_map g l = flat_map (fun i => g (nth i l d)) (seq 0 (length l)).
Proof.
  rewrite !flat_map_concat. f_equal. apply map_nth_seq.
Qed.

Lemma combine_app {A B} (l1 l2 : list A) (m1 m2 : list B) : length l1 = length m1 ->
  combine (l1 ++ l2) (m1 ++ m2) = (combine l1 m1 ++ combine l2 m2)%list.
Proof.
  revert m1. induction l1 as [|x l1 IH]; intros [|y m1] H; simpl in *; try discriminate; [reflexivity|].
  f_equal. apply IH. lia.
Qed.

Lemma combine_flat_map {A B C} (g : A -> list B) (h : A -> list C) l :
  (forall x, In x l -> length (g x) = length (h x)) ->
  combine (flat_map g l) (flat_map h l) = flat_map (fun x => combine (g x) (h x)) l.
Proof.
  induction l as [|x l IH]; intros H; simpl; [reflexivity|].
  rewrite combine_app by (apply H; simpl; auto). f_equal. apply IH. intros; apply H; simpl; auto.
Qed.
Lemma combine_map_same {A B C} (g : A -> B) (h : A -> C) l : combine (map g l) (map h l) = map (fun x => (g x, h x)) l.
Proof. induction l as [|x l IH]; simpl; [reflexivity|]. now rewrite IH. Qed.

(** ** reshaping the observation site *)
Lemma rows_width_concat n a (L : list (list R)) : n <> 0 -> a_flat a = concat L -> (forall x, In x L -> length x = n) ->
  rows_of_width n a = Ok L.
Proof.
  intros N E H. unfold rows_of_width. destruct n as [|n]; [congruence|].
  assert (LE : length (a_flat a) = length L * S n).
  { rewrite E. clear -H. induction L as [|x L IH]; simpl; [reflexivity|].
    rewrite app_length, (H x) by (simpl; auto). rewrite IH by (intros; apply H; simpl; auto). lia. }
  rewrite LE, Nat.mod_mul by lia. simpl Nat.eqb. cbn iota. rewrite Nat.div_mul by lia.
  rewrite E. f_equal. now apply chunks_concat.
Qed.

Lemma concat_flat_map {A B} (g : A -> list (list B)) l : concat (flat_map g l) = flat_map (fun x => concat (g x)) l.
Proof. induction l as [|x l IH]; simpl; [reflexivity|]. now rewrite concat_app, IH. Qed.

Lemma obs_rows_multi a s t n : s <> 0 -> a_shape a = [s; 1; t; n] ->
  rows_of_width s (transpose a) =
  Ok (flat_map (fun i => map (fun j => map (fun m => aget a [m; 0; j; i]) (seq 0 s)) (seq 0 t)) (seq 0 n)).
Proof.
  intros S0 E. apply rows_width_concat; [assumption| |].
  - rewrite (transpose_flat4 a s 1 t n E), concat_flat_map. apply flat_map_ext_in. intros i _.
    rewrite <- flat_map_concat. apply flat_map_ext_in. intros j _. simpl. now rewrite app_nil_r.
  - intros x Hx. apply in_flat_map in Hx. destruct Hx as (i & _ & Hx). apply in_map_iff in Hx.
    destruct Hx as (j & <- & _). now rewrite map_length, seq_length.
Qed.

Lemma obs_rows_uni a s t : s <> 0 -> a_shape a = [s; t; 1] ->
  rows_of_width s (transpose a) = Ok (map (fun j => map (fun m => aget a [m; j; 0]) (seq 0 s)) (seq 0 t)).
Proof.
  intros S0 E. apply rows_width_concat; [assumption| |].
  - rewrite (transpose_flat3 a s t 1 E). simpl. rewrite app_nil_r. now rewrite <- flat_map_concat.
  - intros x Hx. apply in_map_iff in Hx. destruct Hx as (j & <- & _). now rewrite map_length, seq_length.
Qed.

(** ** inverse scaling of a frame whose series all have a unit *)
Lemma inv_scale_units lv cols rows discrete s (c : path -> R) :
  (forall r, In r rows -> unit_of discrete s (r_path r) (c (r_path r))) ->
  (discrete = false -> (exists x, s = SFloat x) \/ (exists tab, s = STable tab)) ->
  (discrete = false -> forall tab, s = STable tab -> lv <> 0) ->
  inv_scale_y discrete s (mkFrame lv cols rows) =
  Ok (mkFrame lv cols (map (fun r => mkRow (r_path r) (r_time r) (map (fun v => v * c (r_path r))%R (r_vals r))) rows)).
Proof.
  intros H K L. destruct discrete.
  - simpl. do 2 f_equal. symmetry. apply map_rows_id. intros [p t v] Hr. specialize (H _ Hr). simpl in *. rewrite H.
    f_equal. rewrite <- (map_id v) at 2. apply map_ext. intros x. apply Rmult_1_r.
  - unfold inv_scale_y. rewrite (apply_scale_rows _ _ _ c); [reflexivity|exact H|now apply L|now apply K].
Qed.

Lemma unit_kind s p c : unit_of false s p c -> (exists x, s = SFloat x) \/ (exists tab, s = STable tab).
Proof. unfold unit_of. destruct s; simpl; try discriminate; eauto. Qed.

Lemma label_row_eta {V} (r : row V) p t : label r = (p, t) -> r = mkRow p t (r_vals r).
Proof. destruct r; unfold label; simpl. now intros [= -> ->]. Qed.

Lemma samples_multi lb times draws obs s n ids (c : path -> R) :
  lb_levels lb <> 0 -> lb_index lb <> [] ->
  ids = filter_series_tuples (lb_hier lb) (paths_unique (map fst (lb_index lb))) ->
  ids <> [] ->
  dict_get draws "obs" = Some obs -> s <> 0 -> a_shape obs = [s; 1; length times; n] -> n = length ids ->
  (forall p, In p ids -> unit_of (lb_discrete lb) (lb_scale lb) p (c p)) ->
  exists out, predict_samples_base lb times draws = Ok out /\
    f_levels out = lb_levels lb /\ f_cols out = map sample_name (seq 0 s) /\ sorted_index out /\
    f_rows out = key_sort label (draw_rows ids times c (fun i j => map (fun m => aget obs [m; 0; j; i]) (seq 0 s))).
Proof.
  intros HL NE Hids Hne Hobs S0 Hsh Hn HU.
  unfold predict_samples_base, dict_item. rewrite Hobs. cbn [bind]. rewrite Hsh.
  rewrite (obs_rows_multi obs s _ n S0 Hsh). cbn [bind]. rewrite multiindex_panel by assumption. cbn [bind].
  rewrite <- Hids. unfold frame_of.
  set (data := flat_map _ (seq 0 n)).
  set (index := flat_map _ ids).
  assert (EI : index = flat_map (fun i => map (fun j => (nth i ids [], nth j times 0%Z)) (seq 0 (length times))) (seq 0 n)).
  { unfold index. rewrite (flat_map_nth_seq _ ids []), <- Hn. apply flat_map_ext_in. intros i _.
    apply (map_nth_seq (fun t => (nth i ids [], t)) times 0%Z). }
  assert (EL : length index = length data).
  { rewrite EI. unfold data. rewrite !(flat_map_length_uniform _ (length times)); [reflexivity| |];
      intros; now rewrite map_length, seq_length. }
  rewrite EL, Nat.eqb_refl. cbn [bind].
  assert (EC : map (fun lr => mkRow (fst (fst lr)) (snd (fst lr)) (snd lr)) (combine index data) =
     flat_map (fun i => map (fun j => mkRow (nth i ids []) (nth j times 0%Z) (map (fun m => aget obs [m; 0; j; i]) (seq 0 s)))
        (seq 0 (length times))) (seq 0 n)).
  { rewrite EI. unfold data. rewrite combine_flat_map by (intros; now rewrite !map_length).
    rewrite map_flat_map. apply flat_map_ext_in. intros i _. rewrite combine_map_same, map_map. reflexivity. }
  rewrite EC. unfold sort_index. cbn [f_levels f_cols f_rows].
  rewrite (inv_scale_units _ _ _ _ _ c).
  - eexists. split; [reflexivity|]. cbn [f_levels f_cols f_rows]. repeat split.
    + unfold sorted_index, labels. cbn [f_rows]. rewrite map_map. simpl.
      apply (key_sorted_strong label). apply key_sort_sorted.
    + rewrite (key_sort_map label label) by (intros []; reflexivity). f_equal.
      unfold draw_rows. rewrite map_flat_map, <- Hn. apply flat_map_ext_in. intros i _. rewrite map_map. reflexivity.
  - intros r Hr. apply key_sort_In in Hr. apply in_flat_map in Hr. destruct Hr as (i & Hi & Hr).
    apply in_map_iff in Hr. destruct Hr as (j & <- & _). simpl. apply HU, nth_In. apply in_seq in Hi. lia.
  - intros D. destruct ids as [|p0 ps]; [congruence|]. specialize (HU p0 (or_introl eq_refl)). rewrite D in HU.
    exact (unit_kind _ _ _ HU).
  - intros; assumption.
Qed.

Lemma samples_uni lb times draws obs s (c : R) :
  lb_levels lb = 0 ->
  dict_get draws "obs" = Some obs -> s <> 0 -> a_shape obs = [s; length times; 1] ->
  (lb_discrete lb = true /\ c = 1%R \/ lb_discrete lb = false /\ lb_scale lb = SFloat c) ->
  exists out, predict_samples_base lb times draws = Ok out /\
    f_levels out = 0 /\ f_cols out = map sample_name (seq 0 s) /\ sorted_index out /\
    f_rows out = key_sort label (draw_rows [[]] times (fun _ => c) (fun i j => map (fun m => aget obs [m; j; 0]) (seq 0 s))).
Proof.
  intros HL Hobs S0 Hsh HU.
  unfold predict_samples_base, dict_item. rewrite Hobs. cbn [bind]. rewrite Hsh.
  rewrite (obs_rows_uni obs s _ S0 Hsh). cbn [bind].
  unfold periodindex_to_multiindex. rewrite HL. cbn [bind]. unfold frame_of.
  rewrite !map_length, seq_length, Nat.eqb_refl. cbn [bind].
  rewrite (map_nth_seq (fun t => ([], t)) times 0%Z), combine_map_same, map_map. simpl.
  unfold sort_index. cbn [f_levels f_cols f_rows].
  rewrite (inv_scale_units _ _ _ _ _ (fun _ => c)).
  - eexists. split; [reflexivity|]. cbn [f_levels f_cols f_rows]. repeat split.
    + unfold sorted_index, labels. cbn [f_rows]. rewrite map_map. simpl.
      apply (key_sorted_strong label). apply key_sort_sorted.
    + rewrite (key_sort_map label label) by (intros []; reflexivity). f_equal.
      unfold draw_rows. simpl. rewrite app_nil_r, map_map. reflexivity.
  - intros r Hr. destruct HU as [[-> ->]|[-> ->]]; reflexivity.
  - intros D. destruct HU as [[D' _]|[_ ->]]; [congruence|eauto].
  - intros D tab E. destruct HU as [[D' _]|[_ E']]; congruence.
Qed.

(** ** coherence of aggregated samples *)
Lemma apply_scale_labels op d s y ys : frame_wf y -> apply_scale op d s y = Ok ys ->
  labels ys = labels y /\ f_levels ys = f_levels y /\ f_cols ys = f_cols y /\ frame_wf ys.
Proof.
  intros W H. destruct d; [injection H as <-; auto|].
  destruct (apply_scale_ok_inv _ _ _ _ H) as [[c ->]|[(tab & -> & HL & HT)|[tab ->]]].
  - injection H as <-. unfold labels, map_vals. simpl. rewrite map_map. repeat split.
    + simpl in H. apply in_map_iff in H. destruct H as (r0 & <- & Hr). simpl. rewrite map_length. apply W, Hr.
    + simpl in H. apply in_map_iff in H. destruct H as (r0 & <- & Hr). simpl. apply W, Hr.
  - set (c := fun p => match tab_get tab p with Some c => c | None => 1%R end).
    rewrite (apply_scale_rows _ _ _ c) in H.
    + injection H as <-. unfold labels, scale_rows. simpl. rewrite map_map. repeat split.
      * simpl in H. apply in_map_iff in H. destruct H as (r0 & <- & Hr). simpl. rewrite map_length. apply W, Hr.
      * simpl in H. apply in_map_iff in H. destruct H as (r0 & <- & Hr). simpl. apply W, Hr.
    + intros r Hr. simpl. unfold c. specialize (HT r Hr). destruct (tab_get tab (r_path r)); congruence.
    + intros; assumption.
    + eauto.
  - simpl in H. destruct (scale_for_each_obs tab y) as [cs|e]; [|discriminate]. simpl in H. unfold by_column in H.
    destruct (Nat.eqb_spec (length cs) (length (f_cols y))) as [E|E]; [|discriminate]. injection H as <-.
    unfold labels, map_vals. simpl. rewrite map_map. repeat split.
    + simpl in H. apply in_map_iff in H. destruct H as (r0 & <- & Hr). simpl. rewrite map_length, combine_length.
      destruct (W r0 Hr). lia.
    + simpl in H. apply in_map_iff in H. destruct H as (r0 & <- & Hr). simpl. apply W, Hr.
Qed.

Lemma chunks_width {A} k (l : list A) x : In x (chunks k (length l / k) l) -> k <> 0 -> length x = k.
Proof.
  intros H N. unfold chunks in H. apply in_map_iff in H. destruct H as (i & <- & Hi). apply in_seq in Hi.
  rewrite firstn_length, skipn_length. pose proof (Nat.mul_div_le (length l) k N). nia.
Qed.

Lemma combine_fst {A B} (l : list A) (m : list B) : length l = length m -> map fst (combine l m) = l.
Proof.
  revert m. induction l as [|x l IH]; intros [|y m] H; simpl in *; try discriminate; [reflexivity|]. f_equal. apply IH. lia.
Qed.

Lemma key_sort_labels {V} (l : list (row V)) : Permutation (map label l) (map label (key_sort label l)).
Proof. apply Permutation_map, key_sort_perm. Qed.

(** the labels of the sample frame are those of the product index *)
Lemma samples_labels lb times draws s : predict_samples_base lb times draws = Ok s ->
  (forall l, In l (lb_index lb) -> length (fst l) = lb_levels lb) ->
  exists index, periodindex_to_multiindex lb times = Ok index /\
    frame_wf s /\ f_levels s = lb_levels lb /\ Permutation index (map label (f_rows s)).
Proof.
  unfold predict_samples_base. intros H HI.
  destruct (dict_item draws "obs") as [obs|]; [|discriminate]. cbn [bind] in H.
  destruct (a_shape obs) as [|n sh]; [discriminate|].
  destruct (rows_of_width n (transpose obs)) as [data|] eqn:ED; [|discriminate]. cbn [bind] in H.
  destruct (periodindex_to_multiindex lb times) as [index|] eqn:EI; [|discriminate]. cbn [bind] in H.
  unfold frame_of in H. destruct (Nat.eqb_spec (length index) (length data)) as [EL|]; [|discriminate]. cbn [bind] in H.
  exists index. split; [reflexivity|].
  assert (HW : forall x, In x data -> length x = n).
  { intros x Hx. unfold rows_of_width in ED. destruct n as [|n]; [discriminate|].
    destruct (Nat.eqb _ 0); [|discriminate]. injection ED as <-.
    exact (chunks_width (S n) (a_flat (transpose obs)) x Hx ltac:(congruence)). }
  assert (HIx : forall l, In l index -> length (fst l) = lb_levels lb).
  { intros l Hl. unfold periodindex_to_multiindex in EI. destruct (lb_levels lb) as [|k] eqn:EK.
    - injection EI as <-. apply in_map_iff in Hl. destruct Hl as (t & <- & _). reflexivity.
    - destruct (paths_unique (map fst (lb_index lb))) as [|p ps] eqn:EP; [discriminate|]. injection EI as <-.
      apply in_flat_map in Hl. destruct Hl as (q & Hq & Hl). apply in_map_iff in Hl. destruct Hl as (t & <- & _). simpl.
      assert (Hq' : In q (p :: ps)).
      { unfold filter_series_tuples in Hq. destruct (lb_hier lb); [apply filter_In in Hq; apply Hq|exact Hq]. }
      rewrite <- EP in Hq'. rewrite paths_unique_In, in_map_iff in Hq'. destruct Hq' as (l & <- & Hl). now apply HI. }
  set (pre := mkFrame (lb_levels lb) (map sample_name (seq 0 n))
          (map (fun lr => mkRow (fst (fst lr)) (snd (fst lr)) (snd lr)) (combine index data))) in H.
  assert (W : frame_wf (sort_index pre)).
  { intros r Hr. simpl in Hr. apply key_sort_In in Hr. apply in_map_iff in Hr. destruct Hr as ([l x] & <- & Hr).
    simpl. pose proof (in_combine_l _ _ _ _ Hr). pose proof (in_combine_r _ _ _ _ Hr).
    rewrite map_length, seq_length. auto. }
  destruct (apply_scale_labels _ _ _ _ _ W H) as (E1 & E2 & E3 & E4).
  split; [assumption|]. split; [rewrite E2; reflexivity|].
  change (map label (f_rows s)) with (labels s). rewrite E1.
  change (labels (sort_index pre)) with (map label (key_sort label (f_rows pre))).
  rewrite <- key_sort_labels. simpl. rewrite map_map.
  rewrite <- (combine_fst index data EL) at 1. apply Permutation_refl'. apply map_ext. intros [[p t] x]. reflexivity.
Qed.

Lemma multiindex_NoDup lb times index : NoDup times -> periodindex_to_multiindex lb times = Ok index -> NoDup index.
Proof.
  intros ND. unfold periodindex_to_multiindex. destruct (lb_levels lb).
  - intros [= <-]. apply FinFun.Injective_map_NoDup; [intros a b E; congruence|assumption].
  - destruct (paths_unique (map fst (lb_index lb))) as [|p ps] eqn:EP; [discriminate|]. intros [= <-].
    assert (N : NoDup (p :: ps)) by (rewrite <- EP; apply paths_unique_NoDup).
    apply NoDup_flat_map.
    + unfold filter_series_tuples. destruct (lb_hier lb); [now apply NoDup_filter|assumption].
    + intros q _. apply FinFun.Injective_map_NoDup; [intros a b E; congruence|assumption].
    + intros x y z _ _ Hx Hy. apply in_map_iff in Hx. apply in_map_iff in Hy.
      destruct Hx as (a & <- & _), Hy as (b & E & _). congruence.
Qed.

Lemma NoDup_map_inj {A B} (g : A -> B) l : NoDup (map g l) -> NoDup l /\ forall x y, In x l -> In y l -> g x = g y -> x = y.
Proof.
  induction l as [|a l IH]; simpl; intros H; [split; [constructor|contradiction]|]. inversion H; subst.
  destruct (IH H3) as [I1 I2]. split.
  - constructor; [|assumption]. intros X. apply H2. now apply in_map.
  - intros x y [->|Hx] [->|Hy] E; auto.
    + exfalso. apply H2. rewrite E. now apply in_map.
    + exfalso. apply H2. rewrite <- E. now apply in_map.
Qed.

Lemma predict_samples_coherent keep lb times draws out : lb_hier lb = true -> lb_levels lb <> 0 ->
  (forall l, In l (lb_index lb) -> length (fst l) = lb_levels lb) -> NoDup times ->
  predict_samples keep lb times draws = Ok out -> coherent out /\ frame_wf out.
Proof.
  intros Hh HL HI ND H. unfold predict_samples in H.
  destruct (predict_samples_base lb times draws) as [s|] eqn:E; [|discriminate]. cbn [bind] in H. rewrite Hh in H.
  injection H as <-. destruct (samples_labels _ _ _ _ E HI) as (index & EI & W & Lv & P).
  assert (N : NoDup (map label (f_rows s))) by (eapply Permutation_NoDup; [exact P|eapply multiindex_NoDup; eauto]).
  apply NoDup_map_inj in N. destruct N as [N1 N2].
  split; [apply aggregate_coherent|apply aggregate_wf]; try assumption; congruence.
Qed.

Lemma Rsum_nth_seq v : Rsum v = Rsum (map (fun j => nth j v 0%R) (seq 0 (length v))).
Proof. rewrite <- (map_nth_seq (fun x => x) v 0%R), map_id. reflexivity. Qed.

Lemma Rsum_swap {A} (f : A -> nat -> R) (l : list A) n :
  Rsum (map (fun j => Rsum (map (fun a => f a j) l)) (seq 0 n)) = Rsum (map (fun a => Rsum (map (f a) (seq 0 n))) l).
Proof.
  induction l as [|a l IH]; simpl.
  - induction (seq 0 n) as [|x s IHs]; simpl; [reflexivity|]. rewrite IHs. lra.
  - rewrite (Rsum_map_plus (f a) (fun j => Rsum (map (fun a => f a j) l))), IH. reflexivity.
Qed.

Lemma map_filter_comm {A B} (g : A -> B) (p : B -> bool) l : filter p (map g l) = map g (filter (fun x => p (g x)) l).
Proof. induction l as [|x l IH]; simpl; [reflexivity|]. destruct (p (g x)); simpl; now rewrite IH. Qed.

Lemma point_forecast_coherent tgt f : frame_wf f -> coherent f -> coherent (point_forecast tgt f).
Proof.
  intros W C r j Hr Hj. simpl in Hj. assert (j = 0) by lia. subst j.
  simpl in Hr. apply in_map_iff in Hr. destruct Hr as (r0 & <- & Hr0). simpl.
  unfold bottom_sum. simpl. rewrite map_filter_comm, map_map. simpl.
  set (l := filter (fun x : row R => (is_bottom (r_path x) && under (r_path r0) (r_path x) && Z.eqb (r_time x) (r_time r0))%bool) (f_rows f)).
  assert (Hl : forall b, In b l -> length (r_vals b) = length (f_cols f)) by (intros b Hb; apply filter_In in Hb; apply W, Hb).
  assert (L0 : length (r_vals r0) = length (f_cols f)) by now apply W.
  assert (E : Rsum (r_vals r0) = Rsum (map (fun b => Rsum (r_vals b)) l)).
  { rewrite Rsum_nth_seq, L0.
    rewrite (map_ext_in _ (fun j => Rsum (map (fun b => nth j (r_vals b) 0%R) l))).
    - rewrite (Rsum_swap (fun b j => nth j (r_vals b) 0%R)). f_equal. apply map_ext_in. intros b Hb.
      rewrite (Rsum_nth_seq (r_vals b)), (Hl b Hb). reflexivity.
    - intros j Hj'. apply in_seq in Hj'. apply (C r0 j Hr0). lia. }
  unfold Rmean. rewrite E, L0. clear -Hl. induction l as [|b l IH]; simpl; [unfold Rdiv; lra|].
  rewrite <- IH by (intros; apply Hl; simpl; auto). rewrite (Hl b) by (simpl; auto). unfold Rdiv. lra.
Qed.

(** ** all sites *)
Lemma mapM_mean0 (draws : dict arr) : (forall kv, In kv draws -> a_shape (snd kv) <> []) ->
  exists sites, mapM (fun kv => m <- mean0 (snd kv) ;; Ok (fst kv, flatten m)) draws = Ok sites /\
    sites = map (fun kv => (fst kv,
       map (fun j => Rmean (map (fun s => nth (s * prod_shape (tl (a_shape (snd kv))) + j) (a_flat (snd kv)) 0%R) (seq 0 (hd 0 (a_shape (snd kv))))))
           (seq 0 (prod_shape (tl (a_shape (snd kv))))))) draws.
Proof.
  intros H. eexists. split; [|reflexivity]. apply mapM_map. intros kv Hkv. specialize (H kv Hkv).
  unfold mean0. destruct (a_shape (snd kv)); [congruence|]. reflexivity.
Qed.

Lemma div_block i j T : j < T -> (i * T + j) / T = i /\ (i * T + j) mod T = j.
Proof.
  intros H. split.
  - rewrite Nat.add_comm, Nat.div_add by lia. rewrite Nat.div_small by assumption. reflexivity.
  - rewrite Nat.add_comm, Nat.mod_add by lia. now apply Nat.mod_small.
Qed.

Lemma seq_blocks {A} (g : nat -> A) N T :
  map g (seq 0 (N * T)) = flat_map (fun i => map (fun j => g (i * T + j)) (seq 0 T)) (seq 0 N).
Proof.
  induction N as [|N IH]; [reflexivity|].
  replace (S N * T) with (N * T + T) by lia. rewrite seq_app, map_app, IH.
  rewrite seq_S, flat_map_app. simpl. rewrite app_nil_r. f_equal.
  rewrite (map_nth_seq g (seq (N * T) T) 0), seq_length. apply map_ext_in. intros j Hj. apply in_seq in Hj.
  rewrite seq_nth by lia. reflexivity.
Qed.

Lemma nth_flat_blocks {A} (g : nat -> nat -> A) N T i j d : i < N -> j < T ->
  nth (i * T + j) (flat_map (fun i => map (g i) (seq 0 T)) (seq 0 N)) d = g i j.
Proof.
  intros Hi Hj.
  assert (E : flat_map (fun i => map (g i) (seq 0 T)) (seq 0 N) = map (fun q => g (q / T) (q mod T)) (seq 0 (N * T))).
  { rewrite seq_blocks. apply flat_map_ext_in. intros a _. apply map_ext_in. intros b Hb. apply in_seq in Hb.
    destruct (div_block a b T) as [-> ->]; [lia|reflexivity]. }
  rewrite E. rewrite nth_map_seq by nia. destruct (div_block i j T Hj) as [-> ->]. reflexivity.
Qed.

Lemma multiindex_blocks lb times : (lb_levels lb <> 0 -> lb_index lb <> []) ->
  periodindex_to_multiindex lb times =
  Ok (flat_map (fun i => map (fun j => (nth i (index_series lb) [], nth j times 0%Z)) (seq 0 (length times)))
        (seq 0 (length (index_series lb)))).
Proof.
  intros NE. unfold index_series. destruct (lb_levels lb) eqn:EL.
  - unfold periodindex_to_multiindex. rewrite EL. simpl. rewrite app_nil_r. f_equal. apply map_nth_seq.
  - rewrite multiindex_panel by (try apply NE; congruence). apply (f_equal Ok).
    rewrite (flat_map_nth_seq _ _ ([] : path)). apply flat_map_ext_in. intros i _.
    apply (map_nth_seq (fun t => (nth i (filter_series_tuples (lb_hier lb) (paths_unique (map fst (lb_index lb)))) [], t)) times 0%Z).
Qed.

Lemma all_sites_rows lb times draws (c : path -> R) :
  (lb_levels lb <> 0 -> lb_index lb <> []) -> index_series lb <> [] ->
  (forall kv, In kv draws -> a_shape (snd kv) <> [] /\
      prod_shape (tl (a_shape (snd kv))) = length (index_series lb) * length times) ->
  (forall p, In p (index_series lb) -> unit_of (lb_discrete lb) (lb_scale lb) p (c p)) ->
  (lb_levels lb = 0 -> forall tab, lb_scale lb <> STable tab) ->
  exists out, predict_all_sites lb times draws = Ok out /\ f_levels out = lb_levels lb /\ f_cols out = map fst draws /\
    sorted_index out /\
    f_rows out = key_sort label (draw_rows (index_series lb) times c
        (fun i j => map (fun kv => site_mean (snd kv) (i * length times + j)) draws)).
Proof.
  intros NE Hne HD HU HT. unfold predict_all_sites.
  destruct (mapM_mean0 draws) as (sites & Em & Es); [intros kv Hkv; apply (HD kv Hkv)|].
  rewrite Em. cbn [bind]. rewrite multiindex_blocks by assumption. cbn [bind].
  set (N := length (index_series lb)) in *. set (T := length times) in *.
  set (index := flat_map _ (seq 0 N)).
  assert (LI : length index = N * T).
  { unfold index. rewrite (flat_map_length_uniform _ T), seq_length; [reflexivity|]. intros; now rewrite map_length, seq_length. }
  assert (LS : forallb (fun s : string * list R => Nat.eqb (length (snd s)) (length index)) sites = true).
  { apply forallb_forall. intros s Hs. rewrite Es in Hs. apply in_map_iff in Hs. destruct Hs as (kv & <- & Hkv).
    simpl. rewrite map_length, seq_length, LI. apply Nat.eqb_eq, HD, Hkv. }
  rewrite LS, LI. unfold sort_index. cbn [f_levels f_cols f_rows].
  assert (ER : map (fun i => mkRow (fst (nth i index ([], 0%Z))) (snd (nth i index ([], 0%Z))) (map (fun s => nth i (snd s) 0%R) sites)) (seq 0 (N * T))
     = flat_map (fun i => map (fun j => mkRow (nth i (index_series lb) []) (nth j times 0%Z)
          (map (fun kv => site_mean (snd kv) (i * T + j)) draws)) (seq 0 T)) (seq 0 N)).
  { rewrite seq_blocks. apply flat_map_ext_in. intros i Hi. apply in_seq in Hi. apply map_ext_in. intros j Hj. apply in_seq in Hj.
    unfold index. rewrite (nth_flat_blocks (fun i j => (nth i (index_series lb) [], nth j times 0%Z))) by lia. simpl. f_equal.
    rewrite Es, map_map. apply map_ext_in. intros kv Hkv. simpl.
    destruct (HD kv Hkv) as [_ HP]. rewrite nth_map_seq by (rewrite HP; nia). reflexivity. }
  rewrite ER. rewrite (inv_scale_units _ _ _ _ _ c).
  - eexists. split; [reflexivity|]. cbn [f_levels f_cols f_rows]. repeat split.
    + rewrite Es, map_map. reflexivity.
    + unfold sorted_index, labels. cbn [f_rows]. rewrite map_map. simpl. apply (key_sorted_strong label), key_sort_sorted.
    + rewrite (key_sort_map label label) by (intros []; reflexivity). f_equal.
      unfold draw_rows. rewrite map_flat_map. apply flat_map_ext_in. intros i _. rewrite map_map. reflexivity.
  - intros r Hr. apply key_sort_In in Hr. apply in_flat_map in Hr. destruct Hr as (i & Hi & Hr).
    apply in_map_iff in Hr. destruct Hr as (j & <- & _). simpl. apply HU, nth_In. apply in_seq in Hi. lia.
  - intros D. destruct (index_series lb) as [|p0 ps]; [congruence|]. specialize (HU p0 (or_introl eq_refl)). rewrite D in HU.
    exact (unit_kind _ _ _ HU).
  - intros D tab E E0. exact (HT E0 tab E).
Qed.

(** layout of the sites *)
Lemma site_mean_series_major a s n t i j : a_shape a = [s; n; t; 1] -> i < n -> j < t ->
  site_mean a (i * t + j) = Rmean (map (fun m => aget a [m; i; j; 0]) (seq 0 s)).
Proof.
  intros E Hi Hj. unfold site_mean. rewrite E. cbn [hd tl]. f_equal. apply map_ext_in. intros m Hm.
  unfold aget. rewrite E. f_equal. simpl. nia.
Qed.

Lemma site_mean_uni a s t j : a_shape a = [s; t; 1] ->
  site_mean a j = Rmean (map (fun m => aget a [m; j; 0]) (seq 0 s)).
Proof.
  intros E. unfold site_mean. rewrite E. cbn [hd tl]. f_equal. apply map_ext_in. intros m Hm.
  unfold aget. rewrite E. f_equal. simpl. nia.
Qed.

Lemma site_mean_obs a s n t q : a_shape a = [s; 1; t; n] -> n <> 0 ->
  site_mean a q = Rmean (map (fun m => aget a [m; 0; q / n; q mod n]) (seq 0 s)).
Proof.
  intros E N. unfold site_mean. rewrite E. cbn [hd tl]. f_equal. apply map_ext_in. intros m Hm.
  unfold aget. rewrite E. f_equal. simpl. pose proof (Nat.div_mod q n N). nia.
Qed.

(** ** samples of all sites *)
Lemma all_sites_samples_rows lb times draws S :
  (lb_levels lb <> 0 -> lb_index lb <> []) -> draws <> [] ->
  (forall kv, In kv draws -> arr_wf (snd kv) /\ hd_error (a_shape (snd kv)) = Some S /\
      prod_shape (tl (a_shape (snd kv))) = length (index_series lb) * length times) ->
  predict_all_sites_samples lb times draws = Ok (map fst draws,
    flat_map (fun s => flat_map (fun i => map (fun j =>
      mkSR s (nth i (index_series lb) []) (nth j times 0%Z)
        (map (fun kv => nth (s * (length (index_series lb) * length times) + (i * length times + j)) (a_flat (snd kv)) 0%R) draws))
      (seq 0 (length times))) (seq 0 (length (index_series lb)))) (seq 0 S)).
Proof.
  intros NE ND HD. unfold predict_all_sites_samples. rewrite multiindex_blocks by assumption. cbn [bind].
  set (N := length (index_series lb)) in *. set (T := length times) in *.
  set (index := flat_map _ (seq 0 N)).
  assert (LI : length index = N * T).
  { unfold index. rewrite (flat_map_length_uniform _ T), seq_length; [reflexivity|]. intros; now rewrite map_length, seq_length. }
  destruct draws as [|[k0 a0] ds] eqn:Ed; [congruence|]. rewrite <- Ed in *.
  assert (H0 : In (k0, a0) draws) by (rewrite Ed; simpl; auto).
  destruct (HD _ H0) as (_ & Hh & _). simpl in Hh. destruct (a_shape a0) as [|s sh]; [discriminate|].
  simpl in Hh. injection Hh as ->.
  assert (LS : forallb (fun kv : string * arr => match a_shape (snd kv) with m :: _ => Nat.eqb m S | [] => false end
                                && Nat.eqb (length (a_flat (snd kv))) (S * length index))%bool draws = true).
  { apply forallb_forall. intros kv Hkv. destruct (HD kv Hkv) as (W & Hs & HP). unfold arr_wf in W.
    destruct (a_shape (snd kv)) as [|m sh']; [discriminate|]. simpl in Hs. injection Hs as ->. simpl in *.
    rewrite Nat.eqb_refl, W, HP, LI, Nat.eqb_refl. reflexivity. }
  rewrite LS, LI. do 2 f_equal. apply flat_map_ext_in. intros s _. rewrite seq_blocks.
  apply flat_map_ext_in. intros i Hi. apply in_seq in Hi. apply map_ext_in. intros j Hj. apply in_seq in Hj.
  unfold index. rewrite (nth_flat_blocks (fun i j => (nth i (index_series lb) [], nth j times 0%Z))) by lia. reflexivity.
Qed.

(** ** the two views of all sites *)
Lemma filter_unique_key {A} (key : A -> path * Z) l x : NoDup (map key l) -> In x l ->
  filter (fun y => path_eqb (fst (key y)) (fst (key x)) && Z.eqb (snd (key y)) (snd (key x)))%bool l = [x].
Proof.
  induction l as [|y l IH]; [contradiction|]. simpl. intros ND Hx. inversion ND; subst.
  assert (K : forall z, (path_eqb (fst (key z)) (fst (key x)) && Z.eqb (snd (key z)) (snd (key x)))%bool = true <-> key z = key x).
  { intros z. rewrite andb_true_iff, path_eqb_eq, Z.eqb_eq. destruct (key z), (key x). simpl. split; [intros [-> ->]; reflexivity|intros [= -> ->]; auto]. }
  destruct Hx as [->|Hx].
  - rewrite path_eqb_refl, Z.eqb_refl. simpl. f_equal. apply filter_none. intros z Hz.
    destruct ((path_eqb _ _ && Z.eqb _ _)%bool) eqn:E; [|reflexivity]. apply K in E. exfalso. apply H1. rewrite <- E. now apply in_map.
  - rewrite IH by assumption. destruct ((path_eqb (fst (key y)) _ && Z.eqb _ _)%bool) eqn:E; [|reflexivity].
    apply K in E. exfalso. apply H1. rewrite E. now apply in_map.
Qed.

Lemma block_labels_NoDup ids times : NoDup ids -> NoDup times ->
  NoDup (flat_map (fun i => map (fun j => (nth i ids ([] : path), nth j times 0%Z)) (seq 0 (length times))) (seq 0 (length ids))).
Proof.
  intros N1 N2.
  replace (flat_map _ _) with (flat_map (fun p => map (fun t => (p, t)) times) ids).
  - apply NoDup_flat_map; [assumption| |].
    + intros q _. apply FinFun.Injective_map_NoDup; [intros a b E; congruence|assumption].
    + intros x y z _ _ Hx Hy. apply in_map_iff in Hx. apply in_map_iff in Hy.
      destruct Hx as (a & <- & _), Hy as (b & E & _). congruence.
  - rewrite (flat_map_nth_seq _ ids ([] : path)). apply flat_map_ext_in. intros i _.
    apply (map_nth_seq (fun t => (nth i ids [], t)) times 0%Z).
Qed.

Lemma filter_flat_map {A B} (p : B -> bool) (g : A -> list B) l : filter p (flat_map g l) = flat_map (fun x => filter p (g x)) l.
Proof. induction l as [|x l IH]; simpl; [reflexivity|]. now rewrite filter_app, IH. Qed.

Lemma index_series_NoDup lb : NoDup (index_series lb).
Proof.
  unfold index_series. destruct (lb_levels lb); [repeat constructor; simpl; tauto|].
  unfold filter_series_tuples. destruct (lb_hier lb); [apply NoDup_filter|]; apply paths_unique_NoDup.
Qed.

Lemma sites_vs_samples lb times draws S (c : path -> R) :
  (lb_levels lb <> 0 -> lb_index lb <> []) -> index_series lb <> [] -> NoDup times -> draws <> [] ->
  (forall kv, In kv draws -> arr_wf (snd kv) /\ hd_error (a_shape (snd kv)) = Some S /\
      prod_shape (tl (a_shape (snd kv))) = length (index_series lb) * length times) ->
  (forall p, In p (index_series lb) -> unit_of (lb_discrete lb) (lb_scale lb) p (c p)) ->
  (lb_levels lb = 0 -> forall tab, lb_scale lb <> STable tab) ->
  exists means samples,
    predict_all_sites lb times draws = Ok means /\
    predict_all_sites_samples lb times draws = Ok (f_cols means, samples) /\
    forall r k, In r (f_rows means) -> k < length (f_cols means) ->
      nth k (r_vals r) 0%R =
      (Rmean (map (fun sr => nth k (sr_vals sr) 0%R)
         (filter (fun sr => path_eqb (sr_path sr) (r_path r) && Z.eqb (sr_time sr) (r_time r))%bool samples)) * c (r_path r))%R.
Proof.
  intros NE Hne ND HN HD HU HT.
  destruct (all_sites_rows lb times draws c NE Hne) as (out & Eo & _ & Ec & _ & Er); try assumption.
  { intros kv Hkv. destruct (HD kv Hkv) as (_ & Hh & HP). split; [destruct (a_shape (snd kv)); [discriminate|congruence]|assumption]. }
  exists out. eexists. split; [assumption|]. rewrite Ec. split; [apply (all_sites_samples_rows lb times draws S); assumption|].
  intros r k Hr Hk. rewrite map_length in Hk.
  rewrite Er in Hr. apply key_sort_In in Hr. unfold draw_rows in Hr. apply in_flat_map in Hr.
  destruct Hr as (i & Hi & Hr). apply in_map_iff in Hr. destruct Hr as (j & <- & Hj). cbn [r_vals r_path r_time].
  set (N := length (index_series lb)) in *. set (T := length times) in *.
  apply in_seq in Hi. apply in_seq in Hj.
  rewrite filter_flat_map.
  assert (EF : forall s, filter (fun sr => path_eqb (sr_path sr) (nth i (index_series lb) []) && Z.eqb (sr_time sr) (nth j times 0%Z))%bool
     (flat_map (fun i => map (fun j => mkSR s (nth i (index_series lb) []) (nth j times 0%Z)
        (map (fun kv => nth (s * (N * T) + (i * T + j)) (a_flat (snd kv)) 0%R) draws)) (seq 0 T)) (seq 0 N))
     = [mkSR s (nth i (index_series lb) []) (nth j times 0%Z) (map (fun kv => nth (s * (N * T) + (i * T + j)) (a_flat (snd kv)) 0%R) draws)]).
  { intros s. apply (filter_unique_key (fun sr => (sr_path sr, sr_time sr)) _
       (mkSR s (nth i (index_series lb) []) (nth j times 0%Z) (map (fun kv => nth (s * (N * T) + (i * T + j)) (a_flat (snd kv)) 0%R) draws))).
    - rewrite map_flat_map.
      rewrite (flat_map_ext_in _ (fun i => map (fun j => (nth i (index_series lb) ([] : path), nth j times 0%Z)) (seq 0 T))).
      + apply block_labels_NoDup; [apply index_series_NoDup|assumption].
      + intros a _. rewrite map_map. reflexivity.
    - apply in_flat_map. exists i. split; [apply in_seq; lia|]. apply in_map_iff. exists j. split; [reflexivity|apply in_seq; lia]. }
  rewrite (flat_map_ext_in _ _ _ (fun s _ => EF s)).
  rewrite flat_map_singleton, map_map. cbn [sr_vals].
  rewrite map_map. set (d := ("", mkArr [] []) : string * arr).
  rewrite (nth_indep _ 0%R ((fun kv => site_mean (snd kv) (i * T + j) * c (nth i (index_series lb) []))%R d)) by (now rewrite map_length).
  rewrite (map_nth (fun kv => site_mean (snd kv) (i * T + j) * c (nth i (index_series lb) []))%R).
  f_equal. unfold site_mean. destruct (HD (nth k draws d)) as (_ & Hh & HP); [now apply nth_In|].
  destruct (a_shape (snd (nth k draws d))) as [|s0 sh] eqn:Esh; [discriminate|]. simpl in Hh. injection Hh as ->.
  cbn [hd tl] in *. rewrite HP. f_equal. apply map_ext. intros s.
  set (g := fun kv : string * arr => nth (s * (N * T) + (i * T + j)) (a_flat (snd kv)) 0%R).
  transitivity (g (nth k draws d)); [reflexivity|]. symmetry.
  rewrite <- (map_nth g draws d k). apply nth_indep. now rewrite map_length.
Qed.
