(** Closing lemmas for the prediction frame properties. *)
From Coq Require Import Reals Lra String Bool ZArith Lia List Arith Permutation Sorted.
From Verif.Model Require Import Base Num Arr Frame Aggregate Scale Predict.
From Verif.Spec Require Import FrameSpec ScaleSpec PredictSpec.
From Verif.Facts Require Import BaseFacts NumFacts OrderFacts FrameFacts ScaleFacts ArrFacts PredictFacts QuantileFacts PanelExamples FrameProps.
Import ListNotations.
Local Open Scope string_scope.

Lemma draw_rows_In ids times c draw r : In r (draw_rows ids times c draw) <->
  exists i j, i < length ids /\ j < length times /\
    r = mkRow (nth i ids []) (nth j times 0%Z) (map (fun v => v * c (nth i ids []))%R (draw i j)).
Proof.
  unfold draw_rows. rewrite in_flat_map. split.
  - intros (i & Hi & H). apply in_map_iff in H. destruct H as (j & <- & Hj). apply in_seq in Hi, Hj. exists i, j. repeat split; lia.
  - intros (i & j & Hi & Hj & ->). exists i. split; [apply in_seq; lia|]. apply in_map_iff. exists j. split; [reflexivity|apply in_seq; lia].
Qed.

Lemma index_series_panel lb : lb_levels lb <> 0 ->
  index_series lb = filter_series_tuples (lb_hier lb) (paths_unique (map fst (lb_index lb))).
Proof. unfold index_series. destruct (lb_levels lb); congruence. Qed.

Lemma aggregate_bottom_only keep (f : frame R) b : frame_wf f -> f_levels f <> 0 ->
  In b (f_rows (aggregate keep f)) -> no_total (r_path b) = true -> In b (f_rows f).
Proof.
  intros W L Hb N. rewrite aggregate_eq in Hb by assumption. cbn [f_rows] in Hb.
  apply (proj1 (key_sort_In label _ _)) in Hb. apply in_app_iff in Hb. destruct Hb as [Hb|Hb].
  - apply agg_path in Hb; [|assumption..]. destruct Hb as (_ & Hb & _). congruence.
  - apply filter_In in Hb. tauto.
Qed.

(** ** C51 *)
Lemma c51 keep target lb times draws out : lb_hier lb = true -> lb_levels lb <> 0 ->
  (forall l, In l (lb_index lb) -> length (fst l) = lb_levels lb) -> NoDup times ->
  predict_samples keep lb times draws = Ok out -> coherent out /\ coherent (point_forecast target out).
Proof.
  intros H1 H2 H3 H4 H. destruct (predict_samples_coherent _ _ _ _ _ H1 H2 H3 H4 H) as [C W].
  split; [assumption|]. now apply point_forecast_coherent.
Qed.

Lemma c51_complete keep lb times draws out b k : lb_hier lb = true -> lb_levels lb <> 0 ->
  (forall l, In l (lb_index lb) -> length (fst l) = lb_levels lb) ->
  predict_samples keep lb times draws = Ok out ->
  In b (f_rows out) -> is_bottom (r_path b) = true -> k < lb_levels lb ->
  keep (firstn k (r_path b) ++ repeat "__total" (lb_levels lb - k))%list = true ->
  exists r, In r (f_rows out) /\ r_time r = r_time b /\
            r_path r = (firstn k (r_path b) ++ repeat "__total" (lb_levels lb - k))%list.
Proof.
  intros Hh HL HI H Hb Hn Hk K. unfold predict_samples in H.
  destruct (predict_samples_base lb times draws) as [s|] eqn:E; [|discriminate]. cbn [bind] in H. rewrite Hh in H.
  injection H as <-. destruct (samples_labels _ _ _ _ E HI) as (index & EI & W & Lv & P).
  rewrite <- Lv in *. rewrite is_bottom_no_total in Hn.
  apply aggregate_bottom_only in Hb; [|assumption..]. eapply aggregate_complete; eauto.
Qed.

(** ** C52 *)
Lemma c52_multi lb times draws obs s n (c : path -> R) :
  lb_levels lb <> 0 -> index_series lb <> [] ->
  dict_get draws "obs" = Some obs -> s <> 0 -> a_shape obs = [s; 1; length times; n] -> n = length (index_series lb) ->
  (forall p, In p (index_series lb) -> unit_of (lb_discrete lb) (lb_scale lb) p (c p)) ->
  exists out, predict_samples_base lb times draws = Ok out /\ f_levels out = lb_levels lb /\ sorted_index out /\
    length (f_cols out) = s /\ length (f_rows out) = n * length times /\
    forall r, In r (f_rows out) <-> exists i j, i < n /\ j < length times /\
      r = mkRow (nth i (index_series lb) []) (nth j times 0%Z)
            (map (fun m => aget obs [m; 0; j; i]%nat * c (nth i (index_series lb) []))%R (seq 0 s)).
Proof.
  intros L NE D Hs Sh Hn U.
  assert (NI : lb_index lb <> []).
  { intros E. apply NE. rewrite index_series_panel by assumption. rewrite E. unfold filter_series_tuples. now destruct (lb_hier lb). }
  destruct (samples_multi lb times draws obs s n (index_series lb) c) as (out & H1 & H2 & H3 & H4 & H5); auto using index_series_panel.
  exists out. split; [assumption|]. split; [assumption|]. split; [assumption|]. rewrite H3, map_length, seq_length. split; [reflexivity|].
  split.
  - rewrite H5, key_sort_length. unfold draw_rows. rewrite Hn. clear.
    rewrite (flat_map_length_uniform _ (length times)); [now rewrite seq_length|]. intros i _. now rewrite map_length, seq_length.
  - intros r. rewrite H5, (key_sort_In label), draw_rows_In. rewrite <- Hn.
    split; intros (i & j & Hi & Hj & ->); exists i, j; rewrite map_map; auto.
Qed.

(** the aggregated frame of the hierarchical forecaster keeps exactly these rows as bottom rows *)
Lemma c52_hier keep lb times draws obs s n (c : path -> R) :
  lb_hier lb = true -> lb_levels lb <> 0 -> index_series lb <> [] ->
  (forall l, In l (lb_index lb) -> length (fst l) = lb_levels lb) ->
  (forall p, In p (index_series lb) -> is_bottom p = true) ->
  dict_get draws "obs" = Some obs -> s <> 0 -> a_shape obs = [s; 1; length times; n] -> n = length (index_series lb) ->
  (forall p, In p (index_series lb) -> unit_of (lb_discrete lb) (lb_scale lb) p (c p)) ->
  exists out, predict_samples keep lb times draws = Ok out /\ f_levels out = lb_levels lb /\ length (f_cols out) = s /\
    forall r, (In r (f_rows out) /\ is_bottom (r_path r) = true) <-> exists i j, i < n /\ j < length times /\
      r = mkRow (nth i (index_series lb) []) (nth j times 0%Z)
            (map (fun m => aget obs [m; 0; j; i]%nat * c (nth i (index_series lb) []))%R (seq 0 s)).
Proof.
  intros Hh L NE HI NB D Hs Sh Hn U.
  destruct (c52_multi lb times draws obs s n c L NE D Hs Sh Hn U) as (o & E & Lv & _ & Cl & _ & R).
  destruct (samples_labels _ _ _ _ E HI) as (index & EI & W & Lv' & P).
  exists (aggregate keep o). split; [unfold predict_samples; rewrite E; simpl; now rewrite Hh|].
  rewrite aggregate_eq at 1 2 by congruence. simpl. split; [assumption|]. split; [assumption|].
  intros r. rewrite <- R. rewrite is_bottom_no_total. split.
  - intros [H1 H2]. apply aggregate_bottom_only in H1; (assumption || congruence).
  - intros H. assert (N : no_total (r_path r) = true).
    { apply R in H. destruct H as (i & j & Hi & Hj & ->). simpl. rewrite <- is_bottom_no_total. apply NB, nth_In. lia. }
    split; [|assumption]. apply aggregate_bottom_In; (assumption || congruence).
Qed.

Lemma c52_uni keep lb times draws obs s (c : R) :
  lb_levels lb = 0 -> dict_get draws "obs" = Some obs -> s <> 0 -> a_shape obs = [s; length times; 1] ->
  (lb_discrete lb = true /\ c = 1%R \/ lb_discrete lb = false /\ lb_scale lb = SFloat c) ->
  exists out, predict_samples keep lb times draws = Ok out /\ f_levels out = 0 /\ sorted_index out /\
    length (f_cols out) = s /\ length (f_rows out) = length times /\
    forall r, In r (f_rows out) <-> exists j, j < length times /\
      r = mkRow [] (nth j times 0%Z) (map (fun m => aget obs [m; j; 0]%nat * c)%R (seq 0 s)).
Proof.
  intros L D Hs Sh U. destruct (samples_uni lb times draws obs s c L D Hs Sh U) as (out & E & Lv & Cl & So & R).
  exists out. split.
  { unfold predict_samples. rewrite E. simpl. destruct (lb_hier lb); [|reflexivity]. unfold aggregate. now rewrite Lv. }
  split; [assumption|]. split; [assumption|]. rewrite Cl, map_length, seq_length. split; [reflexivity|]. split.
  - rewrite R, key_sort_length. unfold draw_rows. simpl. rewrite app_nil_r, map_length. apply seq_length.
  - intros r. rewrite R, (key_sort_In label), draw_rows_In. split.
    + intros (i & j & Hi & Hj & ->). exists j. simpl in Hi. destruct i; [|lia]. simpl. rewrite map_map. auto.
    + intros (j & Hj & ->). exists 0, j. simpl. rewrite map_map. auto.
Qed.

(** ** C53 *)
Lemma c53_rows lb times (draws : dict arr) s n (c : path -> R) :
  index_series lb <> [] -> n = length (index_series lb) ->
  (forall kv, In kv draws -> a_shape (snd kv) = [s; n; length times; 1] \/ a_shape (snd kv) = [s; 1; length times; n] \/
       n = 1 /\ a_shape (snd kv) = [s; length times; 1]) ->
  (forall p, In p (index_series lb) -> unit_of (lb_discrete lb) (lb_scale lb) p (c p)) ->
  (lb_levels lb = 0 -> forall tab, lb_scale lb <> STable tab) ->
  exists out, predict_all_sites lb times draws = Ok out /\ f_levels out = lb_levels lb /\ f_cols out = map fst draws /\
    sorted_index out /\ length (f_rows out) = n * length times /\
    forall i j, i < n -> j < length times -> exists r, In r (f_rows out) /\
      r_path r = nth i (index_series lb) [] /\ r_time r = nth j times 0%Z /\
      forall k name a, nth_error draws k = Some (name, a) -> exists v,
        nth_error (r_vals r) k = Some (v * c (nth i (index_series lb) []))%R /\
        (a_shape a = [s; n; length times; 1] -> v = Rmean (map (fun m => aget a [m; i; j; 0]) (seq 0 s))) /\
        (a_shape a = [s; length times; 1] -> v = Rmean (map (fun m => aget a [m; j; 0]) (seq 0 s))) /\
        (a_shape a = [s; 1; length times; n] ->
           v = Rmean (map (fun m => aget a [m; 0; (i * length times + j) / n; (i * length times + j) mod n]) (seq 0 s))).
Proof.
  intros NE Hn Sh U HT.
  assert (NI : lb_levels lb <> 0 -> lb_index lb <> []).
  { intros L E. apply NE. rewrite index_series_panel by assumption. rewrite E. unfold filter_series_tuples. now destruct (lb_hier lb). }
  destruct (all_sites_rows lb times draws c NI NE) as (out & E & Lv & Cl & So & R); try assumption.
  { intros kv Hkv. destruct (Sh kv Hkv) as [->|[->|[E ->]]]; (split; [discriminate|]); simpl; rewrite <- Hn; nia. }
  exists out. split; [assumption|]. split; [assumption|]. split; [assumption|]. split; [assumption|]. split.
  { rewrite R, key_sort_length. unfold draw_rows. rewrite (flat_map_length_uniform _ (length times)); [now rewrite seq_length, Hn|].
    intros i _. now rewrite map_length, seq_length. }
  intros i j Hi Hj. eexists. split.
  { rewrite R. apply (key_sort_In label). apply draw_rows_In. exists i, j. split; [lia|]. split; [lia|]. reflexivity. }
  simpl. split; [reflexivity|]. split; [reflexivity|]. intros k name a Hk. exists (site_mean a (i * length times + j)).
  rewrite map_map. rewrite nth_error_map, Hk. simpl. split; [reflexivity|]. split; [|split].
  - intros Ea. now apply site_mean_series_major with (n := n).
  - intros Ea. apply nth_error_In in Hk. destruct (Sh _ Hk) as [Eb|[Eb|[En Eb]]]; simpl in Eb; try congruence.
    assert (i = 0) as -> by lia. simpl. now apply site_mean_uni with (t := length times).
  - intros Ea. apply site_mean_obs with (t := length times); [assumption|lia].
Qed.

Lemma c53_refuted : exists lb times draws obs out r i j c,
  dict_get draws "obs" = Some obs /\ a_shape obs = [1; 1; length times; length (index_series lb)] /\
  i < length (index_series lb) /\ j < length times /\
  unit_of (lb_discrete lb) (lb_scale lb) (nth i (index_series lb) []) c /\
  predict_all_sites lb times draws = Ok out /\ f_cols out = ["obs"] /\ In r (f_rows out) /\
  r_path r = nth i (index_series lb) [] /\ r_time r = nth j times 0%Z /\
  r_vals r <> [(aget obs [0; 0; j; i]%nat * c)%R].
Proof.
  pose (draws := [("obs", shop_obs)] : dict arr).
  destruct (c53_rows shop_lab [5%Z; 6%Z] draws 1 3 shop_unit) as (out & E & Lv & Cl & So & Ln & R).
  { rewrite shop_index_series. discriminate. }
  { now rewrite shop_index_series. }
  { intros kv [<-|[]]. simpl. auto. }
  { exact shop_units. }
  { discriminate. }
  destruct (R 0 1) as (r & Hr & Hp & Ht & Hv); [lia|simpl; lia|].
  exists shop_lab, [5%Z; 6%Z], draws, shop_obs, out, r, 0, 1, 2%R.
  split; [reflexivity|]. split; [rewrite shop_index_series; reflexivity|]. rewrite shop_index_series in *. split; [simpl; lia|].
  split; [simpl; lia|]. split; [reflexivity|]. split; [assumption|]. split; [exact Cl|]. split; [assumption|].
  split; [assumption|]. split; [assumption|]. intros Eq.
  destruct (Hv 0 "obs" shop_obs eq_refl) as (v & Ev & _ & _ & Hobs). specialize (Hobs eq_refl).
  rewrite Eq in Ev. simpl in Ev. injection Ev as Ev. unfold aget, shop_unit, Rmean, shop_obs in *. simpl in *. subst v. lra.
Qed.

(** ** C54 *)
Lemma c54_factor lb times draws S (c : path -> R) :
  index_series lb <> [] -> NoDup times -> sites_ok lb times draws S ->
  (forall p, In p (index_series lb) -> unit_of (lb_discrete lb) (lb_scale lb) p (c p)) ->
  (lb_levels lb = 0 -> forall tab, lb_scale lb <> STable tab) ->
  exists means samples,
    predict_all_sites lb times draws = Ok means /\
    predict_all_sites_samples lb times draws = Ok (f_cols means, samples) /\
    forall r k, In r (f_rows means) -> k < length (f_cols means) ->
      nth k (r_vals r) 0%R =
      (Rmean (map (fun sr => nth k (sr_vals sr) 0%R)
         (filter (fun sr => path_eqb (sr_path sr) (r_path r) && Z.eqb (sr_time sr) (r_time r))%bool samples)) * c (r_path r))%R.
Proof.
  intros NE ND [N1 N2] U HT. apply sites_vs_samples with (S := S); try assumption.
  intros L E. apply NE. rewrite index_series_panel by assumption. rewrite E. unfold filter_series_tuples. now destruct (lb_hier lb).
Qed.

Lemma c54_unit lb times draws S :
  index_series lb <> [] -> NoDup times -> sites_ok lb times draws S ->
  lb_discrete lb = true \/ lb_scale lb = SFloat 1 ->
  exists means samples,
    predict_all_sites lb times draws = Ok means /\
    predict_all_sites_samples lb times draws = Ok (f_cols means, samples) /\
    forall r k, In r (f_rows means) -> k < length (f_cols means) ->
      nth k (r_vals r) 0%R =
      Rmean (map (fun sr => nth k (sr_vals sr) 0%R)
         (filter (fun sr => path_eqb (sr_path sr) (r_path r) && Z.eqb (sr_time sr) (r_time r))%bool samples)).
Proof.
  intros NE ND OK U. destruct (lb_discrete lb) eqn:Ed.
  - (* the scale is not read at all *)
    pose (lb' := mkLab (lb_levels lb) (lb_index lb) (lb_hier lb) (SFloat 1) true).
    destruct (c54_factor lb' times draws S (fun _ => 1%R)) as (m & sm & E1 & E2 & E3); try assumption.
    { intros p _. reflexivity. } { discriminate. }
    exists m, sm. split; [|split].
    + rewrite <- E1. unfold predict_all_sites, inv_scale_y, apply_scale. simpl. rewrite Ed. reflexivity.
    + exact E2.
    + intros r k Hr Hk. rewrite E3 by assumption. ring.
  - destruct U as [U|U]; [discriminate|].
    destruct (c54_factor lb times draws S (fun _ => 1%R)) as (m & sm & E1 & E2 & E3); try assumption.
    { intros p _. rewrite Ed, U. reflexivity. } { rewrite U. discriminate. }
    exists m, sm. split; [assumption|]. split; [assumption|]. intros r k Hr Hk. rewrite E3 by assumption. ring.
Qed.

Definition one_lab : labeller := mkLab 0 [([], 0%Z)] false (SFloat 2) false.
Definition one_obs : arr := mkArr [2; 1; 1] [1; 3]%R.
Lemma one_sites_ok : sites_ok one_lab [9%Z] [("obs", one_obs)] 2.
Proof. split; [discriminate|]. intros kv [<-|[]]. repeat split. Qed.

Lemma c54_refuted : exists lb times draws S means samples r,
  index_series lb <> [] /\ NoDup times /\ sites_ok lb times draws S /\
  predict_all_sites lb times draws = Ok means /\
  predict_all_sites_samples lb times draws = Ok (f_cols means, samples) /\ In r (f_rows means) /\
  0 < length (f_cols means) /\
  nth 0 (r_vals r) 0%R <>
      Rmean (map (fun sr => nth 0 (sr_vals sr) 0%R)
         (filter (fun sr => path_eqb (sr_path sr) (r_path r) && Z.eqb (sr_time sr) (r_time r))%bool samples)).
Proof.
  assert (ND : NoDup [9%Z]) by (constructor; [simpl; tauto|constructor]).
  exists one_lab, [9%Z], [("obs", one_obs)], 2.
  destruct (c54_factor one_lab [9%Z] [("obs", one_obs)] 2 (fun _ => 2%R)) as (m & sm & E1 & E2 & E3).
  - discriminate.
  - assumption.
  - exact one_sites_ok.
  - intros p _. reflexivity.
  - discriminate.
  - unfold predict_all_sites in E1. simpl in E1. injection E1 as <-. exists (mkFrame 0 ["obs"] [mkRow [] 9%Z [(Rmean [1; 3] * 2)%R]]), sm.
    exists (mkRow [] 9%Z [(Rmean [1; 3] * 2)%R]). split; [discriminate|]. split; [assumption|]. split; [exact one_sites_ok|].
    split; [reflexivity|]. split; [exact E2|]. split; [simpl; auto|]. split; [simpl; lia|].
    unfold predict_all_sites_samples in E2. simpl in E2. injection E2 as <-. simpl. unfold Rmean. simpl. lra.
Qed.

(** ** C58 *)
Lemma c58_isolated fcs (X X' : frame R) : f_cols X = f_cols X' ->
  (forall p fc, In (p, fc) fcs ->
     map (fun r => (r_time r, r_vals r)) (filter (fun r => path_eqb (firstn (length p) (r_path r)) p) (f_rows X)) =
     map (fun r => (r_time r, r_vals r)) (filter (fun r => path_eqb (firstn (length p) (r_path r)) p) (f_rows X'))) ->
  vectorize_predict fcs (Some X) = vectorize_predict fcs (Some X').
Proof.
  intros Hc H. apply vectorize_isolated. intros p fc Hf g g' E E'. specialize (H p fc Hf).
  unfold get_multiindex_loc in E, E'. injection E as <-. injection E' as <-. unfold drop_levels, filter_rows. simpl. rewrite Hc. f_equal.
  assert (F : forall (Y : frame R), filter (fun r : row R => path_in (firstn (length p) (r_path r)) [p]) (f_rows Y) =
     filter (fun r => path_eqb (firstn (length p) (r_path r)) p) (f_rows Y)).
  { intros Y. apply filter_ext. intros r. unfold path_in. simpl. now rewrite orb_false_r. }
  rewrite !F.
  assert (G : forall l : list (row R), map (fun r => mkRow ([] : path) (r_time r) (r_vals r)) l =
     map (fun tv => mkRow [] (fst tv) (snd tv)) (map (fun r => (r_time r, r_vals r)) l)).
  { intros l. rewrite map_map. reflexivity. }
  rewrite !G, H. reflexivity.
Qed.

Lemma c58_labels_lost fcs X out : vectorize_predict fcs X = Ok out ->
  (forall p fc x o, In (p, fc) fcs -> fc x = Ok o -> frame_wf o /\ f_levels o = 0) ->
  f_levels out = 0 /\ forall r, In r (f_rows out) -> r_path r = [].
Proof.
  intros H K. unfold vectorize_predict in H.
  destruct (mapM _ fcs) as [outs|e] eqn:E; [|discriminate]. cbn [bind] in H.
  assert (A : forall o, In o outs -> frame_wf o /\ f_levels o = 0).
  { apply mapM_ok in E. intros o Ho. clear H.
    assert (B : exists p fc x, In (p, fc) fcs /\ fc x = Ok o).
    { clear K. induction E as [|[p fc] b l1 l2 H1 H2 IH]; [contradiction|]. destruct Ho as [->|Ho].
      - destruct X as [x|].
        + destruct (get_multiindex_loc x _) as [xi|] eqn:E'; [|discriminate]. cbn [bind] in H1. exists p, fc, (Some (drop_levels xi)). simpl. auto.
        + exists p, fc, None. simpl. auto.
      - destruct (IH Ho) as (p' & fc' & x & ? & ?). exists p', fc', x. simpl. auto. }
    destruct B as (p & fc & x & B1 & B2). eapply K; eauto. }
  destruct outs as [|o outs]; [discriminate|]. injection H as <-. simpl. split; [apply A; simpl; auto|].
  intros r Hr. change (In r (flat_map (fun o => f_rows o) (o :: outs))) in Hr. apply in_flat_map in Hr. destruct Hr as (o' & Ho' & Hr).
  destruct (A o' Ho') as [W L]. destruct (W r Hr) as [_ Hl]. rewrite L in Hl. now destruct (r_path r).
Qed.

Definition const_fc (v : R) (x : option (frame R)) : res (frame R) := Ok (mkFrame 0 ["0"] [mkRow [] 7%Z [v]]).
Lemma c58_refuted : exists fcs out r1 r2, NoDup (map fst fcs) /\
  vectorize_predict fcs None = Ok out /\ In r1 (f_rows out) /\ In r2 (f_rows out) /\
  r_path r1 = r_path r2 /\ r_time r1 = r_time r2 /\ r_vals r1 <> r_vals r2.
Proof.
  exists [(["a"], const_fc 1); (["b"], const_fc 2)]. eexists. exists (mkRow [] 7%Z [1%R]), (mkRow [] 7%Z [2%R]).
  split; [|split; [reflexivity|simpl]].
  - simpl. repeat constructor; simpl; intuition discriminate.
  - repeat split; auto. simpl. intros [= H]. lra.
Qed.

(** ** C59 *)
Lemma c59 target (f : frame R) : labels (point_forecast target f) = labels f /\ f_cols (point_forecast target f) = [target] /\
  f_levels (point_forecast target f) = f_levels f /\
  forall i r, nth_error (f_rows f) i = Some r ->
    nth_error (f_rows (point_forecast target f)) i = Some (mkRow (r_path r) (r_time r) [(Rsum (r_vals r) / INR (length (r_vals r)))%R]).
Proof.
  unfold labels, point_forecast. simpl. rewrite map_map. split; [reflexivity|]. split; [reflexivity|]. split; [reflexivity|].
  intros i r H. now rewrite nth_error_map, H.
Qed.
Lemma c59_between target (f : frame R) r lo hi : In r (f_rows (point_forecast target f)) ->
  (forall s, In s (f_rows f) -> r_vals s <> [] ) ->
  (forall s v, In s (f_rows f) -> r_path s = r_path r -> r_time s = r_time r -> In v (r_vals s) -> (lo <= v <= hi)%R) ->
  exists v, r_vals r = [v] /\ (lo <= v <= hi)%R.
Proof.
  intros H NE B. unfold point_forecast in H. simpl in H. apply in_map_iff in H. destruct H as (s & <- & Hs). simpl.
  eexists. split; [reflexivity|]. apply Rmean_bounds; [now apply NE|]. intros x Hx. eapply B; eauto.
Qed.

(** ** C60 *)
Lemma c60_rows alpha (f : frame R) q : predict_quantiles alpha f = Ok q ->
  q_levels q = alpha /\ labels (q_frame q) = labels f /\
  forall i r, nth_error (f_rows f) i = Some r ->
    nth_error (f_rows (q_frame q)) i = Some (mkRow (r_path r) (r_time r) (map (quantile (r_vals r)) alpha)).
Proof.
  unfold predict_quantiles. destruct (forallb _ alpha); [|discriminate]. intros [= <-]. simpl. split; [reflexivity|].
  unfold labels. simpl. rewrite map_map. split; [reflexivity|]. intros i r H. now rewrite nth_error_map, H.
Qed.
Lemma c60_ok alpha (f : frame R) : (forall a, In a alpha -> (0 <= a <= 1)%R) -> exists q, predict_quantiles alpha f = Ok q.
Proof.
  intros H. unfold predict_quantiles. replace (forallb _ alpha) with true; [eauto|]. symmetry. apply forallb_forall. intros a Ha.
  specialize (H a Ha). apply andb_true_iff. rewrite !Rleb_true. assumption.
Qed.
Lemma c60_levels alpha (f : frame R) q : predict_quantiles alpha f = Ok q -> forall a, In a alpha -> (0 <= a <= 1)%R.
Proof.
  unfold predict_quantiles. destruct (forallb _ alpha) eqn:E; [|discriminate]. intros _ a Ha.
  apply (proj1 (forallb_forall _ _) E) in Ha. apply andb_true_iff in Ha. rewrite !Rleb_true in Ha. assumption.
Qed.

Lemma c60_no_crossing alpha (f : frame R) q r j k : predict_quantiles alpha f = Ok q ->
  (forall s, In s (f_rows f) -> r_vals s <> []) -> In r (f_rows (q_frame q)) ->
  j < length alpha -> k < length alpha -> (nth j alpha 0 <= nth k alpha 0)%R -> (nth j (r_vals r) 0 <= nth k (r_vals r) 0)%R.
Proof.
  intros H NE Hr Hj Hk Hl. pose proof (c60_levels _ _ _ H) as B. apply In_nth_error in Hr. destruct Hr as (i & Hi).
  assert (L : i < length (f_rows f)).
  { assert (E : nth_error (f_rows (q_frame q)) i <> None) by congruence. apply nth_error_Some in E.
    unfold predict_quantiles in H. destruct (forallb _ alpha); [|discriminate]. injection H as <-. simpl in E. now rewrite map_length in E. }
  destruct (nth_error (f_rows f) i) as [s|] eqn:Es; [|apply nth_error_None in Es; lia].
  destruct (c60_rows _ _ _ H) as (_ & _ & R). rewrite (R i s Es) in Hi. injection Hi as <-. simpl.
  rewrite !(nth_indep (map _ alpha) 0%R (quantile (r_vals s) 0%R)) by (now rewrite map_length). rewrite !map_nth.
  apply quantile_mono; [eapply NE, nth_error_In; eassumption| | assumption |]; apply B; now apply nth_In.
Qed.

Lemma c60_within vals a : vals <> [] -> (0 <= a <= 1)%R ->
  (quantile vals 0 <= quantile vals a <= quantile vals 1)%R /\ In (quantile vals 0) vals /\ In (quantile vals 1) vals /\
  forall x, In x vals -> (quantile vals 0 <= x <= quantile vals 1)%R.
Proof.
  intros NE Ha. destruct (quantile_extremes vals NE) as (H1 & H2 & H3). split; [|auto]. split; apply quantile_mono; lra || assumption.
Qed.
Lemma c60_example : predict_quantiles [0; 1 / 2; 1]%R (mkFrame 0 ["0"; "1"; "2"] [mkRow [] 0%Z [3; 1; 2]%R]) <> Err ValueError.
Proof.
  destruct (c60_ok [0; 1 / 2; 1]%R (mkFrame 0 ["0"; "1"; "2"] [mkRow [] 0%Z [3; 1; 2]%R])) as [q ->]; [|discriminate].
  simpl. intros a [<-|[<-|[<-|[]]]]; lra.
Qed.
Lemma shop_lab_case : lb_hier shop_lab = true /\ lb_levels shop_lab <> 0 /\
  (forall l, In l (lb_index shop_lab) -> length (fst l) = lb_levels shop_lab) /\
  index_series shop_lab = [["n"; "a"]; ["n"; "b"]; ["s"; "c"]] /\
  (forall p, In p (index_series shop_lab) -> is_bottom p = true) /\
  a_shape shop_obs = [1; 1; 2; 3] /\
  (forall p, In p (index_series shop_lab) -> unit_of (lb_discrete shop_lab) (lb_scale shop_lab) p (shop_unit p)).
Proof.
  split; [reflexivity|]. split; [discriminate|]. split; [intros l Hl; simpl in Hl; rows_cases; reflexivity|].
  split; [exact shop_index_series|]. split; [|split; [reflexivity|exact shop_units]].
  rewrite shop_index_series. intros p Hp. simpl in Hp. rows_cases; reflexivity.
Qed.

Lemma c60_interpolation vals : vals <> [] -> exists s, Permutation vals s /\ StronglySorted Rle s /\
  forall a, (0 <= a <= 1)%R -> exists lo w, (0 <= w < 1)%R /\ lo < length vals /\
    (a * INR (length vals - 1) = INR lo + w)%R /\
    (quantile vals a = (1 - w) * nth lo s 0 + w * nth (S lo) s 0)%R.
Proof.
  intros NE. exists (Rsort vals). split; [symmetry; apply Rsort_perm|]. split; [apply Rsort_sorted|]. intros a Ha.
  destruct (quantile_seg vals a Ha) as (lo & w & H1 & H2 & H3 & H4 & H5). exists lo, w.
  assert (L : length vals <> 0) by (now destruct vals). split; [assumption|]. split; [lia|]. split; [assumption|].
  rewrite H5. destruct (Nat.eq_dec lo (length vals - 1)) as [E|E].
  - rewrite (H3 E). ring.
  - rewrite Nat.min_l by lia. ring.
Qed.
