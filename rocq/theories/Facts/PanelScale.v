(** Scales of panels. *)
From Coq Require Import Reals Lra String Bool ZArith List Sorted Permutation Lia.
From Verif.Model Require Import Base Num Regex Frame Arr Expand Aggregate Scale Trend Forecaster.
From Verif.Spec Require Import FrameSpec ScaleSpec LineSpec TotalSpec PanelSpec.
From Verif.Facts Require Import BaseFacts NumFacts OrderFacts FrameFacts FrameProps ScaleFacts LineFacts AlignFacts TotalFacts PanelGrid HistoryTimes ShapeFacts TotalFit PanelTrend CompleteFacts.
Import ListNotations.
Local Open Scope string_scope.

Definition factor (tab : list (path * R)) (p : path) : R := match tab_get tab p with Some c => c | None => 1%R end.
Definition tab_covers (tab : list (path * R)) (ids : list path) : Prop := forall p, In p ids -> exists k, tab_get tab p = Some k /\ (0 < k)%R.

Lemma panel_scale (y : frame R) : frame_wf y -> f_levels y <> 0 -> List.length (f_cols y) = 1 ->
  exists tab, set_y_scales None y = Ok (STable tab) /\ tab_covers tab (series_ids y).
Proof.
  intros G GL C1. unfold set_y_scales. destruct (f_levels y) eqn:L; [congruence|].
  destruct (mapM_total (fun p => match abs_max (flat_map r_vals (rows_of y p)) with Some c => Ok (p, c) | None => Err ValueError end) (fun p pc => fst pc = p /\ (0 <= snd pc)%R) (series_ids y)) as (tab & E & F).
  { intros p Hp. destruct (abs_max_nonempty (flat_map r_vals (rows_of y p))) as (m & Em).
    - apply series_ids_In in Hp as (r & Hr & Er). assert (I : In r (rows_of y p)) by (apply filter_In; split; [exact Hr|now apply path_eqb_eq]).
      pose proof (proj1 (G r Hr)) as Q. rewrite C1 in Q. destruct (r_vals r) as [|v vs] eqn:Ev; [discriminate|]. intros Z. assert (In v []); [|contradiction]. rewrite <- Z. apply in_flat_map. exists r. split; [exact I|]. rewrite Ev. simpl. auto.
    - rewrite Em. eexists. split; [reflexivity|]. split; [reflexivity|]. cbn. apply abs_max_spec in Em as [(v & _ & <-) _]. apply Rabs_pos. }
  rewrite E. cbn [bind]. eexists. split; [reflexivity|]. intros p Hp. clear E. induction F as [|q [q' k] qs tab [E0 K] F IH]; [contradiction|].
  cbn [fst snd map tab_get] in *. subst q'. destruct (path_eqb p q) eqn:Q.
  - eexists. split; [reflexivity|]. unfold replace01. destruct (Reqb k 0) eqn:B; [lra|]. apply Reqb_false in B. lra.
  - apply IH. destruct Hp as [->|Hp]; [rewrite path_eqb_refl in Q; discriminate|exact Hp].
Qed.

Definition divide_row (tab : list (path * R)) (r : row R) : row R := mkRow (r_path r) (r_time r) (map (fun v => v / factor tab (r_path r))%R (r_vals r)).

Lemma obs_scale_total op (y : frame R) tab : f_levels y <> 0 -> tab_covers tab (series_ids y) ->
  apply_scale op false (STable tab) y = Ok (mkFrame (f_levels y) (f_cols y) (map (fun r => mkRow (r_path r) (r_time r) (map (fun v => op v (factor tab (r_path r))) (r_vals r))) (f_rows y))).
Proof.
  intros GL T. unfold apply_scale, scale_for_each_obs. destruct (f_levels y) eqn:L; [congruence|].
  assert (M : mapM (fun r => match tab_get tab (r_path r) with Some c => Ok c | None => Err KeyError end) (f_rows y) = Ok (map (fun r => factor tab (r_path r)) (f_rows y))).
  { assert (H : forall r, In r (f_rows y) -> exists k, tab_get tab (r_path r) = Some k) by (intros r Hr; destruct (T (r_path r)) as (k & Ek & _); [apply series_ids_In; eauto|eauto]).
    clear -H. induction (f_rows y) as [|r l IH]; [reflexivity|]. cbn [mapM map]. unfold factor at 1. destruct (H r) as (k & ->); [simpl; auto|]. rewrite IH by (intros; apply H; simpl; auto). reflexivity. }
  rewrite M. cbn [bind]. f_equal. unfold by_row. rewrite L. f_equal. clear. induction (f_rows y) as [|r l IH]; [reflexivity|]. cbn [map combine fst snd]. now rewrite IH.
Qed.

Definition divided_panel (tab : list (path * R)) (y : frame R) : frame R := mkFrame (f_levels y) (f_cols y) (map (divide_row tab) (f_rows y)).
Lemma divided_grid ids times tab (y : frame R) : grid ids times y -> grid ids times (divided_panel tab y).
Proof.
  intros G. apply (grid_same ids times y); [exact G| |unfold labels, divided_panel; cbn [f_rows]; rewrite map_map; reflexivity|reflexivity].
  intros r Hr. unfold divided_panel in *. cbn [f_rows f_cols f_levels] in *. apply in_map_iff in Hr as (r0 & <- & Hr). cbn. rewrite map_length. now apply G.
Qed.
Lemma grid_covers tab ids times (y : frame R) : grid ids times y -> tab_covers tab ids -> tab_covers tab (series_ids y).
Proof. intros G T p Hp. apply T. apply series_ids_In in Hp as (r & Hr & <-). apply (grid_row ids times y G r Hr). Qed.
Lemma divided_index tab (y : frame R) : index_of (divided_panel tab y) = index_of y.
Proof. unfold index_of, divided_panel. cbn [f_rows]. rewrite map_map. reflexivity. Qed.

(** * Lines through divided and sorted series *)
Lemma error_perm a b pts pts' : Permutation pts pts' -> squared_error a b pts = squared_error a b pts'.
Proof. induction 1 as [|[x y] l l' P IH|[x y] [x' y'] l|]; cbn [squared_error]; [reflexivity|now rewrite IH|ring|congruence]. Qed.

Lemma error_divided a b k pts : (0 < k)%R -> (squared_error a b (map (fun q => (fst q, snd q / k)) pts) = squared_error (a * k) (b * k) pts / (k * k))%R.
Proof. intros K. induction pts as [|[x y] pts IH]; cbn [map squared_error fst snd]; [field; lra|]. rewrite IH. field. lra. Qed.

Lemma least_divided a b k pts pts' : (0 < k)%R -> least_squares a b pts -> Permutation (map (fun q => (fst q, snd q / k)%R) pts) pts' -> least_squares (a / k) (b / k) pts'.
Proof.
  intros K LS P a' b'. rewrite <- !(error_perm _ _ _ _ P), !error_divided by exact K. replace (a / k * k)%R with a by (field; lra). replace (b / k * k)%R with b by (field; lra).
  apply Rmult_le_compat_r; [|apply LS]. apply Rlt_le, Rinv_0_lt_compat. nra.
Qed.

Lemma sorted_line ids times tab (y : frame R) : grid ids times y -> List.length (f_cols y) = 1 -> NoDup times -> 2 <= List.length times -> tab_covers tab ids ->
  (forall p, In p ids -> exists a b, least_squares a b (series_points y p) /\ forall t, In t times -> (0 < a + b * IZR t)%R) ->
  forall r, In r (f_rows (detrend_frame (sort_index (divided_panel tab y)))) -> (0 < val0 r)%R.
Proof.
  intros G C1 Nt L2 T H r Hr. set (z := sort_index (divided_panel tab y)) in *. assert (GZ : grid ids times z) by (apply grid_sort, divided_grid; exact G).
  pose proof (detrend_grid ids times z GZ C1) as GD. destruct (grid_row ids times _ GD r Hr) as [Hp Ht]. set (p := r_path r) in *.
  destruct (T p Hp) as (k & Ek & K). destruct (H p Hp) as (a & b & LS & PO).
  assert (PP : Permutation (map (fun q => (fst q, snd q / k)%R) (series_points y p)) (series_points z p)).
  { assert (PR : Permutation (f_rows (divided_panel tab y)) (f_rows z)) by (unfold z; apply sort_index_perm_rows).
    assert (PF : forall l l' : list (row R), Permutation l l' -> Permutation (filter (fun r => path_eqb (r_path r) p) l) (filter (fun r => path_eqb (r_path r) p) l')).
    { clear. induction 1 as [|x l l' P IH|x y l|]; cbn [filter]; [constructor| | |eapply perm_trans; eassumption].
      - destruct (path_eqb (r_path x) p); [constructor|]; exact IH.
      - destruct (path_eqb (r_path x) p), (path_eqb (r_path y) p); try apply Permutation_refl. apply perm_swap. }
    apply PF in PR. apply (Permutation_map (fun r => (IZR (r_time r), hd 0%R (r_vals r)))) in PR. unfold series_points at 2. refine (perm_trans _ PR).
    match goal with |- Permutation ?a ?b => assert (Q : a = b); [|rewrite Q; apply Permutation_refl] end.
    unfold series_points, divided_panel. cbn [f_rows]. assert (V : forall r0, In r0 (f_rows y) -> List.length (r_vals r0) = 1) by (intros r0 H0; rewrite <- C1; now apply G).
    clear -Ek V. induction (f_rows y) as [|r0 l IH]; [reflexivity|]. cbn [map filter]. change (r_path (divide_row tab r0)) with (r_path r0). destruct (path_eqb (r_path r0) p) eqn:Q; [|apply IH; intros; apply V; simpl; auto].
    cbn [map]. rewrite IH by (intros; apply V; simpl; auto). f_equal. cbn [fst snd]. unfold divide_row. cbn [r_time r_vals]. f_equal. specialize (V r0 ltac:(simpl; auto)). destruct (r_vals r0) as [|v vs]; [discriminate|]. cbn [map hd].
    apply path_eqb_eq in Q. unfold factor. now rewrite Q, Ek. }
  pose proof (least_divided a b k _ _ K LS PP) as LZ.
  assert (HS : has_series z p) by (destruct (grid_label ids times z GZ p (r_time r) Hp Ht) as (r0 & H0 & E0 & _); exists r0; auto).
  assert (D : exists q q', In q (series_points z p) /\ In q' (series_points z p) /\ fst q <> fst q').
  { destruct times as [|t1 [|t2 ts]]; cbn in L2; try lia. inversion Nt; subst.
    destruct (grid_label ids _ z GZ p t1 Hp ltac:(simpl; auto)) as (r1 & H1' & E1 & E1'). destruct (grid_label ids _ z GZ p t2 Hp ltac:(simpl; auto)) as (r2 & H2' & E2 & E2').
    assert (M : forall r0, In r0 (f_rows z) -> r_path r0 = p -> In (IZR (r_time r0), hd 0%R (r_vals r0)) (series_points z p)).
    { intros r0 I0 E0. unfold series_points. apply in_map_iff. exists r0. split; [reflexivity|]. apply filter_In. split; [exact I0|]. now apply path_eqb_eq. }
    eexists _, _. split; [apply (M r1); assumption|]. split; [apply (M r2); assumption|]. cbn [fst]. rewrite E1', E2'. intros E. apply eq_IZR in E. apply H2. subst. simpl. auto. }
  destruct D as (q & q' & Iq & Iq' & Dq). destruct (line_unique _ _ _ q q' Iq Iq' Dq LZ) as [EA EB].
  assert (IR : In r (rows_of (detrend_frame z) p)) by (apply filter_In; split; [exact Hr|apply path_eqb_refl]).
  rewrite (detrend_rows z p HS) in IR. apply in_map_iff in IR as (r0 & E0 & I0).
  assert (ET : r_time r = r_time r0) by (now rewrite <- E0). assert (EV : val0 r = (level (series_points z p) + slope (series_points z p) * IZR (r_time r0))%R) by (now rewrite <- E0).
  rewrite EV, <- EA, <- EB. specialize (PO _ Ht). rewrite ET in PO.
  replace (a / k + b / k * IZR (r_time r0))%R with ((a + b * IZR (r_time r0)) / k)%R by (field; lra). now apply Rdiv_lt_0_compat.
Qed.
