(** The same series and dates with different exogenous data: frames. *)
From Coq Require Import Reals Lra ZArith String Ascii Bool List Lia Sorted Permutation.
From Verif.Model Require Import Base Num Frame Arr Prog Likelihood Effect Trend TrendProg Scale Expand Forecaster.
From Verif.Spec Require Import FrameSpec ProgSpec EffectSpec ForecasterSpec OverlapSpec CellSpec.
From Verif.Facts Require Import BaseFacts FrameFacts NumFacts ArrFacts ExpandFacts TrendFacts ProgFacts ForecasterFacts ForecasterInv ForecasterProps HorizonFacts RescaleEffects LogisticFit ModelProps AlignFacts OverlapFacts OverlapFrames CellFacts.
Import ListNotations.
Local Open Scope string_scope.

(** * Rows of one series and date *)
Section Pick.
Variable g : path -> Z -> bool.
Definition pick (X : frame R) : frame R := filter_rows (fun r => g (r_path r) (r_time r)) X.

Lemma pick_select (X : frame R) cols : select_columns 0%R (pick X) cols = (XC <- select_columns 0%R X cols ;; Ok (pick XC)).
Proof.
  unfold select_columns. change (f_cols (pick X)) with (f_cols X). destruct (mapM _ cols) as [pos|]; [|reflexivity]. cbn [bind].
  f_equal. unfold pick, filter_rows. cbn [f_levels f_cols f_rows]. f_equal. symmetry. apply filter_map_comm. reflexivity.
Qed.
Lemma pick_set_col (X : frame R) n v : pick (set_col X n (fun _ => v)) = set_col (pick X) n (fun _ => v).
Proof.
  unfold set_col. change (f_cols (pick X)) with (f_cols X). destruct (col_pos (f_cols X) n); unfold pick, filter_rows; cbn [f_levels f_cols f_rows]; f_equal;
    apply filter_map_comm; reflexivity.
Qed.
Lemma pick_add_zero matched ids : forall X : frame R, pick (add_zero_columns 0%R matched ids X) = add_zero_columns 0%R matched ids (pick X).
Proof.
  unfold add_zero_columns. induction matched as [|m ms IH]; intros X; [reflexivity|]. cbn [fold_left]. rewrite IH. f_equal. clear IH ms. revert X.
  induction ids as [|i ids IH]; intros X; [reflexivity|]. cbn [fold_left]. now rewrite IH, pick_set_col.
Qed.
Lemma pick_copy_column (Xo X : frame R) c i : labels X = labels Xo ->
  copy_column 0%R (fun _ => false) (pick Xo) (pick X) c i = (X' <- copy_column 0%R (fun _ => false) Xo X c i ;; Ok (pick X')).
Proof.
  intros L. unfold copy_column. change (f_cols (pick Xo)) with (f_cols Xo). change (f_cols (pick X)) with (f_cols X).
  destruct (col_pos (f_cols Xo) c) as [src|]; [|reflexivity]. destruct (col_pos (f_cols X) _) as [dst|]; [|reflexivity]. cbn [bind]. f_equal.
  unfold pick, filter_rows. cbn [f_levels f_cols f_rows]. f_equal. rewrite combine_filter.
  - symmetry. apply filter_map_comm. intros [r ro] _. reflexivity.
  - apply labels_Forall2 in L. eapply Forall2_impl; [|exact L]. cbv beta. intros a b [-> ->]. reflexivity.
Qed.
Lemma pick_copy_columns matched (Xo : frame R) ids : forall X, labels X = labels Xo ->
  copy_columns 0%R (fun _ => false) matched ids (pick Xo) (pick X) =
  (X' <- copy_columns 0%R (fun _ => false) matched ids Xo X ;; Ok (pick X')).
Proof.
  unfold copy_columns. induction ids as [|i ids IH]; intros X L; [reflexivity|]. cbn [foldM].
  assert (E : forall ms X, labels X = labels Xo ->
     foldM (fun X c => copy_column 0%R (fun _ => false) (pick Xo) X c i) (pick X) ms =
     (X' <- foldM (fun X c => copy_column 0%R (fun _ => false) Xo X c i) X ms ;; Ok (pick X'))).
  { clear. induction ms as [|m ms IH]; intros X L; [reflexivity|]. cbn [foldM]. rewrite pick_copy_column by assumption.
    destruct (copy_column _ _ Xo X m i) as [X1|] eqn:C; cbn [bind]; [|reflexivity]. apply IH.
    apply copy_column_labels in C; [|rewrite !labels_length; congruence]. destruct C as [C _]. congruence. }
  rewrite E by assumption. destruct (foldM _ X matched) as [X1|] eqn:F; cbn [bind]; [|reflexivity]. apply IH.
  clear E IH. revert X L F. induction matched as [|m ms IH]; intros X L F; cbn [foldM] in F; [now injection F as <-|].
  destruct (copy_column _ _ Xo X m i) as [X2|] eqn:C; [|discriminate]. cbn [bind] in F. apply (IH X2); [|exact F].
  apply copy_column_labels in C; [|rewrite !labels_length; congruence]. destruct C as [C _]. congruence.
Qed.
Lemma pick_drop (X : frame R) cols : pick (drop_columns X cols) = drop_columns (pick X) cols.
Proof. unfold drop_columns, pick, filter_rows. cbn [f_levels f_cols f_rows]. f_equal. apply filter_map_comm. reflexivity. Qed.
Lemma pick_expand matched ids (X : frame R) : expand_ids matched ids (pick X) = (X' <- expand_ids matched ids X ;; Ok (pick X')).
Proof.
  unfold expand_ids. rewrite <- pick_add_zero, pick_copy_columns by apply add_zero_labels.
  destruct (copy_columns _ _ _ _ _ _); cbn [bind]; [|reflexivity]. now rewrite pick_drop.
Qed.

(** two frames with the same rows there *)
Lemma agree_select (X1 X2 Z1 Z2 : frame R) cols : pick X1 = pick X2 -> select_columns 0%R X1 cols = Ok Z1 -> select_columns 0%R X2 cols = Ok Z2 -> pick Z1 = pick Z2.
Proof. intros E H1 H2. pose proof (pick_select X1 cols) as A. pose proof (pick_select X2 cols) as B. rewrite H1 in A. rewrite H2 in B. rewrite E in A. cbn [bind] in *. congruence. Qed.
Lemma agree_expand x (X1 X2 Z1 Z2 : frame R) x1 x2 : pick X1 = pick X2 -> (f_levels X1 <> 0 -> series_ids X1 = series_ids X2) ->
  expand_transform 0%R (fun _ => false) x X1 = Ok (Z1, x1) -> expand_transform 0%R (fun _ => false) x X2 = Ok (Z2, x2) -> pick Z1 = pick Z2.
Proof.
  intros E S. rewrite !expand_transform_ids. destruct (ex_skip x); [intros [= <- _] [= <- _]; exact E|]. assert (L : f_levels X1 = f_levels X2) by exact (f_equal f_levels E). rewrite <- L. destruct (f_levels X1); [discriminate|]. rewrite <- S by discriminate.
  pose proof (pick_expand (ex_matched x) (series_ids X1) X1) as A. pose proof (pick_expand (ex_matched x) (series_ids X1) X2) as B. rewrite E in A.
  destruct (expand_ids _ _ X1) as [Y1|]; [|discriminate]. destruct (expand_ids _ _ X2) as [Y2|]; [|discriminate]. cbn [bind] in *. intros [= <- _] [= <- _]. congruence.
Qed.
Lemma pick_fourier ff (X Z : frame R) : fourier_transform ff X = Ok Z -> fourier_transform ff (pick X) = Ok (pick Z).
Proof.
  unfold fourier_transform. set (h := fun r : row R => m <- find_min (ff_min ff) (r_path r) ;; Ok (mkRow (r_path r) (r_time r) (fourier_vals (ff_pairs ff) (r_time r - m)))).
  intros H. destruct (mapM h (f_rows X)) as [rows|] eqn:M; [|discriminate]. cbn [bind] in H. injection H as <-. unfold pick, filter_rows. cbn [f_levels f_cols f_rows].
  assert (K : mapM h (filter (fun r => g (r_path r) (r_time r)) (f_rows X)) = Ok (filter (fun r => g (r_path r) (r_time r)) rows)); [|now rewrite K].
  revert rows M. generalize (f_rows X). induction l as [|r l IH]; intros rows M; cbn [mapM] in M; [injection M as <-; reflexivity|].
  destruct (h r) as [r'|] eqn:E; [|discriminate]. cbn [bind] in M. destruct (mapM h l) as [rows'|] eqn:EM; [|discriminate]. injection M as <-. specialize (IH _ eq_refl). cbn [filter].
  assert (ET : r_path r' = r_path r /\ r_time r' = r_time r) by (unfold h in E; destruct (find_min _ _); [|discriminate]; now injection E as <-). destruct ET as [-> ->].
  destruct (g (r_path r) (r_time r)); [|exact IH]. cbn [mapM]. rewrite E. cbn [bind]. now rewrite IH.
Qed.
Lemma agree_full e (X1 X2 Z1 Z2 : frame R) : pick X1 = pick X2 -> (f_levels X1 <> 0 -> series_ids X1 = series_ids X2) -> full e X1 = Ok Z1 -> full e X2 = Ok Z2 -> pick Z1 = pick Z2.
Proof.
  intros E S H1 H2. destruct e as [m d b|m d q b|m d q r b|inner t ps b s|sp tl ps m b ff x l]; cbn [full] in *; try congruence.
  destruct ff as [ff|]; [|discriminate]. cbn [attr bind] in *. destruct (fourier_transform ff X1) as [Y1|] eqn:F1; [|discriminate]. destruct (fourier_transform ff X2) as [Y2|] eqn:F2; [|discriminate]. cbn [bind] in *.
  assert (EY : pick Y1 = pick Y2). { apply pick_fourier in F1. apply pick_fourier in F2. rewrite E in F1. congruence. }
  assert (SY : f_levels Y1 <> 0 -> series_ids Y1 = series_ids Y2).
  { assert (K : forall X Y, fourier_transform ff X = Ok Y -> series_ids Y = series_ids X).
    { intros X Y F. apply series_ids_labels. unfold fourier_transform in F. destruct (mapM _ (f_rows X)) as [rows|] eqn:M; [|discriminate]. cbn [bind] in F. injection F as <-. unfold labels. cbn [f_rows].
      revert rows M. generalize (f_rows X). induction l0 as [|r l0 IH]; intros rows M; cbn [mapM] in M; [injection M as <-; reflexivity|]. destruct (find_min _ _) in M; [|discriminate]. cbn [bind] in M.
      destruct (mapM _ l0) as [rows'|] eqn:EM; [|discriminate]. injection M as <-. cbn [map r_path r_time]. now rewrite (IH rows'). }
    rewrite (K _ _ F1), (K _ _ F2). intros LV. apply S. unfold fourier_transform in F1. destruct (mapM _ (f_rows X1)); [|discriminate]. cbn [bind] in F1. injection F1 as <-. exact LV. }
  assert (FIN : forall W1 W2, pick W1 = pick W2 -> ('(_, b0) <- attr l ;; cols <- attr (b_cols b0) ;; select_columns 0%R W1 cols) = Ok Z1 -> ('(_, b0) <- attr l ;; cols <- attr (b_cols b0) ;; select_columns 0%R W2 cols) = Ok Z2 -> pick Z1 = pick Z2).
  { intros W1 W2 EW. destruct l as [[? b0]|]; [|discriminate]. cbn [attr bind]. destruct (b_cols b0) as [cols|]; [|discriminate]. cbn [attr bind]. now apply agree_select. }
  destruct x as [x|]; [|cbn [bind] in *; now apply (FIN Y1 Y2)]. destruct (expand_transform _ _ x Y1) as [[W1 x1]|] eqn:G1; [|discriminate]. destruct (expand_transform _ _ x Y2) as [[W2 x2]|] eqn:G2; [|discriminate]. cbn [bind] in *.
  apply (FIN W1 W2); auto. now apply (agree_expand x Y1 Y2 W1 W2 x1 x2).
Qed.
End Pick.

Definition here (p : path) (t : Z) : path -> Z -> bool := fun a u => path_eqb a p && Z.eqb u t.
Lemma here_true p t a u : here p t a u = true <-> a = p /\ u = t.
Proof. unfold here. rewrite andb_true_iff, path_eqb_eq, Z.eqb_eq. reflexivity. Qed.
Lemma values_pick p t (X1 X2 : frame R) : f_levels X1 = f_levels X2 -> f_cols X1 = f_cols X2 -> values_at p t X1 = values_at p t X2 -> pick (here p t) X1 = pick (here p t) X2.
Proof.
  intros L C H. unfold pick, filter_rows. rewrite <- L, <- C. f_equal. unfold values_at in H. change (fun r => path_eqb (r_path r) p && Z.eqb (r_time r) t) with (fun r : row R => here p t (r_path r) (r_time r)) in H.
  assert (K : forall l : list (row R), filter (fun r => here p t (r_path r) (r_time r)) l = map (mkRow p t) (map r_vals (filter (fun r => here p t (r_path r) (r_time r)) l))).
  { clear. induction l as [|r l IH]; [reflexivity|]. cbn [filter]. destruct (here p t (r_path r) (r_time r)) eqn:E; [|exact IH]. apply here_true in E as [<- <-]. cbn [map]. rewrite <- IH. now destruct r. }
  rewrite K, H, <- K. reflexivity.
Qed.

(** * Arrays *)
Section Two.
Variables (n : nat) (ts1 ts2 : list Z) (cell : nat -> Z -> Prop) (ids : list path).
Hypothesis N1 : ts1 <> [].
Hypothesis N2 : ts2 <> [].
Hypothesis O1 : in_order ts1.
Hypothesis O2 : in_order ts2.

(** two frames with the same rows in the cells *)
Definition agree (X1 X2 : frame R) : Prop := series_of X1 = ids /\ series_of X2 = ids /\ f_levels X1 = f_levels X2 /\
  forall i t, cell i t -> exists p, nth_error ids i = Some p /\ pick (here p t) X1 = pick (here p t) X2.
Lemma agree_ids X1 X2 : agree X1 X2 -> f_levels X1 <> 0 -> series_ids X1 = series_ids X2.
Proof. intros (S1 & S2 & L & _) N. unfold series_of in *. rewrite <- L in S2. destruct (f_levels X1); congruence. Qed.

Lemma cells_same Z1 Z2 : agree Z1 Z2 -> covers Z1 ts1 -> covers Z2 ts2 ->
  same_in_cells (List.length ids) ts1 ts2 cell (map r_vals (f_rows (filter_fh ts1 Z1))) (map r_vals (f_rows (filter_fh ts2 Z2))).
Proof.
  intros (S1 & S2 & _ & A) C1 C2 p q (i & j1 & j2 & t & K & I & J1 & J2 & -> & ->). destruct (A i t K) as (s & S & E).
  assert (S1' := S). assert (S2' := S). rewrite <- S1 in S1'. rewrite <- S2 in S2'.
  destruct (covered_nth _ _ _ _ _ _ C1 S1' J1) as (r1 & E1 & P1 & T1). destruct (covered_nth _ _ _ _ _ _ C2 S2' J2) as (r2 & E2 & P2 & T2).
  assert (r1 = r2).
  { apply (OverlapFrames.nodup_map_inj (fun r => (r_path r, r_time r)) (f_rows (filter_fh ts1 Z1))).
    - change (NoDup (labels (filter_fh ts1 Z1))). rewrite (covers_labels _ _ C1). apply nodup_pairs; [apply series_of_nodup|now apply in_order_nodup].
    - now apply nth_error_In in E1.
    - apply nth_error_In in E2. unfold filter_fh, filter_rows in *. cbn [f_rows] in *. apply filter_In in E2 as [In2 _].
      assert (I2 : In r2 (f_rows (pick (here s t) Z2))) by (apply filter_In; split; [exact In2|now apply here_true]). rewrite <- E in I2. apply filter_In in I2 as [I2 _].
      apply filter_In. split; [exact I2|]. apply existsb_exists. exists t. split; [now apply nth_error_In in J1|]. apply Z.eqb_eq. exact T2.
    - congruence. }
  subst r2. exists (r_vals r1). split; now apply nth_error_map_some.
Qed.

Lemma agree_arrays Z1 Z2 a1 a2 : agree Z1 Z2 -> f_cols Z1 = f_cols Z2 -> covers Z1 ts1 -> covers Z2 ts2 -> row_lengths Z1 -> row_lengths Z2 ->
  frame_array (filter_fh ts1 Z1) = Ok a1 -> frame_array (filter_fh ts2 Z2) = Ok a2 -> same_rows n ts1 ts2 cell (List.length ids) a1 a2.
Proof.
  intros A EC C1 C2 W1 W2 H1 H2. apply covered_array in H1 as (s1 & S1 & Q1 & F1); auto. apply covered_array in H2 as (s2 & S2 & Q2 & F2); auto. rewrite <- EC in S2.
  assert (WF : forall Z ts, row_lengths Z -> Forall (fun r => List.length r = List.length (f_cols Z)) (map r_vals (f_rows (filter_fh ts Z)))).
  { intros Z ts W. apply Forall_forall. intros r Hr. apply in_map_iff in Hr as (r0 & <- & Hr). unfold row_lengths in W. rewrite Forall_forall in W. apply W. unfold filter_fh, filter_rows in Hr. cbn [f_rows] in Hr. now apply filter_In in Hr. }
  exists (List.length (f_cols Z1)), s1, s2, (map r_vals (f_rows (filter_fh ts1 Z1))), (map r_vals (f_rows (filter_fh ts2 Z2))). rewrite !map_length.
  pose proof A as (I1 & I2 & _). do 4 (split; [assumption|]). split; [now apply WF|]. split; [rewrite EC; now apply WF|]. split; [rewrite <- I1; now apply covered_rows|]. split; [rewrite <- I2; now apply covered_rows|]. do 2 (split; [assumption|]).
  intros <-. now apply cells_same.
Qed.

Lemma full_cols e X1 X2 Z1 Z2 : f_cols X1 = f_cols X2 -> full e X1 = Ok Z1 -> full e X2 = Ok Z2 -> f_cols Z1 = f_cols Z2.
Proof.
  intros E H1 H2. destruct e as [m d b|m d q b|m d q r b|inner t ps b s|sp tl ps m b ff x l]; cbn [full] in *; try congruence.
  destruct (attr ff) as [ff'|]; [|discriminate]. cbn [bind] in *. destruct (fourier_transform ff' X1); [|discriminate]. destruct (fourier_transform ff' X2); [|discriminate]. cbn [bind] in *.
  destruct (match x with None => _ | Some _ => _ end) in H1; [|discriminate]. destruct (match x with None => _ | Some _ => _ end) in H2; [|discriminate]. cbn [bind] in *.
  destruct (attr l) as [[? b0]|]; [|discriminate]. cbn [bind] in *. destruct (attr (b_cols b0)); [|discriminate]. cbn [bind] in *. apply OverlapFrames.select_labels in H1 as (_ & _ & -> & _). apply OverlapFrames.select_labels in H2 as (_ & _ & -> & _). reflexivity.
Qed.
Lemma agree_derived X1 X2 Z1 Z2 : agree X1 X2 -> labels Z1 = labels X1 -> f_levels Z1 = f_levels X1 -> labels Z2 = labels X2 -> f_levels Z2 = f_levels X2 ->
  (forall p t, pick (here p t) X1 = pick (here p t) X2 -> pick (here p t) Z1 = pick (here p t) Z2) -> agree Z1 Z2.
Proof.
  intros (S1 & S2 & L & A) L1 V1 L2 V2 H. repeat split; [rewrite (series_of_labels Z1 X1); auto|rewrite (series_of_labels Z2 X2); auto|congruence|]. intros i t K. destruct (A i t K) as (p & E & Q). eauto.
Qed.

Lemma inner_same e : forall X1 X2 d1 d2, agree X1 X2 -> f_cols X1 = f_cols X2 -> covers X1 ts1 -> covers X2 ts2 -> frame_wf X1 -> frame_wf X2 -> (n = 1 /\ List.length ids = 1) \/ supports_multivariate e = true ->
  inner_transform e (filter_fh ts1 X1) ts1 = Ok d1 -> inner_transform e (filter_fh ts2 X2) ts2 = Ok d2 -> same_data n ts1 ts2 cell e d1 d2.
Proof.
  induction e as [m d b|m d q b|m d q r b|inner IH t ps b s|sp tl ps m b ff x l]; intros X1 X2 d1 d2 A EC C1 C2 W1 W2 S H1 H2.
  1,2,3,5: cbn [same_data]; destruct d1 as [|a1|? ?]; auto; destruct d2 as [|a2|? ?]; auto; apply inner_full in H1 as (Z1 & F1 & A1 & L1 & V1 & R1); auto; apply inner_full in H2 as (Z2 & F2 & A2 & L2 & V2 & R2); auto;
    assert (D1 : covers Z1 ts1) by (apply (covers_same X1); auto); assert (D2 : covers Z2 ts2) by (apply (covers_same X2); auto); pose proof (full_cols _ _ _ _ _ EC F1 F2) as EZ;
    assert (AZ : agree Z1 Z2) by (apply (agree_derived X1 X2); auto; intros p0 t0 Q; exact (agree_full _ _ X1 X2 Z1 Z2 Q (agree_ids X1 X2 A) F1 F2));
    pose proof (agree_arrays Z1 Z2 a1 a2 AZ EZ D1 D2 R1 R2 A1 A2) as Q;
    exists (List.length ids); first [exact Q | split; [exact Q|]; destruct S as [[-> S]|S]; [exact S|discriminate]].
  cbn [same_data supports_multivariate] in *. destruct S as [[-> S]|S]; [|discriminate]. split; [reflexivity|]. cbn [inner_transform] in H1, H2.
  destruct (inner_transform inner (filter_fh ts1 X1) ts1) as [e1|] eqn:I1; [|discriminate]. destruct (inner_transform inner (filter_fh ts2 X2) ts2) as [e2|] eqn:I2; [|discriminate]. cbn [bind] in *.
  destruct s as [s|]; [|discriminate]. cbn [attr bind] in *. injection H1 as <-. injection H2 as <-. eexists _, _, _, _. split; [reflexivity|]. split; [reflexivity|]. split.
  - apply (IH X1 X2); auto.
  - intros p q (i & j1 & j2 & t0 & _ & I & J1 & J2 & -> & ->). assert (i = 0) by lia. subst i. cbn [Nat.mul Nat.add]. exists (option_map (fun v => v / s)%R (lift_at t t0)). split; now apply (nth_error_map_some (fun t1 => option_map (fun v => v / s)%R (lift_at t t1))).
Qed.

Lemma transform_same e X1 X2 d1 d2 : agree X1 X2 -> f_cols X1 = f_cols X2 -> covers X1 ts1 -> covers X2 ts2 -> frame_wf X1 -> frame_wf X2 -> (n = 1 /\ List.length ids = 1) \/ supports_multivariate e = true ->
  should_skip_predict e = Ok false -> transform e (Some X1) ts1 = Ok d1 -> transform e (Some X2) ts2 = Ok d2 -> same_data n ts1 ts2 cell e d1 d2.
Proof.
  intros A EC C1 C2 W1 W2 S K H1 H2. unfold transform in *. destruct (attr _) as [[]|]; cbn [bind negb] in *; try discriminate. rewrite K in *. cbn [bind] in *.
  destruct (input_feature_column_names e) as [cols|]; [|discriminate]. cbn [bind] in *. rewrite select_filter in H1, H2. destruct (select_columns 0%R X1 cols) as [Z1|] eqn:SC1; [|discriminate]. destruct (select_columns 0%R X2 cols) as [Z2|] eqn:SC2; [|discriminate]. cbn [bind] in *.
  assert (G : forall X Z, frame_wf X -> select_columns 0%R X cols = Ok Z -> frame_wf Z) by (intros X Z W SC; exact (select_wf _ _ _ W SC)).
  pose proof (G _ _ W1 SC1) as WZ1. pose proof (G _ _ W2 SC2) as WZ2.
  pose proof SC1 as SL1. pose proof SC2 as SL2. apply OverlapFrames.select_labels in SL1 as (L1 & V1 & E1 & _). apply OverlapFrames.select_labels in SL2 as (L2 & V2 & E2 & _).
  apply (inner_same e Z1 Z2); auto; try (congruence || (apply (covers_same X1); auto; fail) || (apply (covers_same X2); auto; fail)).
  apply (agree_derived X1 X2); auto. intros p t Q. exact (agree_select _ X1 X2 Z1 Z2 cols Q SC1 SC2).
Qed.

Lemma effects_data (fitted : list fitted_effect) effs X1 X2 d1 d2 : agree X1 X2 -> f_cols X1 = f_cols X2 -> covers X1 ts1 -> covers X2 ts2 -> frame_wf X1 -> frame_wf X2 -> (n = 1 /\ List.length ids = 1) \/ (forall g, In g fitted -> supports_multivariate (fe_effect g) = true) ->
  non_skipped fitted = Ok effs -> transform_effects fitted X1 ts1 = Ok d1 -> transform_effects fitted X2 ts2 = Ok d2 ->
  forall name ef x1 x2, In (name, ef) effs -> dict_get d1 name = Some x1 -> dict_get d2 name = Some x2 -> same_data n ts1 ts2 cell ef x1 x2.
Proof.
  intros A EC C1 C2 W1 W2 S HN H1 H2. pose proof (non_skipped_nodup _ _ HN) as ND.
  assert (R : forall name ef x1 x2, dict_get effs name = Some ef -> dict_get d1 name = Some x1 -> dict_get d2 name = Some x2 -> same_data n ts1 ts2 cell ef x1 x2).
  2:{ intros name ef x1 x2 I. apply R. now apply dict_get_nodup. }
  unfold non_skipped in HN. unfold transform_effects in H1, H2.
  assert (G : forall l, incl l fitted -> forall a1 a2 a0,
    (forall name ef x1 x2, dict_get a0 name = Some ef -> dict_get a1 name = Some x1 -> dict_get a2 name = Some x2 -> same_data n ts1 ts2 cell ef x1 x2) ->
    foldM (fun out f => let '(name, e, _) := f in skip <- should_skip_predict e ;; Ok (if (skip : bool) then out else dict_set out name e)) a0 l = Ok effs ->
    foldM (fun out f => let '(name, e, cols) := f in skip <- should_skip_predict e ;; if (skip : bool) then Ok out
           else XC <- select_columns 0%R X1 cols ;; d <- transform e (Some XC) ts1 ;; Ok (dict_set out name d)) a1 l = Ok d1 ->
    foldM (fun out f => let '(name, e, cols) := f in skip <- should_skip_predict e ;; if (skip : bool) then Ok out
           else XC <- select_columns 0%R X2 cols ;; d <- transform e (Some XC) ts2 ;; Ok (dict_set out name d)) a2 l = Ok d2 ->
    forall name ef x1 x2, dict_get effs name = Some ef -> dict_get d1 name = Some x1 -> dict_get d2 name = Some x2 -> same_data n ts1 ts2 cell ef x1 x2).
  { induction l as [|[[name ef] cols] l IH]; intros I a1 a2 a0 AA F0 F1 F2; cbn [foldM] in *; [injection F0 as <-; injection F1 as <-; injection F2 as <-; exact AA|].
    destruct (should_skip_predict ef) as [[|]|] eqn:SK; cbn [bind] in *; [apply (IH (fun g Hg => I g (or_intror Hg)) a1 a2 a0); auto| |discriminate].
    destruct (select_columns 0%R X1 cols) as [Z1|] eqn:SC1; [|discriminate]. destruct (select_columns 0%R X2 cols) as [Z2|] eqn:SC2; [|discriminate]. cbn [bind] in *.
    destruct (transform ef (Some Z1) ts1) as [y1|] eqn:T1; [|discriminate]. destruct (transform ef (Some Z2) ts2) as [y2|] eqn:T2; [|discriminate]. cbn [bind] in *.
    refine (IH (fun g Hg => I g (or_intror Hg)) _ _ _ _ F0 F1 F2). intros nm g x1 x2. rewrite !dict_get_set. destruct (String.eqb nm name); [|apply AA]. intros [= <-] [= <-] [= <-].
    pose proof (select_wf _ _ _ W1 SC1) as WC1. pose proof (select_wf _ _ _ W2 SC2) as WC2. pose proof SC1 as SL1. pose proof SC2 as SL2.
    apply OverlapFrames.select_labels in SL1 as (L1 & V1 & E1 & _). apply OverlapFrames.select_labels in SL2 as (L2 & V2 & E2 & _).
    apply (transform_same ef Z1 Z2); auto; try (congruence || (apply (covers_same X1); auto; fail) || (apply (covers_same X2); auto; fail)).
    - apply (agree_derived X1 X2); auto. intros p t Q. exact (agree_select _ X1 X2 Z1 Z2 cols Q SC1 SC2).
    - destruct S as [S|S]; [now left|right]. exact (S (name, ef, cols) (I _ (or_introl eq_refl))). }
  apply (G fitted (incl_refl _) [] [] []); auto. discriminate.
Qed.
End Two.
