(** Frames with one row for each series and date. *)
From Coq Require Import Reals Lra String Ascii Bool ZArith List Sorted Permutation Lia.
From Verif.Model Require Import Base Num XFloat Regex Frame Arr Expand Aggregate Scale Prog Likelihood Effect Trend TrendProg Engine Predict Forecaster.
From Verif.Spec Require Import FrameSpec ScaleSpec TrendSpec ProgSpec EffectSpec ForecasterSpec AlignSpec ShapeSpec TotalSpec.
From Verif.Facts Require Import BaseFacts NumFacts OrderFacts FrameFacts FrameProps ArrFacts ProgFacts ExpandFacts EffectFacts EffectFourier EffectPredict
  AlignFacts PredictFacts ForecasterFacts ForecasterInv ForecasterProps ForecasterTransformer CompleteFacts ShapeFacts AlignForecaster TotalFacts.
Import ListNotations.
Local Open Scope string_scope.

Definition grid (ids : list path) (times : list Z) (X : frame R) : Prop :=
  frame_wf X /\ f_levels X <> 0 /\ NoDup (labels X) /\ forall p t, In (p, t) (labels X) <-> In p ids /\ In t times.

Lemma nonempty_In {A} (l : list A) : l <> [] -> exists x, In x l.
Proof. destruct l as [|x l]; [congruence|]. intros _. exists x. simpl. auto. Qed.

Section Grid.
Variables (ids : list path) (times : list Z) (X : frame R).
Hypothesis G : grid ids times X.
Hypothesis Ni : NoDup ids.
Hypothesis Nt : NoDup times.
Hypothesis Ei : ids <> [].
Hypothesis Et : times <> [].

Lemma grid_row r : In r (f_rows X) -> In (r_path r) ids /\ In (r_time r) times.
Proof. intros H. apply G. unfold labels. apply in_map_iff. exists r. auto. Qed.

Lemma grid_label p t : In p ids -> In t times -> exists r, In r (f_rows X) /\ r_path r = p /\ r_time r = t.
Proof.
  intros Hp Ht. assert (I : In (p, t) (labels X)) by (apply G; auto). unfold labels in I. apply in_map_iff in I as (r & [= E1 E2] & Hr). eauto.
Qed.

Lemma grid_ids p : In p (series_ids X) <-> In p ids.
Proof.
  rewrite series_ids_In. split.
  - intros (r & Hr & <-). now apply grid_row.
  - intros Hp. destruct (nonempty_In times Et) as (t & Ht). destruct (grid_label p t Hp Ht) as (r & Hr & E1 & _). eauto.
Qed.

Lemma grid_n : List.length (series_ids X) = List.length ids.
Proof. apply NoDup_same_length; [apply paths_unique_NoDup|exact Ni|exact grid_ids]. Qed.

Lemma grid_nonempty : f_rows X <> [].
Proof.
  destruct (nonempty_In ids Ei) as (p & Hp). destruct (nonempty_In times Et) as (t & Ht).
  destruct (grid_label p t Hp Ht) as (r & Hr & _). intros E. rewrite E in Hr. contradiction.
Qed.

Lemma grid_times t : In t (time_ids X) <-> In t times.
Proof.
  unfold time_ids. rewrite times_unique_In. split.
  - intros H. apply in_map_iff in H as (r & <- & Hr). now apply grid_row.
  - intros Ht. destruct (nonempty_In ids Ei) as (p & Hp). destruct (grid_label p t Hp Ht) as (r & Hr & _ & E1). apply in_map_iff. eauto.
Qed.

Lemma grid_balanced : balanced X.
Proof.
  destruct G as (_ & _ & N & I). split; [exact N|]. intros p t Hp Ht. apply in_map_iff in Hp as (r & <- & Hr). apply in_map_iff in Ht as (r' & <- & Hr').
  apply I. split; now apply grid_row.
Qed.

Lemma grid_rows p : In p ids -> List.length (rows_of X p) = List.length times.
Proof.
  intros Hp. rewrite (balanced_rows X p grid_balanced) by now apply grid_ids. apply NoDup_same_length; [apply times_unique_NoDup|exact Nt|exact grid_times].
Qed.

Lemma grid_tensor : series_to_tensor X = Ok (map (fun p => map r_vals (rows_of X p)) (series_ids X)).
Proof. apply (series_to_tensor_ok X (List.length times)); [apply G|]. intros p Hp. apply grid_rows. now apply grid_ids. Qed.

Lemma grid_data k : List.length (f_cols X) = k -> let a := arr_of_data k (D3 (map (fun p => map r_vals (rows_of X p)) (series_ids X))) in
  a_shape a = [List.length ids; List.length times; k] /\ arr_wf a.
Proof.
  intros K. cbn zeta. unfold arr_of_data. rewrite map_length, grid_n.
  assert (T : match map (fun p => map r_vals (rows_of X p)) (series_ids X) with [] => 0 | s :: _ => List.length s end = List.length times).
  { pose proof grid_n as Q. destruct (series_ids X) as [|p ps] eqn:E; [cbn in Q; symmetry in Q; apply length_zero_iff_nil in Q; contradiction|]. cbn [map]. rewrite map_length. apply grid_rows. apply grid_ids. rewrite E. simpl. auto. }
  rewrite T. split; [reflexivity|]. unfold arr_wf. cbn [a_flat a_shape]. rewrite map_map.
  rewrite (concat_length_uniform (List.length times * k)).
  - rewrite map_length, grid_n. unfold prod_shape. simpl. lia.
  - intros l Hl. apply in_map_iff in Hl as (p & <- & Hp). rewrite (concat_length_uniform k).
    + rewrite map_length, grid_rows; [reflexivity|now apply grid_ids].
    + intros l Hl. apply in_map_iff in Hl as (r & <- & Hr). unfold rows_of in Hr. apply filter_In in Hr as [Hr _]. rewrite <- K. now apply G.
Qed.

Lemma grid_array : exists a, frame_array X = Ok a /\ a_shape a = [List.length ids; List.length times; List.length (f_cols X)] /\ arr_wf a.
Proof.
  destruct (grid_data _ eq_refl) as [Sa Wa]. unfold frame_array, series_to_tensor_or_array. destruct G as (_ & L & _). destruct (f_levels X) eqn:E; [congruence|].
  rewrite grid_tensor. cbn [bind]. eauto.
Qed.
End Grid.

(** * What keeps the labels keeps the property *)
Lemma grid_same ids times (X Y : frame R) : grid ids times X -> frame_wf Y -> labels Y = labels X -> f_levels Y = f_levels X -> grid ids times Y.
Proof. intros (W & L & N & I) WY EL EV. unfold grid. rewrite EL, EV. auto. Qed.

Lemma grid_filter ids times fh (X : frame R) : grid ids times X -> (forall t, In t fh -> In t times) -> grid ids fh (filter_fh fh X).
Proof.
  intros (W & L & N & I) H. split; [now apply filter_rows_wf|]. split; [exact L|]. split; [now apply NoDup_labels_filter|].
  intros p t. rewrite horizon_labels, I. cbn [snd]. split; [tauto|]. intros [H1 H2]. auto.
Qed.

Lemma grid_select ids times (X Y : frame R) cols : grid ids times X -> select_columns 0%R X cols = Ok Y -> grid ids times Y /\ f_cols Y = cols.
Proof.
  intros G E. split.
  - apply (grid_same ids times X); [exact G|eapply select_wf; [apply G|exact E]|exact (select_labels _ _ _ E)|].
    unfold select_columns in E. destruct (mapM _ cols); [|discriminate]. cbn [bind] in E. now injection E as <-.
  - exact (proj1 (select_columns_cols _ _ _ _ E)).
Qed.

Lemma grid_select_total ids times (X : frame R) cols : grid ids times X -> (forall c, In c cols -> In c (f_cols X)) ->
  exists Y, select_columns 0%R X cols = Ok Y /\ grid ids times Y /\ f_cols Y = cols.
Proof.
  intros G I. destruct (proj2 (select_columns_iff 0%R X cols) I) as (Y & E). exists Y. split; [exact E|]. now apply (grid_select ids times X).
Qed.

(** * Expansion *)
Lemma expand_total ids times (X : frame R) ex : grid ids times X -> ids <> [] -> times <> [] -> (forall c, In c (ex_matched ex) -> In c (f_cols X)) ->
  exists Y ex', expand_transform 0%R (fun _ => false) ex X = Ok (Y, ex') /\ grid ids times Y /\
    (ex_skip ex = false -> forall c, In c (f_cols Y) <->
       (In c (f_cols X) \/ exists m p, In m (ex_matched ex) /\ In p ids /\ c = get_col_name m p) /\ ~ In c (ex_matched ex)).
Proof.
  intros G Ni Nt I. assert (H : exists Y ex', expand_transform 0%R (fun _ => false) ex X = Ok (Y, ex') /\
     (ex_skip ex = false -> forall c, In c (f_cols Y) <-> (In c (f_cols X) \/ exists m p, In m (ex_matched ex) /\ In p ids /\ c = get_col_name m p) /\ ~ In c (ex_matched ex))).
  { unfold expand_transform. destruct (ex_skip ex); [eexists _, _; split; [reflexivity|discriminate]|]. destruct (f_levels X) eqn:L; [destruct G as (_ & L0 & _); congruence|].
    rewrite add_zero_pairs, copy_columns_pairs.
    assert (Z1 : forall ps (Y : frame R) c, In c (f_cols (fold_left (fun X p => set_col X (pname p) (fun _ => 0%R)) ps Y)) <-> In c (f_cols Y) \/ exists p, In p ps /\ c = pname p).
    { induction ps as [|p ps IH]; intros Y c; cbn [fold_left]; [split; [auto|intros [H|(p & [] & _)]; exact H]|]. rewrite IH, set_col_cols. destruct (str_in (pname p) (f_cols Y)) eqn:S0.
      - apply str_in_iff in S0. split; [intros [H|(q & H & E)]; [auto|right; exists q; simpl; auto]|intros [H|(q & [<-|H] & E)]; [auto|left; congruence|right; eauto]].
      - rewrite in_app_iff. simpl. split; [intros [[H|[<-|[]]]|(q & H & E)]; [auto|right; exists p; auto|right; exists q; auto]|intros [H|(q & [<-|H] & E)]; [auto|left; right; auto|right; eauto]]. }
    set (Y := fold_left _ _ _). assert (EY : forall c, In c (f_cols Y) <-> In c (f_cols X) \/ exists p, In p (zero_pairs (ex_matched ex) (series_ids X)) /\ c = pname p) by (intros c; apply Z1).
    assert (Z2 : forall ps, (forall p, In p ps -> In p (copy_pairs (ex_matched ex) (series_ids X))) -> forall Y', f_cols Y' = f_cols Y ->
       exists Y2, foldM (fun Z p => copy_column 0%R (fun _ => false) X Z (fst p) (snd p)) Y' ps = Ok Y2 /\ f_cols Y2 = f_cols Y).
    { induction ps as [|p ps IH]; intros HP Y' E; cbn [foldM]; [eauto|]. assert (Hp := HP p ltac:(simpl; auto)). apply copy_pairs_In in Hp as [H1 H2].
      destruct (copy_column_ok 0%R (fun _ => false) X Y' (fst p) (snd p)) as (Y2 & E2); [auto|rewrite E; apply EY; right; exists p; split; [now apply zero_pairs_In|reflexivity]|].
      rewrite E2. cbn [bind]. apply IH; [intros; apply HP; simpl; auto|]. rewrite <- E. unfold copy_column in E2. destruct (col_pos _ (fst p)); [|discriminate]. destruct (col_pos _ (get_col_name _ _)); [|discriminate].
      now injection E2 as <-. }
    destruct (Z2 (copy_pairs (ex_matched ex) (series_ids X)) (fun p H => H) Y eq_refl) as (Y2 & E2 & C2). rewrite E2. cbn [bind]. eexists _, _. split; [reflexivity|].
    intros _ c. unfold drop_columns. cbn [f_cols]. rewrite (combine_map_filter (fun c => negb (str_in c (ex_matched ex)))), filter_In, C2, EY, negb_true_iff. rewrite str_in_false.
    split; intros [H1 H2]; (split; [|exact H2]); (destruct H1 as [H1|H1]; [auto|right]).
    - destruct H1 as ([m p] & H1 & ->). apply zero_pairs_In in H1 as [H1 H3]. exists m, p. cbn [fst snd] in *. apply (grid_ids ids times X G Nt) in H3. auto.
    - destruct H1 as (m & p & H1 & H3 & ->). exists (m, p). split; [apply zero_pairs_In; cbn; split; [exact H1|now apply (grid_ids ids times X G Nt)]|reflexivity]. }
  destruct H as (Y & ex' & E & C). exists Y, ex'. split; [exact E|]. split; [|exact C]. destruct (expand_transform_labels _ _ _ _ _ _ E) as [EL EV].
  apply (grid_same ids times X); auto. eapply expand_transform_wf; [apply G|exact E].
Qed.

(** * Fourier features *)
Lemma fourier_fit_grid sp terms m ids times (X : frame R) : grid ids times X -> ids <> [] -> times <> [] -> applicable [] (mk_fourier sp terms 0 m) ->
  exists f, fourier_fit sp terms (Some X) = Ok f /\ ff_pairs f <> [] /\ forall p, In p ids -> exists z, find_min (ff_min f) p = Ok z.
Proof.
  intros G Ei Et (L & P & Z0 & _). unfold fourier_fit. rewrite L, Nat.eqb_refl. cbn [negb].
  destruct (existsb _ _) eqn:E.
  { exfalso. apply existsb_exists in E as ([s n] & I & H). cbn [fst snd] in H. apply Rltb_true in H. specialize (P _ _ I). lra. }
  pose proof (grid_nonempty ids times X G Ei Et) as N. destruct (f_rows X) as [|r rows] eqn:ER; [congruence|].
  eexists. split; [reflexivity|]. cbn [ff_pairs ff_min]. split; [now apply pairs_nonempty|]. intros p Hp. apply (grid_ids ids times X G Et) in Hp.
  unfold find_min, iterate_all_series. rewrite map_map. cbn [fst]. destruct (find _ _) eqn:F; [eauto|]. exfalso.
  pose proof (find_none _ _ F) as FN. match type of FN with forall x, In x (map ?g _) -> _ => specialize (FN (g p) (in_map g _ _ Hp)) end. cbn [fst] in FN. now rewrite path_eqb_refl in FN.
Qed.

Lemma fourier_vals_length ps t : List.length (fourier_vals ps t) = List.length (fourier_cols ps).
Proof.
  unfold fourier_vals, fourier_cols. assert (G : forall k, List.length (flat_map (fun pk => [sin (fourier_angle pk t); cos (fourier_angle pk t)]) ps) =
     List.length (flat_map (fun i => [sin_name i; cos_name i]) (seq k (List.length ps)))).
  { induction ps as [|p ps IH]; intros k; [reflexivity|]. cbn [flat_map List.length seq]. rewrite !app_length, (IH (S k)). reflexivity. }
  apply G.
Qed.

Lemma fourier_transform_grid f ids times (X : frame R) : grid ids times X -> (forall p, In p ids -> exists z, find_min (ff_min f) p = Ok z) ->
  exists XF, fourier_transform f X = Ok XF /\ grid ids times XF /\ f_cols XF = fourier_cols (ff_pairs f).
Proof.
  intros G Z0. unfold fourier_transform.
  destruct (mapM_total (fun r : row R => m <- find_min (ff_min f) (r_path r) ;; Ok (mkRow (r_path r) (r_time r) (fourier_vals (ff_pairs f) (r_time r - m))))
     (fun r r' => (r_path r', r_time r') = (r_path r, r_time r) /\ List.length (r_vals r') = List.length (fourier_cols (ff_pairs f))) (f_rows X)) as (rs & E & F).
  { intros r Hr. destruct (Z0 (r_path r)) as (z & Ez); [now apply (grid_row ids times X G)|]. rewrite Ez. cbn [bind]. eexists. split; [reflexivity|]. cbn. split; [reflexivity|apply fourier_vals_length]. }
  rewrite E. cbn [bind]. eexists. split; [reflexivity|]. split; [|reflexivity].
  assert (EL : map (fun r => (r_path r, r_time r)) rs = labels X) by (unfold labels; clear -F; induction F as [|r r' l l' [H _] F IH]; [reflexivity|]; cbn [map]; now rewrite H, IH).
  apply (grid_same ids times X); [exact G| |exact EL|reflexivity].
  intros r' Hr'. cbn [f_rows f_cols f_levels] in *. clear E. apply Forall2_In_both in F as [_ F]. destruct (F r' Hr') as (r & Hr & [= E1 _] & L). rewrite E1. split; [exact L|]. now apply G.
Qed.

(** names of Fourier features are not names of expanded columns *)
Lemma bars_chars n a : In a (list_ascii_of_string (bars n)) -> a = "|"%char.
Proof. induction n as [|n IH]; cbn; [contradiction|]. intros [<-|H]; auto. Qed.

Lemma list_ascii_app a b : list_ascii_of_string (a ++ b) = (list_ascii_of_string a ++ list_ascii_of_string b)%list.
Proof. induction a as [|x a IH]; cbn; [reflexivity|]. now rewrite <- IH. Qed.

Lemma fourier_not_expanded ps c m p : In c (fourier_cols ps) -> c <> get_col_name m p.
Proof.
  intros H E. assert (D : In "d"%char (list_ascii_of_string c)).
  { rewrite E. unfold get_col_name. rewrite !list_ascii_app. apply in_or_app. right. apply in_or_app. left. simpl. auto. }
  unfold fourier_cols in H. apply in_flat_map in H as (i & _ & H). clear E. destruct H as [<-|[<-|[]]]; unfold sin_name, cos_name in D; rewrite list_ascii_app in D; apply in_app_or in D as [D|D].
  - simpl in D. intuition discriminate.
  - apply bars_chars in D. discriminate.
  - simpl in D. intuition discriminate.
  - apply bars_chars in D. discriminate.
Qed.
