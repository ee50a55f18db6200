(** Everything commutes with moving dates: frames, effects, trends. *)
From Coq Require Import Reals String Bool ZArith List Lia Lra FunctionalExtensionality.
From Verif.Model Require Import Base Num XFloat Regex Frame Arr Expand Aggregate Scale Predict Prog Likelihood Trend Effect
  TrendProg Engine Forecaster.
From Verif.Spec Require Import ShiftSpec.
From Verif.Facts Require Import BaseFacts NumFacts FrameFacts.
Import ListNotations.
Local Open Scope string_scope.

(** * Results *)
Lemma bind_rmap : forall {A B C} (g : A -> B) (r : res A) (h : B -> res C), bind (rmap g r) h = bind r (fun a => h (g a)).
Proof. intros. destruct r; reflexivity. Qed.
Lemma rmap_bind : forall {A B C} (g : B -> C) (r : res A) (h : A -> res B), rmap g (bind r h) = bind r (fun a => rmap g (h a)).
Proof. intros. destruct r; reflexivity. Qed.
Lemma bind_ext : forall {A B} (r : res A) (f g : A -> res B), (forall a, f a = g a) -> bind r f = bind r g.
Proof. intros A B r f g H. destruct r; simpl; auto. Qed.
Lemma bind_assoc : forall {A B C} (r : res A) (f : A -> res B) (g : B -> res C), bind (bind r f) g = bind r (fun a => bind (f a) g).
Proof. intros. destruct r; reflexivity. Qed.
Lemma rmap_id : forall {A} (r : res A), rmap (fun a => a) r = r.
Proof. intros. destruct r; reflexivity. Qed.

Lemma mapM_ext : forall {A B} (f g : A -> res B) l, (forall a, In a l -> f a = g a) -> mapM f l = mapM g l.
Proof.
  induction l as [|x tl IH]; intros H; simpl. reflexivity.
  rewrite (H x (or_introl eq_refl)). apply bind_ext. intros b. rewrite IH. reflexivity. intros a Ha. apply H. right; exact Ha.
Qed.
Lemma mapM_map : forall {A B C} (g : A -> B) (f : B -> res C) l, mapM f (map g l) = mapM (fun a => f (g a)) l.
Proof. induction l as [|x tl IH]; simpl. reflexivity. rewrite IH. reflexivity. Qed.
Lemma mapM_rmap : forall {A B C} (g : B -> C) (f : A -> res B) l, mapM (fun a => rmap g (f a)) l = rmap (map g) (mapM f l).
Proof.
  induction l as [|x tl IH]; simpl. reflexivity.
  destruct (f x); simpl; [|reflexivity]. rewrite IH. destruct (mapM f tl); reflexivity.
Qed.
Lemma foldM_map : forall {A B S} (g : A -> B) (f : S -> B -> res S) l s, foldM f s (map g l) = foldM (fun s a => f s (g a)) s l.
Proof. induction l as [|x tl IH]; intros s; simpl. reflexivity. apply bind_ext. intros s'. apply IH. Qed.
Lemma foldM_ext : forall {A S} (f g : S -> A -> res S) l s, (forall s a, f s a = g s a) -> foldM f s l = foldM g s l.
Proof. induction l as [|x tl IH]; intros s H; simpl. reflexivity. rewrite H. apply bind_ext. intros s'. apply IH. exact H. Qed.
Lemma foldM_rmap : forall {A S T} (h : S -> T) (f : S -> A -> res S) (g : T -> A -> res T) l s,
  (forall s a, g (h s) a = rmap h (f s a)) -> foldM g (h s) l = rmap h (foldM f s l).
Proof.
  induction l as [|x tl IH]; intros s H; simpl. reflexivity.
  rewrite H, bind_rmap, rmap_bind. apply bind_ext. intros s'. apply IH. exact H.
Qed.

(** * Lists *)
Lemma filter_map : forall {A B} (g : A -> B) (p : B -> bool) (l : list A), filter p (map g l) = map g (filter (fun a => p (g a)) l).
Proof. induction l as [|x tl IH]; simpl. reflexivity. destruct (p (g x)); simpl; rewrite IH; reflexivity. Qed.
Lemma filter_same : forall {A} (p q : A -> bool) (l : list A), (forall a, p a = q a) -> filter p l = filter q l.
Proof. induction l as [|x tl IH]; intros H; simpl. reflexivity. rewrite H, IH by exact H. reflexivity. Qed.
Lemma existsb_map : forall {A B} (g : A -> B) (p : B -> bool) (l : list A), existsb p (map g l) = existsb (fun a => p (g a)) l.
Proof. induction l as [|x tl IH]; simpl. reflexivity. rewrite IH. reflexivity. Qed.
Lemma existsb_same : forall {A} (p q : A -> bool) (l : list A), (forall a, p a = q a) -> existsb p l = existsb q l.
Proof. induction l as [|x tl IH]; intros H; simpl. reflexivity. rewrite H, IH by exact H. reflexivity. Qed.
Lemma flat_map_map : forall {A B C} (g : A -> B) (f : B -> list C) (l : list A), flat_map f (map g l) = flat_map (fun a => f (g a)) l.
Proof. induction l as [|x tl IH]; simpl. reflexivity. rewrite IH. reflexivity. Qed.
Lemma map_flat_map : forall {A B C} (g : B -> C) (f : A -> list B) (l : list A), map g (flat_map f l) = flat_map (fun a => map g (f a)) l.
Proof. induction l as [|x tl IH]; simpl. reflexivity. rewrite map_app, IH. reflexivity. Qed.
Lemma flat_map_same : forall {A B} (f g : A -> list B) (l : list A), (forall a, In a l -> f a = g a) -> flat_map f l = flat_map g l.
Proof.
  induction l as [|x tl IH]; intros H; simpl. reflexivity.
  rewrite (H x (or_introl eq_refl)), IH. reflexivity. intros a Ha. apply H. right; exact Ha.
Qed.
Lemma combine_map_l : forall {A B C} (g : A -> B) (l : list A) (m : list C), combine (map g l) m = map (fun p => (g (fst p), snd p)) (combine l m).
Proof. induction l as [|x tl IH]; intros [|y m]; simpl; try reflexivity. rewrite IH. reflexivity. Qed.
Lemma combine_map_r : forall {A B C} (g : A -> B) (m : list C) (l : list A), combine m (map g l) = map (fun p => (fst p, g (snd p))) (combine m l).
Proof. induction m as [|x tl IH]; intros [|y l]; simpl; try reflexivity. rewrite IH. reflexivity. Qed.
Lemma unique_map : forall {A B} (ea : A -> A -> bool) (eb : B -> B -> bool) (g : A -> B) (H : forall x y, eb (g x) (g y) = ea x y) l,
  unique eb (map g l) = map g (unique ea l).
Proof.
  intros A B ea eb g H l. unfold unique.
  assert (G : forall l seen, unique_aux eb (map g seen) (map g l) = map g (unique_aux ea seen l)).
  { induction l0 as [|x tl IH]; intros seen; simpl. reflexivity.
    rewrite existsb_map. rewrite (existsb_same (fun a => eb (g x) (g a)) (ea x) seen) by (intros a; apply H).
    destruct (existsb (ea x) seen). apply IH. simpl. f_equal. exact (IH (x :: seen)). }
  exact (G l []).
Qed.

(** * Reals *)
Lemma Rsum_shift : forall (d : R) l, Rsum (map (fun x => (x + d)%R) l) = (Rsum l + INR (List.length l) * d)%R.
Proof.
  induction l as [|x tl IH]. simpl. lra.
  cbn [map Rsum List.length]. rewrite IH, S_INR. lra.
Qed.
Lemma Rmean_shift : forall (d : R) l, l <> [] -> Rmean (map (fun x => (x + d)%R) l) = (Rmean l + d)%R.
Proof.
  intros d l H. unfold Rmean. rewrite Rsum_shift, map_length. field.
  destruct l; [contradiction|]. cbn [List.length]. rewrite S_INR. pose proof (pos_INR (List.length l)). lra.
Qed.
Lemma diffs_shift : forall (d : R) l, diffs (map (fun x => (x + d)%R) l) = diffs l.
Proof.
  intros d. induction l as [|x [|y tl] IH]; try reflexivity.
  change (diffs (map (fun x => (x + d)%R) (x :: y :: tl))) with (((y + d) - (x + d))%R :: diffs (map (fun x => (x + d)%R) (y :: tl))).
  rewrite IH. change (diffs (x :: y :: tl)) with ((y - x)%R :: diffs (y :: tl)). f_equal. lra.
Qed.
Lemma Rmin_shift : forall d a b, Rmin (a + d) (b + d) = (Rmin a b + d)%R.
Proof. intros. unfold Rmin. destruct (Rle_dec a b), (Rle_dec (a + d) (b + d)); lra. Qed.
Lemma Rmin_list_shift : forall (d : R) l x, Rmin_list (x + d) (map (fun x => (x + d)%R) l) = (Rmin_list x l + d)%R.
Proof. unfold Rmin_list. induction l as [|y tl IH]; intros x; simpl. reflexivity. rewrite Rmin_shift. apply IH. Qed.

Lemma ols_line_shift : forall (d : R) xs ys, ols_line (map (fun x => (x + d)%R) xs) ys = ols_line xs ys.
Proof.
  intros d xs ys. destruct xs as [|x0 xs0]. reflexivity.
  set (xs := x0 :: xs0). assert (N : xs <> []) by (subst xs; discriminate). clearbody xs. clear x0 xs0.
  unfold ols_line, ols_slope. rewrite (Rmean_shift d xs N).
  rewrite !map_map.
  assert (E1 : map (fun x : R => ((x + d - (Rmean xs + d)) * (x + d - (Rmean xs + d)))%R) xs = map (fun x => ((x - Rmean xs) * (x - Rmean xs))%R) xs).
  { apply map_ext. intros a. f_equal; lra. }
  rewrite E1. rewrite combine_map_l, map_map. cbn [fst snd].
  assert (E2 : map (fun x : R * R => ((fst x + d - (Rmean xs + d)) * (snd x - Rmean ys))%R) (combine xs ys)
             = map (fun xy => ((fst xy - Rmean xs) * (snd xy - Rmean ys))%R) (combine xs ys)).
  { apply map_ext. intros a. f_equal; lra. }
  rewrite E2. apply map_ext. intros a. f_equal. f_equal. lra.
Qed.

Section Moved.
Variable k : Z.
Notation moved := (moved k).
Notation moved_row := (moved_row k).
Notation moved_time := (moved_time k).
Notation moved_labels := (moved_labels k).

Lemma eqb_moved : forall a b, Z.eqb (moved_time a) (moved_time b) = Z.eqb a b.
Proof. intros. unfold ShiftSpec.moved_time. destruct (Z.eqb_spec a b), (Z.eqb_spec (a + k) (b + k)); lia || reflexivity. Qed.

(** * Frames *)
Lemma rows_moved : forall {V} (f : frame V), f_rows (moved f) = map moved_row (f_rows f).
Proof. reflexivity. Qed.
Lemma paths_moved : forall {V} (l : list (row V)), map r_path (map moved_row l) = map r_path l.
Proof. intros. rewrite map_map. apply map_ext. reflexivity. Qed.
Lemma vals_moved : forall {V} (l : list (row V)), map r_vals (map moved_row l) = map r_vals l.
Proof. intros. rewrite map_map. apply map_ext. reflexivity. Qed.
Lemma times_moved : forall {V} (l : list (row V)), map r_time (map moved_row l) = map moved_time (map r_time l).
Proof. intros. rewrite !map_map. apply map_ext. reflexivity. Qed.
Lemma flat_vals_moved : forall {V} (l : list (row V)), flat_map r_vals (map moved_row l) = flat_map r_vals l.
Proof. intros. rewrite flat_map_map. reflexivity. Qed.
Lemma series_ids_moved : forall {V} (f : frame V), series_ids (moved f) = series_ids f.
Proof. intros. unfold series_ids. rewrite rows_moved, paths_moved. reflexivity. Qed.
Lemma times_unique_moved : forall l, times_unique (map moved_time l) = map moved_time (times_unique l).
Proof. intros. apply unique_map. exact eqb_moved. Qed.
Lemma time_ids_moved : forall {V} (f : frame V), time_ids (moved f) = map moved_time (time_ids f).
Proof. intros. unfold time_ids. rewrite rows_moved, times_moved. apply times_unique_moved. Qed.
Lemma filter_rows_moved : forall {V} (p q : row V -> bool) (f : frame V), (forall r, p (moved_row r) = q r) -> filter_rows p (moved f) = moved (filter_rows q f).
Proof. intros V p q f H. unfold filter_rows, ShiftSpec.moved. cbn. f_equal. rewrite filter_map. f_equal. apply filter_same. exact H. Qed.
Lemma rows_of_moved : forall {V} (f : frame V) p, rows_of (moved f) p = map moved_row (rows_of f p).
Proof. intros. unfold rows_of. rewrite rows_moved, filter_map. reflexivity. Qed.
Lemma bottom_idx_moved : forall {V} (f : frame V), get_bottom_series_idx (moved f) = get_bottom_series_idx f.
Proof. intros. unfold get_bottom_series_idx. rewrite series_ids_moved. reflexivity. Qed.
Lemma multiindex_loc_moved : forall {V} (f : frame V) l, get_multiindex_loc (moved f) l = rmap moved (get_multiindex_loc f l).
Proof. intros. unfold get_multiindex_loc. destruct l; [reflexivity|]. cbn [rmap]. f_equal. apply filter_rows_moved. reflexivity. Qed.
Lemma loc_bottom_moved : forall {V} (f : frame V), loc_bottom_series (moved f) = rmap moved (loc_bottom_series f).
Proof.
  intros. unfold loc_bottom_series. cbn [f_levels ShiftSpec.moved]. destruct (f_levels f); [reflexivity|].
  rewrite bottom_idx_moved, rmap_bind. apply bind_ext. intros l. apply multiindex_loc_moved.
Qed.
Lemma iterate_moved : forall {V} (f : frame V), iterate_all_series (moved f) = map (fun s => (fst s, map moved_row (snd s))) (iterate_all_series f).
Proof. intros. unfold iterate_all_series. rewrite series_ids_moved, map_map. apply map_ext. intros p. cbn [fst snd]. rewrite rows_of_moved. reflexivity. Qed.
Lemma tensor_moved : forall {V} (f : frame V), series_to_tensor (moved f) = series_to_tensor f.
Proof.
  intros. unfold series_to_tensor. cbn [f_levels ShiftSpec.moved]. destruct (f_levels f).
  - rewrite rows_moved, vals_moved. reflexivity.
  - rewrite iterate_moved, foldM_map. f_equal. apply foldM_ext. intros [len acc] s. cbn [snd]. rewrite vals_moved, map_length. reflexivity.
Qed.
Lemma tensor_or_array_moved : forall {V} (f : frame V), series_to_tensor_or_array (moved f) = series_to_tensor_or_array f.
Proof. intros. unfold series_to_tensor_or_array. rewrite tensor_moved, rows_moved, vals_moved. reflexivity. Qed.
Lemma index_of_moved : forall {V} (f : frame V), index_of (moved f) = moved_labels (index_of f).
Proof. intros. unfold index_of, ShiftSpec.moved_labels. rewrite rows_moved, !map_map. reflexivity. Qed.
Lemma select_moved : forall {V} (d : V) (f : frame V) cols, select_columns d (moved f) cols = rmap moved (select_columns d f cols).
Proof.
  intros. unfold select_columns. cbn [f_cols f_levels ShiftSpec.moved]. rewrite rmap_bind. apply bind_ext. intros pos.
  unfold ShiftSpec.moved. cbn. rewrite !map_map. reflexivity.
Qed.
Lemma empty_frame_moved : forall n l, empty_frame n (moved_labels l) = moved (empty_frame n l).
Proof. intros. unfold empty_frame, ShiftSpec.moved, ShiftSpec.moved_labels. cbn. rewrite !map_map. reflexivity. Qed.
Lemma loc_index_moved : forall X l, loc_index (moved X) (moved_labels l) = rmap moved (loc_index X l).
Proof.
  intros. unfold loc_index, ShiftSpec.moved_labels. rewrite mapM_map.
  rewrite (mapM_ext _ (fun pt => rmap (map moved_row) (match filter (fun r => path_eqb (r_path r) (fst pt) && Z.eqb (r_time r) (snd pt)) (f_rows X) with
      | [] => Err KeyError | rs => Ok rs end))).
  - rewrite mapM_rmap, bind_rmap, rmap_bind. apply bind_ext. intros rows. cbn. unfold ShiftSpec.moved. cbn. rewrite concat_map. reflexivity.
  - intros [p t] _. cbn [fst snd]. rewrite rows_moved, filter_map.
    rewrite (filter_same _ (fun r => path_eqb (r_path r) p && Z.eqb (r_time r) t)).
    + destruct (filter _ (f_rows X)); reflexivity.
    + intros r. cbn [r_path r_time ShiftSpec.moved_row]. exact (f_equal (andb _) (eqb_moved (r_time r) t)).
Qed.
Lemma filter_fh_moved : forall {V} fh (X : frame V), filter_fh (map moved_time fh) (moved X) = moved (filter_fh fh X).
Proof.
  intros. apply filter_rows_moved. intros r. rewrite existsb_map. apply existsb_same. intros t. exact (eqb_moved (r_time r) t).
Qed.
Lemma frame_empty_moved : forall {V} (X : frame V), frame_empty (moved X) = frame_empty X.
Proof. intros V [n cs [|r rs]]; reflexivity. Qed.
Lemma columns_seen_moved : forall {V} (X : option (frame V)), columns_seen (option_map moved X) = columns_seen X.
Proof. intros V [X|]; [|reflexivity]. cbn. rewrite frame_empty_moved. reflexivity. Qed.
Lemma is_panel_moved : forall {V} (X : option (frame V)), is_panel (option_map moved X) = is_panel X.
Proof. intros V [X|]; reflexivity. Qed.
Lemma map_vals_moved : forall g f, map_vals g (moved f) = moved (map_vals g f).
Proof. intros. unfold map_vals, ShiftSpec.moved. cbn. rewrite !map_map. reflexivity. Qed.
Lemma index_levels_moved : forall {V} (f : frame V), index_levels (moved f) = index_levels f.
Proof. intros. unfold index_levels. cbn [f_levels ShiftSpec.moved f_rows]. apply map_ext. intros i. rewrite map_map. reflexivity. Qed.

(** * Sorting and aggregation *)
Lemma label_leb_moved : forall {V} (a b : row V), label_leb (label (moved_row a)) (label (moved_row b)) = label_leb (label a) (label b).
Proof.
  intros. unfold label_leb, label. cbn. destruct (path_cmp (r_path a) (r_path b)); try reflexivity.
  destruct (Z.leb_spec (r_time a) (r_time b)), (Z.leb_spec (r_time a + k) (r_time b + k)); lia || reflexivity.
Qed.
Lemma key_insert_moved : forall {V} (x : row V) l, key_insert label (moved_row x) (map moved_row l) = map moved_row (key_insert label x l).
Proof.
  induction l as [|y tl IH]; cbn [map key_insert]. reflexivity.
  rewrite label_leb_moved. destruct (label_leb (label x) (label y)). reflexivity. cbn [map]. rewrite IH. reflexivity.
Qed.
Lemma key_sort_moved : forall {V} (l : list (row V)), key_sort label (map moved_row l) = map moved_row (key_sort label l).
Proof. induction l as [|x tl IH]; simpl. reflexivity. rewrite IH. apply key_insert_moved. Qed.
Lemma sort_index_moved : forall {V} (f : frame V), sort_index (moved f) = moved (sort_index f).
Proof. intros. unfold sort_index, ShiftSpec.moved. cbn. rewrite key_sort_moved. reflexivity. Qed.

Lemma sum_vals_moved : forall n l, sum_vals n (map moved_row l) = sum_vals n l.
Proof. intros. unfold sum_vals. apply map_ext. intros j. rewrite map_map. reflexivity. Qed.
Lemma aggregate_moved : forall keep f, aggregate keep (moved f) = moved (aggregate keep f).
Proof.
  intros. unfold aggregate. cbn [f_levels ShiftSpec.moved f_cols f_rows]. destruct (f_levels f) as [|n]. reflexivity.
  rewrite filter_map. rewrite (filter_same (fun a => no_total (r_path (moved_row a))) (fun r => no_total (r_path r))) by reflexivity.
  set (bottom := filter (fun r => no_total (r_path r)) (f_rows f)).
  rewrite paths_moved. set (nodes := filter keep _).
  unfold ShiftSpec.moved. cbn [f_levels f_cols f_rows]. f_equal. rewrite <- key_sort_moved. f_equal. rewrite map_app. f_equal.
  rewrite map_flat_map. apply flat_map_same. intros q _.
  rewrite filter_map, times_moved, times_unique_moved, !map_map.
  apply map_ext. intros t. unfold ShiftSpec.moved_row at 3. cbn [r_path r_time r_vals]. unfold ShiftSpec.moved_time at 1. f_equal.
  rewrite filter_map, sum_vals_moved. f_equal.
  rewrite (filter_same (fun a => below q (r_path (moved_row a))) (fun r => below q (r_path r))) by reflexivity.
  apply filter_same. intros r. exact (eqb_moved (r_time r) t).
Qed.

(** * Scales *)
Lemma set_y_scales_moved : forall u y, set_y_scales u (moved y) = set_y_scales u y.
Proof.
  intros. unfold set_y_scales. destruct u as [s|]. reflexivity. cbn [f_levels ShiftSpec.moved].
  destruct (f_levels y).
  - rewrite rows_moved, flat_vals_moved. reflexivity.
  - rewrite series_ids_moved. f_equal. apply (f_equal (fun r => bind r _)). apply mapM_ext. intros p _. rewrite rows_of_moved, flat_vals_moved. reflexivity.
Qed.
Lemma scale_for_each_obs_moved : forall tab y, scale_for_each_obs tab (moved y) = scale_for_each_obs tab y.
Proof. intros. unfold scale_for_each_obs. cbn [f_levels ShiftSpec.moved]. destruct (f_levels y). reflexivity. rewrite rows_moved, mapM_map. reflexivity. Qed.
Lemma by_row_moved : forall op cs y, by_row op cs (moved y) = moved (by_row op cs y).
Proof. intros. unfold by_row, ShiftSpec.moved. cbn. rewrite combine_map_l, !map_map. reflexivity. Qed.
Lemma by_column_moved : forall op cs y, by_column op cs (moved y) = rmap moved (by_column op cs y).
Proof. intros. unfold by_column. cbn [f_cols ShiftSpec.moved]. destruct (_ =? _)%nat; [|reflexivity]. cbn [rmap]. rewrite map_vals_moved. reflexivity. Qed.
Lemma apply_scale_moved : forall op d s y, apply_scale op d s (moved y) = rmap moved (apply_scale op d s y).
Proof.
  intros. unfold apply_scale. destruct d. reflexivity. destruct s; cbn [rmap].
  - rewrite map_vals_moved. reflexivity.
  - reflexivity.
  - rewrite scale_for_each_obs_moved, rmap_bind. apply bind_ext. intros cs. cbn. rewrite by_row_moved. reflexivity.
  - rewrite scale_for_each_obs_moved, rmap_bind. apply bind_ext. intros cs. apply by_column_moved.
Qed.
Lemma divide_target_moved : forall s y, divide_target s (moved y) = rmap moved (divide_target s y).
Proof. intros. unfold divide_target. destruct s; try reflexivity; cbn [rmap]; rewrite map_vals_moved; reflexivity. Qed.

(** * Expansion of columns *)
Section Expand.
Context {V : Type} (zero : V) (isna : V -> bool) (order : list string -> list string).
Lemma set_col_moved : forall (f : frame V) name g g', (forall r, g (moved_row r) = g' r) -> set_col (moved f) name g = moved (set_col f name g').
Proof.
  intros f name g g' H. unfold set_col. cbn [f_cols f_levels ShiftSpec.moved]. destruct (col_pos (f_cols f) name).
  - unfold ShiftSpec.moved. cbn. f_equal. rewrite !map_map. apply map_ext. intros r. unfold ShiftSpec.moved_row at 1. cbn. rewrite H. reflexivity.
  - unfold ShiftSpec.moved. cbn. f_equal. rewrite !map_map. apply map_ext. intros r. unfold ShiftSpec.moved_row at 1. cbn. rewrite H. reflexivity.
Qed.
Lemma expand_fit_moved : forall ps (X : frame V), expand_fit order ps (moved X) = expand_fit order ps X.
Proof. intros. unfold expand_fit. cbn [f_cols f_levels ShiftSpec.moved]. rewrite series_ids_moved. reflexivity. Qed.
Lemma fold_left_moved : forall {A} (h h' : frame V -> A -> frame V) l X, (forall X a, h (moved X) a = moved (h' X a)) ->
  fold_left h l (moved X) = moved (fold_left h' l X).
Proof. induction l as [|a tl IH]; intros X H; simpl. reflexivity. rewrite H. apply IH. exact H. Qed.
Lemma add_zero_moved : forall m ids (X : frame V), add_zero_columns zero m ids (moved X) = moved (add_zero_columns zero m ids X).
Proof.
  intros. unfold add_zero_columns. apply fold_left_moved. intros X1 c. apply fold_left_moved. intros X2 i.
  apply set_col_moved. reflexivity.
Qed.
Lemma copy_column_moved : forall (Xo X : frame V) c i, copy_column zero isna (moved Xo) (moved X) c i = rmap moved (copy_column zero isna Xo X c i).
Proof.
  intros. unfold copy_column. cbn [f_cols f_levels f_rows ShiftSpec.moved].
  destruct (col_pos (f_cols Xo) c); [|reflexivity]. destruct (col_pos (f_cols X) (get_col_name c i)); [|reflexivity].
  cbn [rmap]. unfold ShiftSpec.moved. cbn. do 2 f_equal. rewrite combine_map_l, combine_map_r, !map_map.
  apply map_ext. intros [r ro]. reflexivity.
Qed.
Lemma copy_columns_moved : forall m ids (Xo X : frame V), copy_columns zero isna m ids (moved Xo) (moved X) = rmap moved (copy_columns zero isna m ids Xo X).
Proof.
  intros. unfold copy_columns. apply foldM_rmap. intros X1 i. apply foldM_rmap. intros X2 c. apply copy_column_moved.
Qed.
Lemma drop_columns_moved : forall (X : frame V) cs, drop_columns (moved X) cs = moved (drop_columns X cs).
Proof. intros. unfold drop_columns, ShiftSpec.moved. cbn. rewrite !map_map. reflexivity. Qed.
Lemma expand_transform_moved : forall e (X : frame V),
  expand_transform zero isna e (moved X) = rmap (fun r => (moved (fst r), snd r)) (expand_transform zero isna e X).
Proof.
  intros. unfold expand_transform. destruct (ex_skip e). reflexivity. cbn [f_levels ShiftSpec.moved].
  destruct (f_levels X). reflexivity. rewrite series_ids_moved. cbv zeta.
  rewrite add_zero_moved, copy_columns_moved, bind_rmap, rmap_bind. apply bind_ext. intros X2. cbn. rewrite drop_columns_moved. reflexivity.
Qed.
Lemma expand_bottom_moved : forall sh (X : frame V),
  expand_bottom zero isna order sh (moved X) = rmap (fun r => (moved (fst r), snd r)) (expand_bottom zero isna order sh X).
Proof.
  intros. unfold expand_bottom. cbn [f_cols ShiftSpec.moved]. rewrite expand_fit_moved, rmap_bind. apply bind_ext. intros e. apply expand_transform_moved.
Qed.
End Expand.

(** * Effects *)
Notation moved_effect := (moved_effect k).
Definition moved_ff (f : fourier_fitted) : fourier_fitted := mkFF (ff_pairs f) (moved_labels (ff_min f)).

Lemma min_time_moved : forall l t, min_time (moved_time t) (map moved_time l) = moved_time (min_time t l).
Proof.
  induction l as [|x tl IH]; intros t; simpl. reflexivity.
  rewrite <- IH. f_equal. unfold ShiftSpec.moved_time. lia.
Qed.
Lemma series_nonempty : forall {V} (f : frame V) s, In s (iterate_all_series f) -> snd s <> [].
Proof.
  intros V f s H. unfold iterate_all_series in H. apply in_map_iff in H. destruct H as (p & <- & Hp). cbn.
  unfold series_ids in Hp. apply series_ids_In in Hp. destruct Hp as (r & Hr & <-). intros E.
  assert (I : In r (rows_of f (r_path r))) by (apply filter_In; split; [exact Hr|apply path_eqb_refl]).
  rewrite E in I. exact I.
Qed.
Lemma fourier_fit_moved : forall sp tl X, fourier_fit sp tl (option_map moved X) = rmap moved_ff (fourier_fit sp tl X).
Proof.
  intros. unfold fourier_fit. destruct (negb _). reflexivity. destruct (existsb _ _). reflexivity.
  destruct X as [X|]; [|reflexivity]. cbn [option_map]. rewrite rows_moved. destruct (f_rows X) as [|r0 rs] eqn:E; [reflexivity|].
  cbn [map rmap]. unfold moved_ff. cbn [ff_pairs ff_min]. do 2 f_equal. rewrite iterate_moved.
  unfold ShiftSpec.moved_labels. rewrite !map_map. apply map_ext_in. intros s Hs. cbn [fst snd]. f_equal.
  rewrite times_moved. pose proof (series_nonempty X s Hs) as N. destruct (snd s) as [|r tl0]; [contradiction|]. cbn [map].
  apply min_time_moved.
Qed.
Lemma find_min_moved : forall l p, find_min (moved_labels l) p = rmap moved_time (find_min l p).
Proof.
  intros. unfold find_min, ShiftSpec.moved_labels. induction l as [|[q t] tl IH]; cbn [map find fst snd]. reflexivity.
  destruct (path_eqb q p). reflexivity. exact IH.
Qed.
Lemma fourier_transform_moved : forall f X, fourier_transform (moved_ff f) (moved X) = rmap moved (fourier_transform f X).
Proof.
  intros. unfold fourier_transform. rewrite rows_moved, mapM_map, rmap_bind. cbn [f_levels ShiftSpec.moved ff_pairs moved_ff ff_min].
  rewrite (mapM_ext _ (fun r => rmap moved_row (m <- find_min (ff_min f) (r_path r) ;; Ok (mkRow (r_path r) (r_time r) (fourier_vals (ff_pairs f) (r_time r - m)))))).
  - rewrite mapM_rmap, bind_rmap. apply bind_ext. intros rows. reflexivity.
  - intros r _. cbn [r_path ShiftSpec.moved_row r_time]. rewrite find_min_moved, bind_rmap, rmap_bind. apply bind_ext. intros m. cbn.
    unfold ShiftSpec.moved_row, ShiftSpec.moved_time. cbn. replace (r_time r + k - (m + k))%Z with (r_time r - m)%Z by lia. reflexivity.
Qed.

Lemma get_base_moved : forall e, get_base (moved_effect e) = get_base e.
Proof. intros []; reflexivity. Qed.
Lemma set_base_moved : forall e b, set_base (moved_effect e) b = moved_effect (set_base e b).
Proof. intros [] b'; reflexivity. Qed.
Lemma set_cols_moved : forall e cs, set_cols (moved_effect e) cs = moved_effect (set_cols e cs).
Proof. intros. unfold set_cols. rewrite get_base_moved. apply set_base_moved. Qed.
Lemma set_fitted_moved : forall e, set_fitted (moved_effect e) = moved_effect (set_fitted e).
Proof. intros. unfold set_fitted. rewrite get_base_moved. apply set_base_moved. Qed.
Lemma supports_moved : forall e, supports_multivariate (moved_effect e) = supports_multivariate e.
Proof. intros []; reflexivity. Qed.
Lemma skip_tag_moved : forall e, skip_if_no_match (moved_effect e) = skip_if_no_match e.
Proof. intros []; reflexivity. Qed.
Lemma input_names_moved : forall e, input_feature_column_names (moved_effect e) = input_feature_column_names e.
Proof. intros []; cbn; try reflexivity. rewrite get_base_moved. reflexivity. Qed.
Lemma should_skip_moved : forall e, should_skip_predict (moved_effect e) = should_skip_predict e.
Proof. intros. unfold should_skip_predict. rewrite skip_tag_moved, get_base_moved. reflexivity. Qed.
Lemma clone_moved : forall e, clone (moved_effect e) = moved_effect (clone e).
Proof. induction e; try reflexivity. cbn. rewrite IHe. reflexivity. Qed.

Definition moved_pair (x : effect * option exn) : effect * option exn := (moved_effect (fst x), snd x).

Lemma inner_fit_moved : forall order e X, inner_fit order (moved_effect e) (option_map moved X) = moved_pair (inner_fit order e X).
Proof.
  intros order e X. destruct e as [m p b|m p q b|m p q r b|i t ps b s|sp tl ps m b ff x l]; try reflexivity.
  cbn [ShiftSpec.moved_effect]. unfold inner_fit. rewrite fourier_fit_moved.
  destruct (fourier_fit sp tl X) as [f1|er]; cbn [rmap]; [|reflexivity].
  destruct X as [X|]; cbn [option_map]; [|reflexivity].
  rewrite fourier_transform_moved. destruct (fourier_transform f1 X) as [XF|er]; cbn [rmap]; [|reflexivity].
  rewrite series_ids_moved. cbn [f_levels ShiftSpec.moved].
  change (@f_levels R (moved XF)) with (f_levels XF).
  destruct (negb (f_levels XF =? 0)%nat && (1 <? List.length (series_ids XF))%nat).
  - cbn [f_levels]. rewrite expand_fit_moved. destruct (expand_fit order [".*"] XF) as [ex|er]; cbn [bind]; [|reflexivity].
    rewrite expand_transform_moved. destruct (expand_transform 0%R (fun _ => false) ex XF) as [[XE ex2]|er]; cbn [bind rmap fst snd]; [|reflexivity].
    destruct (check_mode m); [|reflexivity]. unfold moved_pair. cbn [fst snd].
    rewrite <- (columns_seen_moved (Some XE)). reflexivity.
  - destruct (check_mode m); [|reflexivity]. unfold moved_pair. cbn [fst snd].
    rewrite <- (columns_seen_moved (Some XF)). reflexivity.
Qed.
Lemma base_fit_moved : forall order e X, base_fit order (moved_effect e) (option_map moved X) = moved_pair (base_fit order e X).
Proof.
  intros. unfold base_fit. rewrite supports_moved, is_panel_moved. destruct (negb _ && _). reflexivity.
  rewrite columns_seen_moved, set_cols_moved, inner_fit_moved. destruct (inner_fit order (set_cols e (columns_seen X)) X) as [e1 [er|]].
  reflexivity. unfold moved_pair. cbn. rewrite set_fitted_moved. reflexivity.
Qed.
Lemma fit_moved : forall order e X s, fit order (moved_effect e) (option_map moved X) s = moved_pair (fit order e X s).
Proof.
  intros order. induction e as [m p b|m p q b|m p q r b|i IH t ps b s0|sp tl ps m b ff x l]; intros X s.
  1: exact (base_fit_moved order (Linear m p b) X).
  1: exact (base_fit_moved order (Log m p q b) X).
  1: exact (base_fit_moved order (Hill m p q r b) X).
  2: exact (base_fit_moved order (Fourier sp tl ps m b ff x l) X).
  cbn [ShiftSpec.moved_effect fit]. rewrite IH. destruct (fit order i X s) as [i1 [er|]]; unfold moved_pair; cbn [fst snd].
  reflexivity. exact (base_fit_moved order (Lift i1 t ps b (Some s)) X).
Qed.

Lemma frame_array_moved : forall X, frame_array (moved X) = frame_array X.
Proof. intros. unfold frame_array. rewrite tensor_or_array_moved. reflexivity. Qed.
Lemma linear_transform_moved : forall b X fh, linear_transform b (moved X) (map moved_time fh) = linear_transform b X fh.
Proof.
  intros. unfold linear_transform. apply bind_ext. intros ft. destruct (negb ft). reflexivity. apply bind_ext. intros [|]. reflexivity.
  apply bind_ext. intros cs. rewrite filter_fh_moved, select_moved, bind_rmap. apply bind_ext. intros X1. rewrite frame_array_moved. reflexivity.
Qed.
Lemma lift_at_moved : forall tab t, lift_at (map (fun x => (moved_time (fst x), snd x)) tab) (moved_time t) = lift_at tab t.
Proof.
  intros. unfold lift_at. induction tab as [|x tl IH]; cbn [map find fst snd]. reflexivity.
  rewrite eqb_moved. destruct (Z.eqb (fst x) t). reflexivity. exact IH.
Qed.
Lemma inner_transform_moved : forall e X fh, inner_transform (moved_effect e) (moved X) (map moved_time fh) = inner_transform e X fh.
Proof.
  induction e as [m p b|m p q b|m p q r b|i IH t ps b s0|sp tl ps m b ff x l]; intros X fh;
    try (cbn [ShiftSpec.moved_effect inner_transform]; rewrite frame_array_moved; reflexivity).
  - cbn [ShiftSpec.moved_effect inner_transform]. rewrite IH. apply bind_ext. intros d. apply bind_ext. intros s.
    do 2 f_equal. rewrite map_map. apply map_ext. intros u. rewrite lift_at_moved. reflexivity.
  - cbn [ShiftSpec.moved_effect inner_transform]. destruct ff as [ff|]; [|reflexivity]. cbn [option_map attr bind].
    change (mkFF (ff_pairs ff) (moved_labels (ff_min ff))) with (moved_ff ff).
    rewrite fourier_transform_moved, bind_rmap. apply bind_ext. intros X1. destruct x as [x|].
    + rewrite expand_transform_moved. destruct (expand_transform 0%R (fun _ => false) x X1) as [[X2 e2]|er]; cbn [rmap bind fst snd]; [|reflexivity].
      destruct l as [[mm bb]|]; [|reflexivity]. cbn. apply linear_transform_moved.
    + cbn [bind]. destruct l as [[mm bb]|]; [|reflexivity]. cbn. apply linear_transform_moved.
Qed.
Lemma transform_moved : forall e X fh, transform (moved_effect e) (option_map moved X) (map moved_time fh) = transform e X fh.
Proof.
  intros. unfold transform. rewrite get_base_moved, should_skip_moved, input_names_moved.
  apply bind_ext. intros ft. destruct (negb ft). reflexivity. apply bind_ext. intros [|]. reflexivity.
  apply bind_ext. intros cs. destruct X as [X|]; [|reflexivity]. cbn [option_map].
  rewrite filter_fh_moved, select_moved, bind_rmap. apply bind_ext. intros X1. apply inner_transform_moved.
Qed.
Lemma predict_moved : forall e, predict (moved_effect e) = predict e.
Proof.
  induction e as [m p b|m p q b|m p q r b|i IH t ps b s0|sp tl ps m b ff x l]; try reflexivity.
  apply functional_extensionality. intros d. apply functional_extensionality. intros pe.
  cbn [ShiftSpec.moved_effect predict]. rewrite IH. reflexivity.
Qed.

(** * Trends *)
Variable ns_of : Z -> Z.
Variable order : list string -> list string.
Variable delta : R.
Hypothesis Clock : moves_by ns_of k delta.
Notation moved_piecewise := (moved_piecewise delta).
Notation moved_trend := (moved_trend k delta).

Lemma days_moved : forall l, map (fun t => days_since_epoch (ns_of t)) (map moved_time l) = map (fun x => (x + delta)%R) (map (fun t => days_since_epoch (ns_of t)) l).
Proof. intros. rewrite !map_map. apply map_ext. intros t. apply Clock. Qed.
Lemma scale_time_moved : forall s t0 d, scale_time s (t0 + delta / s) (d + delta) = scale_time s t0 d.
Proof. intros. unfold scale_time, Rdiv. lra. Qed.
Lemma fit_time_moved : forall l, fit_time (map (fun x => (x + delta)%R) l) = rmap (fun st => (fst st, (snd st + delta / fst st)%R)) (fit_time l).
Proof.
  intros [|x [|y tl]]; try reflexivity. unfold fit_time.
  change (map (fun x => (x + delta)%R) (x :: y :: tl)) with ((x + delta)%R :: (y + delta)%R :: map (fun x => (x + delta)%R) tl).
  cbv beta iota zeta.
  change ((x + delta)%R :: (y + delta)%R :: map (fun x => (x + delta)%R) tl) with (map (fun x => (x + delta)%R) (x :: y :: tl)).
  change ((y + delta)%R :: map (fun x => (x + delta)%R) tl) with (map (fun x => (x + delta)%R) (y :: tl)).
  rewrite diffs_shift, Rmin_list_shift. cbn [rmap fst snd]. do 2 f_equal. unfold Rdiv. lra.
Qed.
Lemma detrend_moved : forall y, detrend_frame (moved y) = moved (detrend_frame y).
Proof.
  intros. unfold detrend_frame. rewrite iterate_moved. unfold ShiftSpec.moved. cbn [f_levels f_cols f_rows].
  f_equal. rewrite flat_map_map, map_flat_map. apply flat_map_same. intros [p rows] _. cbn [fst snd].
  rewrite (map_map moved_row val0). change (fun x => val0 (moved_row x)) with val0.
  assert (E : map (fun r => IZR (r_time r)) (map moved_row rows) = map (fun x => (x + IZR k)%R) (map (fun r => IZR (r_time r)) rows)).
  { rewrite !map_map. apply map_ext. intros r. cbn. apply plus_IZR. }
  rewrite E, ols_line_shift, combine_map_l, !map_map. reflexivity.
Qed.
Lemma target_matrix_moved : forall y, target_matrix (moved y) = target_matrix y.
Proof. intros. unfold target_matrix. rewrite tensor_moved. reflexivity. Qed.
Lemma suggest_moved : forall p y ts, suggest p (moved y) ts = suggest p y ts.
Proof.
  intros. unfold suggest. destruct (pw_detrend p).
  - rewrite detrend_moved, target_matrix_moved. reflexivity.
  - rewrite target_matrix_moved. reflexivity.
Qed.
Lemma piecewise_fit_moved : forall p y, piecewise_fit ns_of p (moved y) = rmap moved_piecewise (piecewise_fit ns_of p y).
Proof.
  intros. unfold piecewise_fit. cbv zeta. rewrite time_ids_moved, days_moved, fit_time_moved, bind_rmap, rmap_bind.
  apply bind_ext. intros [s t0]. cbn [fst snd].
  rewrite (map_map (fun x => (x + delta)%R)).
  rewrite (map_ext (fun x => scale_time s (t0 + delta / s) (x + delta)) (scale_time s t0)) by (intros a; apply scale_time_moved).
  assert (N : n_series_of (moved y) = n_series_of y) by (unfold n_series_of; rewrite series_ids_moved; reflexivity).
  rewrite N, rmap_bind. apply bind_ext. intros cps. rewrite suggest_moved, rmap_bind. apply bind_ext. intros [rates offs].
  destruct (changepoint_prior_vectors cps (pw_prior_scale p) rates) as [loc sc]. rewrite series_ids_moved. reflexivity.
Qed.
Lemma piecewise_transform_moved : forall f fh, piecewise_transform ns_of (moved_piecewise f) (map moved_time fh) = piecewise_transform ns_of f fh.
Proof.
  intros. unfold piecewise_transform, ShiftSpec.moved_piecewise. cbn [pf_series pf_t_scale pf_t_start pf_params pf_cps].
  f_equal. destruct (pf_series f).
  - rewrite times_unique_moved, map_map. apply map_ext. intros t. unfold ShiftSpec.moved_time. rewrite Clock. apply scale_time_moved.
  - rewrite map_map. apply map_ext. intros t. unfold ShiftSpec.moved_time. rewrite Clock. apply scale_time_moved.
Qed.
Lemma flat_fit_moved : forall y, flat_fit (moved y) = flat_fit y.
Proof. intros. unfold flat_fit. rewrite rows_moved, map_map. reflexivity. Qed.

Lemma trend_fit_moved : forall t X y s,
  trend_fit ns_of order (moved_trend t) (option_map moved X) (moved y) s = (moved_trend (fst (trend_fit ns_of order t X y s)), snd (trend_fit ns_of order t X y s)).
Proof.
  intros [p c b f|s0 b l|e] X y s; cbn [ShiftSpec.moved_trend trend_fit].
  - rewrite piecewise_fit_moved, columns_seen_moved. destruct (piecewise_fit ns_of p y); reflexivity.
  - rewrite columns_seen_moved, flat_fit_moved. reflexivity.
  - rewrite fit_moved. destruct (fit order e X s) as [e1 er]. reflexivity.
Qed.
Lemma trend_rows_moved : forall b X fh, trend_rows b (moved X) (map moved_time fh) = rmap moved (trend_rows b X fh).
Proof.
  intros. unfold trend_rows. rewrite rmap_bind. apply bind_ext. intros ft. destruct (negb ft). reflexivity.
  rewrite rmap_bind. apply bind_ext. intros cs. rewrite filter_fh_moved, select_moved. reflexivity.
Qed.
Lemma trend_transform_moved : forall t X fh, trend_transform ns_of (moved_trend t) (moved X) (map moved_time fh) = trend_transform ns_of t X fh.
Proof.
  intros [p c b f|s0 b l|e] X fh; cbn [ShiftSpec.moved_trend trend_transform].
  - rewrite trend_rows_moved, bind_rmap. apply bind_ext. intros X1. destruct f as [f|]; [|reflexivity]. cbn [option_map attr bind].
    rewrite piecewise_transform_moved. reflexivity.
  - rewrite trend_rows_moved, bind_rmap. apply bind_ext. intros X1. unfold flat_transform. rewrite rows_moved, map_length. reflexivity.
  - change (Some (moved X)) with (option_map moved (Some X)). rewrite transform_moved. reflexivity.
Qed.
Lemma trend_predict_moved : forall t d, trend_predict (moved_trend t) d = trend_predict t d.
Proof.
  intros [p c b f|s0 b l|e] d; cbn [ShiftSpec.moved_trend trend_predict].
  - destruct f as [f|]; destruct d; reflexivity.
  - reflexivity.
  - rewrite predict_moved. reflexivity.
Qed.
Lemma named_trend_moved : forall c s, rmap moved_trend (named_trend c s) = named_trend c s.
Proof.
  intros. unfold named_trend. destruct (String.eqb s "linear"). reflexivity. destruct (String.eqb s "linear_raw"). reflexivity.
  destruct (String.eqb s "logistic"). reflexivity. destruct (String.eqb s "flat"); reflexivity.
Qed.
End Moved.
