(** A change of units of the target: frames, scales and effects. *)
From Coq Require Import Reals String Bool ZArith List Lia Lra FunctionalExtensionality.
From Verif.Model Require Import Base Num XFloat Frame Arr Expand Aggregate Scale Predict Prog Likelihood Effect TrendProg Engine Forecaster History.
From Verif.Spec Require Import FrameSpec ScaleSpec ForecasterSpec HistorySpec UnitsSpec.
From Verif.Facts Require Import BaseFacts NumFacts FrameFacts OrderFacts ScaleFacts QuantileFacts PredictFacts.
Import ListNotations.
Local Open Scope R_scope.

Definition rmap {A B} (f : A -> B) (r : res A) : res B := match r with Ok a => Ok (f a) | Err e => Err e end.
Lemma rmap_bind {A B C} (f : B -> C) (m : res A) (g : A -> res B) : rmap f (x <- m ;; g x) = (x <- m ;; rmap f (g x)).
Proof. destruct m; reflexivity. Qed.
Lemma bind_rmap {A B C} (f : A -> B) (m : res A) (g : B -> res C) : (x <- rmap f m ;; g x) = (x <- m ;; g (f x)).
Proof. destruct m; reflexivity. Qed.
Lemma bind_ext {A B} (m : res A) (f g : A -> res B) : (forall a, f a = g a) -> (x <- m ;; f x) = (x <- m ;; g x).
Proof. intros H. destruct m; simpl; auto. Qed.
Lemma mapM_rmap {A B C} (f : A -> res B) (f' : A -> res C) (g : B -> C) l : (forall a, In a l -> f' a = rmap g (f a)) -> mapM f' l = rmap (map g) (mapM f l).
Proof.
  induction l as [|a l IH]; intros H; [reflexivity|]. simpl. rewrite (H a (or_introl eq_refl)), IH by (intros; apply H; right; assumption).
  destruct (f a); [|reflexivity]. simpl. destruct (mapM f l); reflexivity.
Qed.
Lemma mapM_map {A B C} (g : A -> B) (f : B -> res C) l : mapM f (map g l) = mapM (fun a => f (g a)) l.
Proof. induction l as [|a l IH]; [reflexivity|]. simpl. rewrite IH. reflexivity. Qed.

Section Units.
Variable k : R.
Hypothesis kpos : 0 < k.
Notation rf := (rescale_frame k).
Definition rr (r : row R) : row R := mkRow (r_path r) (r_time r) (map (Rmult k) (r_vals r)).

Lemma rf_rows f : f_rows (rf f) = map rr (f_rows f).
Proof. reflexivity. Qed.
Lemma rf_paths f : map r_path (f_rows (rf f)) = map r_path (f_rows f).
Proof. rewrite rf_rows, map_map. reflexivity. Qed.
Lemma rf_times f : map r_time (f_rows (rf f)) = map r_time (f_rows f).
Proof. rewrite rf_rows, map_map. reflexivity. Qed.
Lemma rf_ids f : series_ids (rf f) = series_ids f.
Proof. unfold series_ids. rewrite rf_paths. reflexivity. Qed.
Lemma filter_rr (p : row R -> bool) l : (forall r, p (rr r) = p r) -> filter p (map rr l) = map rr (filter p l).
Proof. intros H. induction l as [|r l IH]; [reflexivity|]. simpl. rewrite H. destruct (p r); simpl; rewrite IH; reflexivity. Qed.
Lemma flat_vals_rr l : flat_map r_vals (map rr l) = map (Rmult k) (flat_map r_vals l).
Proof. induction l as [|r l IH]; [reflexivity|]. simpl. rewrite IH, map_app. reflexivity. Qed.
Lemma rows_of_rf f p : rows_of (rf f) p = map rr (rows_of f p).
Proof. unfold rows_of. rewrite rf_rows. apply filter_rr. reflexivity. Qed.

(** sorting, aggregating *)
Lemma key_sort_rr l : key_sort label (map rr l) = map rr (key_sort label l).
Proof. symmetry. apply key_sort_map. reflexivity. Qed.
Lemma sort_rf f : sort_index (rf f) = rf (sort_index f).
Proof. unfold sort_index, rescale_frame. simpl. f_equal. apply key_sort_rr. Qed.

Lemma sum_vals_rr n l : sum_vals n (map rr l) = map (Rmult k) (sum_vals n l).
Proof.
  unfold sum_vals. rewrite map_map. apply map_ext. intros j. rewrite map_map.
  rewrite <- (Rsum_scale k (map (fun r => nth j (r_vals r) 0) l)), map_map. f_equal. apply map_ext. intros r. simpl.
  replace 0 with (k * 0) at 1 by ring. apply map_nth.
Qed.

Lemma aggregate_rf keep f : aggregate keep (rf f) = rf (aggregate keep f).
Proof.
  unfold aggregate. simpl f_levels. destruct (f_levels f) as [|n] eqn:L; [reflexivity|].
  cbn [f_cols f_rows rescale_frame]. unfold rescale_frame. cbn [f_levels f_cols f_rows].
  fold rr.
  replace (map (fun r : row R => mkRow (r_path r) (r_time r) (map (Rmult k) (r_vals r))) (f_rows f)) with (map rr (f_rows f)) by reflexivity.
  rewrite filter_rr by reflexivity. set (bottom := filter _ (f_rows f)).
  f_equal. change (fun r : row R => mkRow (r_path r) (r_time r) (map (Rmult k) (r_vals r))) with rr.
  rewrite <- key_sort_rr, map_app. do 2 f_equal. rewrite (map_map rr r_path).
  change (map (fun x : row R => r_path (rr x)) bottom) with (map r_path bottom).
  generalize (filter keep (paths_unique (flat_map (fun p => ancestors (S n) p) (paths_unique (map r_path bottom))))). intros nodes.
  induction nodes as [|q nodes IH]; [reflexivity|]. simpl. rewrite map_app, IH. f_equal.
  rewrite filter_rr by reflexivity. set (bq := filter _ bottom). rewrite (map_map rr r_time).
  change (map (fun x : row R => r_time (rr x)) bq) with (map r_time bq). rewrite map_map. apply map_ext. intros t.
  rewrite filter_rr by reflexivity. rewrite sum_vals_rr. reflexivity.
Qed.

(** * Scales *)
Definition rescale_scale (s : scale) : scale :=
  match s with
  | SFloat c => SFloat (k * c)
  | SInt z => SInt z
  | STable tab => STable (map (fun pc => (fst pc, k * snd pc)) tab)
  | SSeries tab => SSeries (map (fun pc => (fst pc, k * snd pc)) tab)
  end.

Lemma abs_max_rr l : abs_max (map (Rmult k) l) = option_map (Rmult k) (abs_max l).
Proof.
  unfold abs_max. rewrite map_map. destruct l as [|x l]; [reflexivity|]. simpl. f_equal.
  assert (A : forall v, Rabs (k * v) = k * Rabs v) by (intros; rewrite Rabs_mult, (Rabs_pos_eq k) by lra; reflexivity).
  rewrite A. rewrite <- (Rmax_list_scale k (Rabs x) (map Rabs l)) by lra. f_equal. rewrite map_map. apply map_ext. exact A.
Qed.

Lemma mul_zero x : k * x = 0 <-> x = 0.
Proof. split; intros H; [|subst; ring]. destruct (Rmult_integral _ _ H); [lra|assumption]. Qed.
Lemma Reqb_mul x : Reqb (k * x) 0 = Reqb x 0.
Proof.
  destruct (Reqb x 0) eqn:E.
  - apply Reqb_true. apply Reqb_true in E. apply mul_zero. exact E.
  - apply Reqb_false. apply Reqb_false in E. intros H. apply E. apply mul_zero. exact H.
Qed.

Lemma abs_max_nz l m v : abs_max l = Some m -> In v l -> v <> 0 -> m <> 0.
Proof.
  intros H V N. apply abs_max_spec in H. destruct H as [_ H]. specialize (H v V).
  apply Rabs_pos_lt in N. lra.
Qed.

(** the scale of rescaled data *)
Lemma set_y_scales_rf y : no_zero_series y -> set_y_scales None (rf y) = rmap rescale_scale (set_y_scales None y).
Proof.
  intros Z. unfold set_y_scales. simpl f_levels. destruct (f_levels y) as [|n] eqn:L.
  - rewrite rf_rows, flat_vals_rr, abs_max_rr. destruct (abs_max _) as [c|]; [|reflexivity]. simpl. rewrite Reqb_mul.
    destruct (Reqb c 0); reflexivity.
  - rewrite rf_ids.
    assert (M : mapM (fun p => match abs_max (flat_map r_vals (rows_of (rf y) p)) with Some c => Ok (p, c) | None => Err ValueError end) (series_ids y)
      = rmap (map (fun pc => (fst pc, k * snd pc))) (mapM (fun p => match abs_max (flat_map r_vals (rows_of y p)) with Some c => Ok (p, c) | None => Err ValueError end) (series_ids y))).
    { apply mapM_rmap. intros p _. rewrite rows_of_rf, flat_vals_rr, abs_max_rr. destruct (abs_max _); reflexivity. }
    rewrite M. clear M. destruct (mapM _ (series_ids y)) as [tab|e] eqn:E; [|reflexivity]. simpl. do 2 f_equal. rewrite !map_map. apply map_ext_in.
    intros [p c] H. simpl. f_equal. unfold replace01. rewrite Reqb_mul. destruct (Reqb c 0) eqn:C; [exfalso|reflexivity].
    apply Reqb_true in C. subst c. 
    assert (In p (series_ids y) /\ abs_max (flat_map r_vals (rows_of y p)) = Some 0) as [P A].
    { clear -E H. revert tab E H. induction (series_ids y) as [|q l IH]; intros tab E H; simpl in E.
      - inversion E; subst. contradiction.
      - destruct (abs_max (flat_map r_vals (rows_of y q))) eqn:A; [|discriminate]. simpl in E. destruct (mapM _ l); [|discriminate]. simpl in E.
        inversion E; subst. destruct H as [H|H]; [inversion H; subst; split; [left; reflexivity|assumption]|].
        destruct (IH _ eq_refl H). split; [right; assumption|assumption]. }
    unfold series_ids in P. apply (proj1 (paths_unique_In _ _)) in P.
    destruct (Z ltac:(rewrite L; discriminate) p P) as (r & v & R1 & R2 & R3 & R4).
    apply (abs_max_nz _ _ v A); [|assumption|reflexivity]. apply in_flat_map. exists r. split; [|assumption].
    apply rows_of_In. auto.
Qed.

Lemma tab_get_rr tab p : tab_get (map (fun pc => (fst pc, k * snd pc)) tab) p = option_map (Rmult k) (tab_get tab p).
Proof. apply (tab_get_map (Rmult k)). Qed.

Lemma scale_obs_rr tab y y' : f_levels y' = f_levels y -> map r_path (f_rows y') = map r_path (f_rows y) ->
  scale_for_each_obs (map (fun pc => (fst pc, k * snd pc)) tab) y' = rmap (map (Rmult k)) (scale_for_each_obs tab y).
Proof.
  intros L P. unfold scale_for_each_obs. rewrite L. destruct (f_levels y); [reflexivity|].
  transitivity (mapM (fun p => match tab_get (map (fun pc => (fst pc, k * snd pc)) tab) p with Some c => Ok c | None => Err KeyError end) (map r_path (f_rows y'))).
  { rewrite mapM_map. reflexivity. }
  rewrite P, mapM_map. apply mapM_rmap. intros r _. rewrite tab_get_rr. destruct (tab_get tab (r_path r)); reflexivity.
Qed.

Lemma div_units v c : k * v / (k * c) = v / c.
Proof.
  unfold Rdiv. rewrite Rinv_mult. replace (k * v * (/ k * / c)) with (k * / k * (v * / c)) by ring.
  rewrite Rinv_r by lra. ring.
Qed.

Lemma combine_rr_r {A} (l : list A) cs : combine l (map (Rmult k) cs) = map (fun x => (fst x, k * snd x)) (combine l cs).
Proof. revert cs. induction l as [|a l IH]; intros [|c cs]; simpl; [reflexivity..|]. rewrite IH. reflexivity. Qed.
Lemma combine_rr_l {A} l (cs : list A) : combine (map rr l) cs = map (fun x => (rr (fst x), snd x)) (combine l cs).
Proof. revert cs. induction l as [|a l IH]; intros [|c cs]; simpl; [reflexivity..|]. rewrite IH. reflexivity. Qed.

Lemma scale_y_rf s y : (forall t, s <> SSeries t) -> scale_y false (rescale_scale s) (rf y) = scale_y false s y.
Proof.
  intros N. unfold scale_y, apply_scale. destruct s as [c|z|tab|tab]; simpl; [| reflexivity | | exfalso; apply (N tab); reflexivity].
  - f_equal. unfold map_vals, rescale_frame. simpl. f_equal. rewrite map_map. apply map_ext. intros r. simpl. f_equal. rewrite map_map.
    apply map_ext. intros v. apply div_units.
  - rewrite (scale_obs_rr tab y (rf y)) by (reflexivity || apply rf_paths). rewrite bind_rmap. apply bind_ext. intros cs. f_equal.
    unfold by_row. simpl. f_equal. change (fun r : row R => mkRow (r_path r) (r_time r) (map (Rmult k) (r_vals r))) with rr.
    rewrite combine_rr_l, combine_rr_r, !map_map. apply map_ext. intros [r c]. simpl. f_equal. rewrite map_map. apply map_ext. intros v. apply div_units.
Qed.

Lemma inv_scale_rf s f : (forall t, s <> SSeries t) -> (forall z, s <> SInt z) -> inv_scale_y false (rescale_scale s) f = rmap rf (inv_scale_y false s f).
Proof.
  intros N N'. unfold inv_scale_y, apply_scale. destruct s as [c|z|tab|tab]; simpl; [| exfalso; apply (N' z); reflexivity | | exfalso; apply (N tab); reflexivity].
  - f_equal. unfold map_vals, rescale_frame. simpl. f_equal. rewrite map_map. apply map_ext. intros r. simpl. f_equal. rewrite map_map.
    apply map_ext. intros v. ring.
  - rewrite (scale_obs_rr tab f f) by reflexivity. rewrite bind_rmap, rmap_bind. apply bind_ext. intros cs. simpl. f_equal.
    unfold by_row, rescale_frame. simpl. f_equal. rewrite combine_rr_r, !map_map. apply map_ext. intros [r c]. simpl. f_equal. rewrite map_map.
    apply map_ext. intros v. ring.
Qed.

(** means, quantiles *)
Lemma point_rf target f : point_forecast target (rf f) = rf (point_forecast target f).
Proof.
  unfold point_forecast, rescale_frame. simpl. f_equal. rewrite !map_map. apply map_ext. intros r. simpl. do 2 f_equal. apply Rmean_scale.
Qed.
Lemma quantiles_rf alpha f : predict_quantiles alpha (rf f) = rmap (fun q => mkQ (q_levels q) (rf (q_frame q))) (predict_quantiles alpha f).
Proof.
  unfold predict_quantiles. destruct (forallb _ _); [|reflexivity]. simpl. unfold rescale_frame. simpl. do 3 f_equal. rewrite !map_map. apply map_ext. intros r. simpl. f_equal.
  rewrite map_map. apply map_ext. intros a. apply (quantile_scale k). lra.
Qed.

Lemma combine_first_rf a b : combine_first (rf a) (rf b) = rmap rf (combine_first a b).
Proof.
  unfold combine_first. simpl. destruct (_ && _)%bool; [|reflexivity]. simpl. f_equal. unfold rescale_frame. simpl. f_equal.
  change (fun r : row R => mkRow (r_path r) (r_time r) (map (Rmult k) (r_vals r))) with rr. rewrite <- key_sort_rr. f_equal. rewrite map_app. f_equal.
  rewrite filter_rr.
  - f_equal. apply filter_ext. intros r. f_equal. induction (f_rows a) as [|x l IH]; [reflexivity|]. simpl. rewrite IH. reflexivity.
  - reflexivity.
Qed.

Lemma div_scale_none v s : option_map (fun v => v / (k * s)) (option_map (Rmult k) v) = option_map (fun v => v / s) v.
Proof. destruct v as [v|]; [|reflexivity]. simpl. f_equal. apply div_units. Qed.
End Units.

(** * Effects: [kl] is the factor of the scale the effects are given *)
Section Effects.
Variable k : R.
Hypothesis kpos : 0 < k.
Variable order : list string -> list string.
Notation re := (rescale_effect k).

Lemma re_base e : get_base (re e) = get_base e.
Proof. destruct e; reflexivity. Qed.
Lemma re_clone e : clone (re e) = re (clone e).
Proof. induction e; simpl; try reflexivity. rewrite IHe. reflexivity. Qed.
Lemma re_set_base e b : set_base (re e) b = re (set_base e b).
Proof. destruct e; reflexivity. Qed.
Lemma re_supports e : supports_multivariate (re e) = supports_multivariate e.
Proof. destruct e; reflexivity. Qed.
Lemma re_skip e : skip_if_no_match (re e) = skip_if_no_match e.
Proof. destruct e; reflexivity. Qed.
Lemma re_should_skip e : should_skip_predict (re e) = should_skip_predict e.
Proof. unfold should_skip_predict. rewrite re_base, re_skip. reflexivity. Qed.

Lemma lift_free_id k' e : lift_free e -> rescale_effect k' e = e.
Proof. destruct e; simpl; tauto. Qed.

Lemma base_fit_lift i t ps b s X : base_fit order (Lift i t ps b s) X =
  if is_panel X then (Lift i t ps b s, Some ValueError) else (Lift i t ps (mkBase (Some (columns_seen X)) (Some true)) s, None).
Proof. unfold base_fit. simpl. destruct (is_panel X); reflexivity. Qed.

Lemma inner_fit_lift_free e X : lift_free e -> lift_free (fst (inner_fit order e X)).
Proof.
  destruct e; try (simpl; tauto). intros _. cbn [inner_fit].
  repeat match goal with |- context [match ?x with _ => _ end] => destruct x; cbn [bind] end; exact I.
Qed.

Lemma re_fit e X s : fit order (re e) X (k * s) = let '(e', x) := fit order e X s in (re e', x).
Proof.
  induction e; simpl re.
  - simpl. unfold base_fit. simpl. destruct (is_panel X); reflexivity.
  - simpl. unfold base_fit. simpl. destruct (is_panel X); reflexivity.
  - simpl. unfold base_fit. simpl. destruct (is_panel X); reflexivity.
  - cbn [fit]. rewrite IHe. destruct (fit order e X s) as [e' [x|]].
    + reflexivity.
    + rewrite !base_fit_lift. destruct (is_panel X); reflexivity.
  - cbn [fit]. destruct (base_fit order _ X) as [e' x] eqn:E. f_equal. symmetry. apply lift_free_id.
    unfold base_fit in E. simpl negb in E. cbn [andb set_cols set_base] in E.
    assert (F := inner_fit_lift_free (Fourier sp_list terms_list prior_scale mode_arg (mkBase (Some (columns_seen X)) (b_fitted (get_base (Fourier sp_list terms_list prior_scale mode_arg b features expand linear)))) features expand linear) X I).
    destruct (inner_fit order _ X) as [e1 [y|]]; inversion E; subst; [exact F|]. destruct e1; simpl in *; tauto.
Qed.

Lemma re_lift_at t x : lift_at (map (fun x => (fst x, option_map (Rmult k) (snd x))) t) x = option_map (Rmult k) (lift_at t x).
Proof.
  unfold lift_at. induction t as [|[a v] t IH]; [reflexivity|]. simpl. destruct (Z.eqb a x); [reflexivity|]. exact IH.
Qed.

Lemma re_inner_transform e X fh : inner_transform (re e) X fh = inner_transform e X fh.
Proof.
  revert X. induction e; intros X; try reflexivity. simpl. rewrite IHe. apply bind_ext. intros d. destruct scale as [s|]; [|reflexivity]. simpl. do 2 f_equal.
  apply map_ext. intros t. rewrite re_lift_at. apply div_scale_none. assumption.
Qed.
Lemma re_columns e : input_feature_column_names (re e) = input_feature_column_names e.
Proof. destruct e; simpl; try reflexivity. rewrite re_base. reflexivity. Qed.
Lemma re_transform e X fh : transform (re e) X fh = transform e X fh.
Proof.
  unfold transform. rewrite re_base, re_should_skip, re_columns. apply bind_ext. intros b. destruct (negb b); [reflexivity|]. apply bind_ext.
  intros [|]; [reflexivity|]. apply bind_ext. intros cols. destruct X as [X|]; [|reflexivity]. apply bind_ext. intros X'. apply re_inner_transform.
Qed.
Lemma re_predict e d p : predict (re e) d p = predict e d p.
Proof. revert d. induction e; intros d; try reflexivity. simpl. destruct d; try reflexivity. rewrite IHe. reflexivity. Qed.

Definition rfe (f : fitted_effect) : fitted_effect := (fst (fst f), re (snd (fst f)), snd f).
Lemma re_fit_one X s n e r : fit_one order X (k * s) (n, re e, r) = rmap rfe (fit_one order X s (n, e, r)).
Proof.
  unfold fit_one. destruct X as [X|].
  - rewrite rmap_bind. apply bind_ext. intros cols. rewrite rmap_bind. apply bind_ext. intros XC. rewrite re_clone, re_fit.
    destruct (fit order (clone e) (Some XC) s) as [e' [x|]]; reflexivity.
  - rewrite re_clone, re_fit. destruct (fit order (clone e) None s) as [e' [x|]]; reflexivity.
Qed.

Lemma re_uncovered cols l : uncovered cols (map rfe l) = uncovered cols l.
Proof.
  unfold uncovered. do 2 f_equal. apply filter_ext. intros c. f_equal. induction l as [|f l IH]; [reflexivity|]. simpl. rewrite IH. reflexivity.
Qed.

Lemma re_fit_effects d l X s : fit_effects order (option_map re d) (map (fun l : listed => (fst (fst l), re (snd (fst l)), snd l)) l) X (k * s) =
  rmap (map rfe) (fit_effects order d l X s).
Proof.
  unfold fit_effects. rewrite mapM_map.
  rewrite (mapM_rmap (fit_one order X s) _ rfe) by (intros [[n e] r] _; apply re_fit_one).
  rewrite bind_rmap, rmap_bind. apply bind_ext. intros fs. destruct X as [X|]; [|reflexivity]. rewrite re_uncovered.
  destruct (uncovered (f_cols X) fs) as [|c cs]; [reflexivity|]. rewrite rmap_bind. apply bind_ext. intros XC.
  replace (match option_map re d with Some e => e | None => default_linear end) with (re (match d with Some e => e | None => default_linear end)) by (destruct d; reflexivity).
  rewrite re_clone, re_fit. destruct (fit order (clone _) (Some XC) s) as [e' [x|]]; [reflexivity|]. simpl. rewrite map_app. reflexivity.
Qed.

Lemma foldM_map {A B C} (g : B -> C) (f : A -> C -> res A) l a : foldM f a (map g l) = foldM (fun a b => f a (g b)) a l.
Proof. revert a. induction l as [|b l IH]; intros a; [reflexivity|]. simpl. apply bind_ext. intros a'. apply IH. Qed.
Lemma foldM_ext {A B} (f g : A -> B -> res A) l a : (forall a b, f a b = g a b) -> foldM f a l = foldM g a l.
Proof. intros H. revert a. induction l as [|b l IH]; intros a; [reflexivity|]. simpl. rewrite H. apply bind_ext. exact IH. Qed.

Lemma re_transform_effects l X fh : transform_effects (map rfe l) X fh = transform_effects l X fh.
Proof.
  unfold transform_effects. rewrite foldM_map. apply foldM_ext. intros out [[n e] cols]. simpl. rewrite re_should_skip. apply bind_ext. intros [|]; [reflexivity|].
  apply bind_ext. intros XC. rewrite re_transform. reflexivity.
Qed.

Definition rne (ne : string * effect) : string * effect := (fst ne, re (snd ne)).
Lemma dict_set_rne d n e : dict_set (map rne d) n (re e) = map rne (dict_set d n e).
Proof. induction d as [|[m x] d IH]; [reflexivity|]. simpl. destruct (String.eqb n m); [reflexivity|]. simpl. rewrite IH. reflexivity. Qed.
Lemma re_non_skipped_from l d : foldM (fun out f => let '(name, e, _) := f in skip <- should_skip_predict e ;; Ok (if (skip : bool) then out else dict_set out name e))
    (map rne d) (map rfe l) =
  rmap (map rne) (foldM (fun out f => let '(name, e, _) := f in skip <- should_skip_predict e ;; Ok (if (skip : bool) then out else dict_set out name e)) d l).
Proof.
  revert d. induction l as [|[[n e] cols] l IH]; intros d; [reflexivity|]. simpl. rewrite re_should_skip. destruct (should_skip_predict e) as [[|]|]; simpl; [apply IH| |reflexivity].
  rewrite dict_set_rne. apply IH.
Qed.
Lemma re_non_skipped l : non_skipped (map rfe l) = rmap (map rne) (non_skipped l).
Proof. apply (re_non_skipped_from l []). Qed.
Lemma re_effect_fns d : effect_fns (map rne d) = effect_fns d.
Proof.
  unfold effect_fns. rewrite map_map. apply map_ext. intros [n e]. simpl. f_equal. extensionality x. extensionality p. apply re_predict.
Qed.
End Effects.
