(** HierarchicalProphet scales each series by its own maximum: fits and forecasts of panels whose series are
    measured in other units. *)
From Coq Require Import Reals Lra String Bool ZArith List Lia.
From Verif.Model Require Import Base Num XFloat Frame Arr Aggregate Scale Predict Prog Effect TrendProg Engine Forecaster History.
From Verif.Spec Require Import FrameSpec ScaleSpec PredictSpec UnitsSpec CurrencySpec.
From Verif.Facts Require Import BaseFacts NumFacts OrderFacts FrameFacts ScaleFacts PredictFacts ForecasterFacts UnitsFacts QuantileFacts.
Import ListNotations.
Local Open Scope R_scope.

Section Units.
Variable k : path -> R.
Hypothesis kpos : forall p, 0 < k p.
Notation ou := (own_units k).
Definition orow (r : row R) : row R := mkRow (r_path r) (r_time r) (map (Rmult (k (r_path r))) (r_vals r)).

Lemma ou_ids f : series_ids (ou f) = series_ids f.
Proof. unfold series_ids, own_units. cbn [f_rows]. rewrite map_map. reflexivity. Qed.
Lemma ou_times f : map r_time (f_rows (ou f)) = map r_time (f_rows f).
Proof. unfold own_units. cbn [f_rows]. rewrite map_map. reflexivity. Qed.
Lemma ou_rows_of f p : flat_map r_vals (rows_of (ou f) p) = map (Rmult (k p)) (flat_map r_vals (rows_of f p)).
Proof.
  unfold rows_of, own_units. cbn [f_rows]. induction (f_rows f) as [|r l IH]; [reflexivity|]. cbn [map filter r_path]. destruct (path_eqb (r_path r) p) eqn:E; [|exact IH].
  cbn [flat_map r_vals]. rewrite map_app, IH. apply path_eqb_eq in E. now rewrite E.
Qed.
Definition otab (tab : list (path * R)) : list (path * R) := map (fun pc => (fst pc, k (fst pc) * snd pc)) tab.
Lemma tab_get_otab tab p : tab_get (otab tab) p = option_map (Rmult (k p)) (tab_get tab p).
Proof. induction tab as [|[q c] tab IH]; [reflexivity|]. cbn [otab map tab_get fst snd]. destruct (path_eqb p q) eqn:E; [|exact IH]. apply path_eqb_eq in E. now subst. Qed.

Lemma ou_scales y : f_levels y <> 0%nat -> no_zero_series y -> forall s, set_y_scales None y = Ok s -> exists tab, s = STable tab /\ set_y_scales None (ou y) = Ok (STable (otab tab)).
Proof.
  intros L Z s. unfold set_y_scales. cbn [own_units f_levels]. specialize (Z L). destruct (f_levels y) as [|n]; [congruence|]. rewrite ou_ids.
  assert (M : mapM (fun p => match abs_max (flat_map r_vals (rows_of (ou y) p)) with Some c => Ok (p, c) | None => Err ValueError end) (series_ids y)
      = rmap otab (mapM (fun p => match abs_max (flat_map r_vals (rows_of y p)) with Some c => Ok (p, c) | None => Err ValueError end) (series_ids y))).
  { unfold otab. apply mapM_rmap. intros p _. rewrite ou_rows_of, (abs_max_rr (k p) (kpos p)). destruct (abs_max _); reflexivity. }
  rewrite M. clear M. destruct (mapM _ (series_ids y)) as [tab|e] eqn:E; simpl; [|discriminate]. intros [= <-]. eexists. split; [reflexivity|]. do 2 f_equal.
  unfold otab. rewrite !map_map. apply map_ext_in. intros [p c] H. cbn [fst snd]. f_equal. unfold replace01. rewrite (Reqb_mul (k p) (kpos p)).
  destruct (Reqb c 0) eqn:C; [exfalso|reflexivity]. apply Reqb_true in C. subst c.
  assert (In p (series_ids y) /\ abs_max (flat_map r_vals (rows_of y p)) = Some 0) as [P A].
  { clear -E H. revert tab E H. induction (series_ids y) as [|q l IH]; intros tab E H; simpl in E.
    - inversion E; subst. contradiction.
    - destruct (abs_max (flat_map r_vals (rows_of y q))) eqn:A; [|discriminate]. simpl in E. destruct (mapM _ l); [|discriminate]. simpl in E.
      inversion E; subst. destruct H as [H|H]; [inversion H; subst; split; [left; reflexivity|assumption]|].
      destruct (IH _ eq_refl H). split; [right; assumption|assumption]. }
  unfold series_ids in P. apply (proj1 (paths_unique_In _ _)) in P. destruct (Z p P) as (r & v & R1 & R2 & R3 & R4).
  apply (abs_max_nz _ _ v A); [|assumption|reflexivity]. apply in_flat_map. exists r. split; [|assumption]. apply rows_of_In. auto.
Qed.
Lemma ou_scales_err y e : f_levels y <> 0%nat -> set_y_scales None y = Err e -> set_y_scales None (ou y) = Err e.
Proof.
  intros L. unfold set_y_scales. cbn [own_units f_levels]. destruct (f_levels y) as [|n]; [congruence|]. rewrite ou_ids.
  assert (M : mapM (fun p => match abs_max (flat_map r_vals (rows_of (ou y) p)) with Some c => Ok (p, c) | None => Err ValueError end) (series_ids y)
      = rmap otab (mapM (fun p => match abs_max (flat_map r_vals (rows_of y p)) with Some c => Ok (p, c) | None => Err ValueError end) (series_ids y))).
  { unfold otab. apply mapM_rmap. intros p _. rewrite ou_rows_of, (abs_max_rr (k p) (kpos p)). destruct (abs_max _); reflexivity. }
  rewrite M. clear M. destruct (mapM _ (series_ids y)); cbn [bind rmap]; [discriminate|auto].
Qed.

(** dividing by the scales, multiplying by them *)
Lemma ou_divided tab y : scale_y false (STable (otab tab)) (ou y) = scale_y false (STable tab) y.
Proof.
  unfold scale_y, apply_scale, scale_for_each_obs. cbn [own_units f_levels f_rows]. destruct (f_levels y); [reflexivity|]. rewrite mapM_map. cbn [r_path].
  assert (G : forall l, match mapM (fun r : row R => match tab_get (otab tab) (r_path r) with Some c => Ok c | None => Err KeyError end) l, mapM (fun r : row R => match tab_get tab (r_path r) with Some c => Ok c | None => Err KeyError end) l with
    | Ok cs', Ok cs => map (fun rc => mkRow (r_path (fst rc)) (r_time (fst rc)) (map (fun v => v / snd rc) (r_vals (fst rc)))) (combine (map orow l) cs') = map (fun rc => mkRow (r_path (fst rc)) (r_time (fst rc)) (map (fun v => v / snd rc) (r_vals (fst rc)))) (combine l cs)
    | Err e', Err e => e' = e | _, _ => False end).
  { induction l as [|r l IH]; [reflexivity|]. cbn [mapM]. rewrite tab_get_otab. destruct (tab_get tab (r_path r)) as [c|]; [|reflexivity]. cbn [option_map bind].
    destruct (mapM _ l) as [cs'|], (mapM _ l) as [cs|]; cbn [bind]; try contradiction; try exact IH. cbn [map combine fst snd]. f_equal; [|exact IH].
    unfold orow. cbn [r_path r_time r_vals]. f_equal. rewrite map_map. apply map_ext. intros v. apply (div_units (k (r_path r)) (kpos _)). }
  specialize (G (f_rows y)). destruct (mapM _ (f_rows y)) as [cs'|], (mapM _ (f_rows y)) as [cs|]; try contradiction; cbn [bind]; [|now rewrite G]. unfold by_row. cbn [f_levels f_cols f_rows]. do 2 f_equal. exact G.
Qed.
Lemma ou_multiplied tab y : inv_scale_y false (STable (otab tab)) y = rmap ou (inv_scale_y false (STable tab) y).
Proof.
  unfold inv_scale_y, apply_scale, scale_for_each_obs. destruct (f_levels y); [reflexivity|].
  assert (G : forall l, match mapM (fun r : row R => match tab_get (otab tab) (r_path r) with Some c => Ok c | None => Err KeyError end) l, mapM (fun r : row R => match tab_get tab (r_path r) with Some c => Ok c | None => Err KeyError end) l with
    | Ok cs', Ok cs => map (fun rc => mkRow (r_path (fst rc)) (r_time (fst rc)) (map (fun v => v * snd rc) (r_vals (fst rc)))) (combine l cs') = map orow (map (fun rc => mkRow (r_path (fst rc)) (r_time (fst rc)) (map (fun v => v * snd rc) (r_vals (fst rc)))) (combine l cs))
    | Err e', Err e => e' = e | _, _ => False end).
  { induction l as [|r l IH]; [reflexivity|]. cbn [mapM]. rewrite tab_get_otab. destruct (tab_get tab (r_path r)) as [c|]; [|reflexivity]. cbn [option_map bind].
    destruct (mapM _ l) as [cs'|], (mapM _ l) as [cs|]; cbn [bind]; try contradiction; try exact IH. cbn [map combine fst snd]. f_equal; [|exact IH].
    unfold orow. cbn [r_path r_time r_vals]. f_equal. rewrite map_map. apply map_ext. intros v. ring. }
  specialize (G (f_rows y)). destruct (mapM _ (f_rows y)) as [cs'|], (mapM _ (f_rows y)) as [cs|]; try contradiction; cbn [bind rmap]; [|now rewrite G]. unfold by_row, own_units. cbn [f_levels f_cols f_rows]. do 2 f_equal. exact G.
Qed.

(** * Aggregates *)
Definition quad : Type := (path * Z) * (list R * list R).
Definition row1 (q : quad) : row R := mkRow (fst (fst q)) (snd (fst q)) (fst (snd q)).
Definition row2 (q : quad) : row R := mkRow (fst (fst q)) (snd (fst q)) (snd (snd q)).
Definition matched (r r' : row R) : Prop := r_path r' = r_path r /\ r_time r' = r_time r /\ (~ In "__total"%string (r_path r) -> r_vals r' = map (Rmult (k (r_path r))) (r_vals r)).
Lemma matched_quads l l' : Forall2 matched l l' -> exists qs : list quad, l = map row1 qs /\ l' = map row2 qs /\ Forall (fun q => matched (row1 q) (row2 q)) qs.
Proof.
  induction 1 as [|r r' l l' M F IH]; [exists []; auto|]. destruct IH as (qs & -> & -> & H). exists (((r_path r, r_time r), (r_vals r, r_vals r')) :: qs). cbn [map].
  destruct r as [p t v], r' as [p' t' v']. destruct M as (M1 & M2 & M3). cbn in M1, M2, M3 |- *. subst p' t'. split; [reflexivity|]. split; [reflexivity|]. constructor; [|exact H]. repeat split; auto.
Qed.
Lemma label_row1 q : label (row1 q) = fst q.
Proof. destruct q as [[p t] v]. reflexivity. Qed.
Lemma label_row2 q : label (row2 q) = fst q.
Proof. destruct q as [[p t] v]. reflexivity. Qed.
Lemma matched_sort l l' : Forall2 matched l l' -> Forall2 matched (key_sort label l) (key_sort label l').
Proof.
  intros F. apply matched_quads in F as (qs & -> & -> & F).
  rewrite <- (key_sort_map (fun q : quad => fst q) label row1 label_row1), <- (key_sort_map (fun q : quad => fst q) label row2 label_row2).
  assert (F' : Forall (fun q => matched (row1 q) (row2 q)) (key_sort (fun q : quad => fst q) qs)).
  { rewrite Forall_forall in *. intros q Hq. apply F. eapply Permutation.Permutation_in; [apply Permutation.Permutation_sym, key_sort_perm|exact Hq]. }
  clear F. induction F' as [|q l M F IH]; constructor; auto.
Qed.

Lemma ou_filter (p : row R -> bool) l : (forall r, p (orow r) = p r) -> filter p (map orow l) = map orow (filter p l).
Proof. intros H. induction l as [|r l IH]; [reflexivity|]. cbn [map filter]. rewrite H. destruct (p r); cbn [map]; now rewrite IH. Qed.

Lemma ancestor_total n p q : In q (ancestors n p) -> In "__total"%string q.
Proof.
  unfold ancestors. rewrite in_map_iff. intros (j & <- & H). apply in_seq in H. unfold pad_total. apply in_or_app. right. rewrite firstn_length.
  destruct (n - Nat.min j (List.length p))%nat eqn:E; [lia|]. left. reflexivity.
Qed.

Lemma ou_aggregate keep f : f_levels f <> 0%nat -> converted k (aggregate keep f) (aggregate keep (ou f)).
Proof.
  intros L. unfold aggregate. cbn [own_units f_levels f_cols f_rows]. destruct (f_levels f) as [|n]; [congruence|]. fold orow. change (map (fun r : row R => mkRow (r_path r) (r_time r) (map (Rmult (k (r_path r))) (r_vals r))) (f_rows f)) with (map orow (f_rows f)).
  rewrite ou_filter by reflexivity. set (bottom := filter _ (f_rows f)). rewrite (map_map orow r_path). change (map (fun x => r_path (orow x)) bottom) with (map r_path bottom).
  split; [reflexivity|]. split; [reflexivity|]. cbn [f_rows]. apply matched_sort. apply Forall2_app.
  - assert (NT : forall q, In q (filter keep (paths_unique (flat_map (fun p => ancestors (S n) p) (paths_unique (map r_path bottom))))) -> In "__total"%string q).
    { intros q H. apply filter_In in H as [H _]. apply (proj1 (paths_unique_In _ _)) in H. apply in_flat_map in H as (p & _ & H). eapply ancestor_total; exact H. }
    revert NT. generalize (filter keep (paths_unique (flat_map (fun p => ancestors (S n) p) (paths_unique (map r_path bottom))))). intros nodes NT.
    induction nodes as [|q nodes IH]; [constructor|]. cbn [flat_map]. apply Forall2_app; [|apply IH; intros q' Hq'; apply NT; now right].
    rewrite ou_filter by reflexivity. rewrite (map_map orow r_time). change (map (fun x => r_time (orow x)) ?l) with (map r_time l).
    generalize (times_unique (map r_time (filter (fun r => below q (r_path r)) bottom))). intros ts. induction ts as [|t ts IHt]; [constructor|]. cbn [map]. constructor; [|exact IHt].
    split; [reflexivity|]. split; [reflexivity|]. intros H. destruct H. apply NT. now left.
  - clear. induction bottom as [|r l IH]; [constructor|]. cbn [map]. constructor; [|exact IH]. repeat split.
Qed.

Lemma ou_converted f : converted k f (ou f).
Proof. split; [reflexivity|]. split; [reflexivity|]. unfold own_units. cbn [f_rows]. induction (f_rows f); constructor; auto. Qed.

Lemma Rmean_units c l : Rmean (map (Rmult c) l) = c * Rmean l.
Proof. apply Rmean_scale. Qed.
Lemma converted_point target F F' : converted k F F' -> converted k (point_forecast target F) (point_forecast target F').
Proof.
  intros (L & C & H). unfold point_forecast. split; [exact L|]. split; [reflexivity|]. cbn [f_rows]. induction H as [|r r' l l' (M1 & M2 & M3) F0 IH]; constructor; auto.
  cbn [r_path r_time r_vals]. split; [exact M1|]. split; [exact M2|]. intros H. rewrite (M3 H). cbn [map]. f_equal. apply Rmean_scale.
Qed.
Lemma converted_quantiles alpha F F' : converted k F F' ->
  match predict_quantiles alpha F, predict_quantiles alpha F' with Ok q, Ok q' => q_levels q' = q_levels q /\ converted k (q_frame q) (q_frame q') | Err e, Err e' => e' = e | _, _ => False end.
Proof.
  intros (L & C & H). unfold predict_quantiles. destruct (forallb _ _); [|reflexivity]. cbn [q_levels q_frame]. split; [reflexivity|]. split; [exact L|]. split; [reflexivity|]. cbn [f_rows].
  induction H as [|r r' l l' (M1 & M2 & M3) F0 IH]; constructor; auto. cbn [r_path r_time r_vals]. split; [exact M1|]. split; [exact M2|]. intros H. rewrite (M3 H), map_map. apply map_ext. intros a. apply quantile_scale.
  specialize (kpos (r_path r)). lra.
Qed.
End Units.
