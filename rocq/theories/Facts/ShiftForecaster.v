(** C90: moving all dates moves the forecast dates and changes nothing else. *)
From Coq Require Import Reals String Bool ZArith List Lia Lra FunctionalExtensionality.
From Verif.Model Require Import Base Num XFloat Regex Frame Arr Expand Aggregate Scale Predict Prog Likelihood Trend Effect
  TrendProg Engine Forecaster.
From Verif.Spec Require Import ShiftSpec.
From Verif.Facts Require Import BaseFacts NumFacts FrameFacts ShiftFacts.
Import ListNotations.
Local Open Scope string_scope.

Section Shift.
Variable k : Z.
Variable delta : R.
Notation moved := (moved k).
Notation moved_row := (moved_row k).
Notation moved_time := (moved_time k).
Notation moved_labels := (moved_labels k).
Notation moved_effect := (moved_effect k).
Notation moved_config := (moved_config k).
Notation moved_trend := (moved_trend k delta).
Notation moved_fit_effect := (moved_fit_effect k).
Notation moved_prepared := (moved_prepared k).
Notation moved_fitted := (moved_fitted k).
Notation moved_horizon := (moved_horizon k).

(** * Lists of effects *)
Section Effects.
Variable order : list string -> list string.

Lemma fit_one_moved : forall X s l, fit_one order (option_map moved X) s (moved_listed k l) = rmap moved_fit_effect (fit_one order X s l).
Proof.
  intros X s [[n e] r]. unfold fit_one, moved_listed. rewrite clone_moved. destruct X as [X|]; cbn [option_map].
  - cbn [f_cols ShiftSpec.moved]. rewrite rmap_bind. apply bind_ext. intros cs. rewrite select_moved, bind_rmap, rmap_bind. apply bind_ext. intros XC.
    change (Some (moved XC)) with (option_map moved (Some XC)). rewrite fit_moved. destruct (fit order (clone e) (Some XC) s) as [e1 [er|]]; reflexivity.
  - pose proof (fit_moved k order (clone e) None s) as F. cbn [option_map] in F. rewrite F. cbn [snd moved_pair].
    destruct (snd (fit order (clone e) None s)); reflexivity.
Qed.
Lemma covered_moved : forall c l, existsb (fun f : fitted_effect => str_in c (snd f)) (map moved_fit_effect l) = existsb (fun f => str_in c (snd f)) l.
Proof. intros. rewrite existsb_map. apply existsb_same. intros [[n e] cs]. reflexivity. Qed.
Lemma uncovered_moved : forall cols l, uncovered cols (map moved_fit_effect l) = uncovered cols l.
Proof. intros. unfold uncovered. do 2 f_equal. apply filter_same. intros c. rewrite covered_moved. reflexivity. Qed.
Lemma fit_effects_moved : forall d es X s,
  fit_effects order (option_map moved_effect d) (map (moved_listed k) es) (option_map moved X) s = rmap (map moved_fit_effect) (fit_effects order d es X s).
Proof.
  intros. unfold fit_effects. rewrite mapM_map.
  rewrite (mapM_ext _ (fun l => rmap moved_fit_effect (fit_one order X s l))) by (intros l _; apply fit_one_moved).
  rewrite mapM_rmap, bind_rmap, rmap_bind. apply bind_ext. intros fitted. destruct X as [X|]; [|reflexivity]. cbn [option_map].
  cbn [f_cols ShiftSpec.moved]. rewrite uncovered_moved. destruct (uncovered (f_cols X) fitted) as [|c0 cs]; [reflexivity|].
  rewrite select_moved, bind_rmap, rmap_bind. apply bind_ext. intros XC.
  replace (match option_map moved_effect d with None => default_linear | Some e => e end)
    with (moved_effect (match d with None => default_linear | Some e => e end)) by (destruct d; reflexivity).
  rewrite clone_moved. change (Some (moved XC)) with (option_map moved (Some XC)). rewrite fit_moved.
  destruct (fit order (clone match d with None => default_linear | Some e => e end) (Some XC) s) as [e1 [er|]]; cbn [moved_pair fst snd rmap]. reflexivity.
  rewrite map_app. reflexivity.
Qed.
End Effects.

Lemma transform_effects_moved : forall l X fh, transform_effects (map moved_fit_effect l) (moved X) (map moved_time fh) = transform_effects l X fh.
Proof.
  intros. unfold transform_effects. rewrite foldM_map. apply foldM_ext. intros out [[n e] cs]. cbn [ShiftSpec.moved_fit_effect].
  rewrite should_skip_moved. apply bind_ext. intros [|]. reflexivity. rewrite select_moved, bind_rmap. apply bind_ext. intros XC.
  change (Some (moved XC)) with (option_map moved (Some XC)). rewrite transform_moved. reflexivity.
Qed.
Lemma dict_set_map : forall {A B} (g : A -> B) (d : dict A) n a,
  dict_set (map (fun ne => (fst ne, g (snd ne))) d) n (g a) = map (fun ne => (fst ne, g (snd ne))) (dict_set d n a).
Proof.
  induction d as [|[n' a'] tl IH]; intros n a; cbn [map dict_set fst snd]. reflexivity.
  destruct (String.eqb n n'); cbn [map fst snd]. reflexivity. rewrite IH. reflexivity.
Qed.
Lemma non_skipped_moved : forall l, non_skipped (map moved_fit_effect l) = rmap (map (fun ne => (fst ne, moved_effect (snd ne)))) (non_skipped l).
Proof.
  intros. unfold non_skipped. rewrite foldM_map.
  change (@nil (string * effect)) with (map (fun ne : string * effect => (fst ne, moved_effect (snd ne))) []) at 1.
  apply foldM_rmap. intros out [[n e] cs]. cbn [ShiftSpec.moved_fit_effect]. rewrite should_skip_moved, rmap_bind. apply bind_ext. intros [|]; cbn [rmap].
  reflexivity. rewrite <- dict_set_map. reflexivity.
Qed.
Lemma effect_fns_moved : forall d, effect_fns (map (fun ne => (fst ne, moved_effect (snd ne))) d) = effect_fns d.
Proof. intros. unfold effect_fns. rewrite map_map. apply map_ext. intros [n e]. cbn. rewrite predict_moved. reflexivity. Qed.

Variable ns_of : Z -> Z.
Variable order : list string -> list string.
Variable keep : path -> bool.
Context {TS : Type}.
Variable tr_fit_transform : TS -> frame R -> TS * res (frame R).
Variable tr_transform : TS -> frame R -> res (frame R).
Context {P : Type}.
Variable svi_run : Z -> nat -> nat -> prog arr -> res (list xr * P).
Variable nuts_run : Z -> nat -> nat -> nat -> prog arr -> res (nat -> nat -> env).
Variable latent_sites : prog arr -> list string.
Variable guide_draw : P -> Z -> nat -> prog arr -> env.
Variable complete_draw : env -> Z -> nat -> prog arr -> env.
Hypothesis Clock : moves_by ns_of k delta.
Variable mv : TS -> TS.
Hypothesis Transformer : transformer_moves k mv tr_fit_transform tr_transform.
Notation moved_objects := (moved_objects k delta mv).

(** * Fitting *)
Lemma discrete_moved : forall c, discrete (moved_config c) = discrete c.
Proof. reflexivity. Qed.
Lemma effects_of_moved : forall c, effects_of (moved_config c) = map (moved_listed k) (effects_of c).
Proof. intros. unfold effects_of. cbn. destruct (c_effects c); reflexivity. Qed.
Lemma get_trend_moved : forall c ob, get_trend_model (moved_config c) (moved_objects ob) = rmap moved_trend (get_trend_model (TS := TS) c ob).
Proof.
  intros. unfold get_trend_model. cbn [c_trend ShiftSpec.moved_config]. destruct (c_trend c); [|reflexivity].
  change (named_trend (moved_config c) s) with (named_trend c s). symmetry. apply named_trend_moved.
Qed.
Lemma model_call_moved : forall c s p t td y d, model_call (moved_config c) s (moved_prepared p) (moved_trend t) td y d = model_call c s p t td y d.
Proof.
  intros. unfold model_call. cbn [p_effects ShiftSpec.moved_prepared p_single p_has_exogenous]. rewrite effect_fns_moved, trend_predict_moved. reflexivity.
Qed.
Lemma run_fit_transform_moved : forall ob X, run_fit_transform tr_fit_transform (moved_objects ob) (moved X)
  = (moved_objects (fst (run_fit_transform tr_fit_transform ob X)), rmap moved (snd (run_fit_transform tr_fit_transform ob X))).
Proof.
  intros. unfold run_fit_transform. destruct ob as [t [tr|]]; cbn [o_transformer ShiftSpec.moved_objects option_map o_trend]; [|reflexivity].
  destruct Transformer as (F & _). rewrite F. destruct (tr_fit_transform tr X) as [tr' r]. reflexivity.
Qed.
Lemma run_transform_moved : forall ob X, run_transform tr_transform (moved_objects ob) (moved X) = rmap moved (run_transform tr_transform ob X).
Proof.
  intros. unfold run_transform. destruct ob as [t [tr|]]; cbn [o_transformer ShiftSpec.moved_objects option_map]; [|reflexivity].
  destruct Transformer as (_ & F). apply F.
Qed.
Lemma no_columns_moved : forall {V} (X : frame V), no_columns (moved X) = no_columns X.
Proof. reflexivity. Qed.

Definition moved_result (x : objects (TS := TS) * res (prepared * prog arr)) : objects (TS := TS) * res (prepared * prog arr) :=
  (moved_objects (fst x), rmap (fun pm => (moved_prepared (fst pm), snd pm)) (snd x)).

Lemma univariate_fit_moved : forall c ob s y X,
  univariate_fit_data ns_of order tr_fit_transform (moved_config c) (moved_objects ob) s (moved y) (option_map moved X)
  = moved_result (univariate_fit_data ns_of order tr_fit_transform c ob s y X).
Proof.
  intros. unfold univariate_fit_data. cbv zeta. rewrite get_trend_moved, discrete_moved, time_ids_moved, index_of_moved.
  destruct (get_trend_model c ob) as [t|er]; cbn [rmap]; [|reflexivity].
  replace (if discrete c then divide_target s (moved y) else Ok (moved y)) with (rmap moved (if discrete c then divide_target s y else Ok y))
    by (destruct (discrete c); [symmetry; apply divide_target_moved|reflexivity]).
  destruct (if discrete c then divide_target s y else Ok y) as [yt|er]; cbn [rmap]; [|reflexivity].
  rewrite (trend_fit_moved k ns_of order delta Clock). destruct (trend_fit ns_of order t X yt 1) as [t1 [er|]]; cbn [fst snd]; [reflexivity|].
  replace (match option_map moved X with None => empty_frame (f_levels (moved y)) (moved_labels (index_of y)) | Some X0 => X0 end)
    with (moved (match X with None => empty_frame (f_levels y) (index_of y) | Some X0 => X0 end))
    by (destruct X; [reflexivity|]; cbn [option_map f_levels ShiftSpec.moved]; symmetry; apply empty_frame_moved).
  set (X1 := match X with None => empty_frame (f_levels y) (index_of y) | Some X0 => X0 end). clearbody X1.
  change (mkObjects (moved_trend t1) (o_transformer (moved_objects ob))) with (moved_objects (mkObjects t1 (o_transformer ob))).
  rewrite run_fit_transform_moved. destruct (run_fit_transform tr_fit_transform (mkObjects t1 (o_transformer ob)) X1) as [ob1 rX]. cbn [fst snd].
  unfold moved_result. cbn [fst snd]. f_equal.
  rewrite bind_rmap, rmap_bind. apply bind_ext. intros X2. cbv beta.
  rewrite no_columns_moved. rewrite loc_index_moved, bind_rmap, rmap_bind. apply bind_ext. intros X3.
  rewrite (trend_transform_moved k ns_of delta Clock), rmap_bind. apply bind_ext. intros td.
  change (Some (moved X3)) with (option_map moved (Some X3)). rewrite effects_of_moved. change (c_default (moved_config c)) with (option_map moved_effect (c_default c)).
  rewrite fit_effects_moved, bind_rmap, rmap_bind. apply bind_ext. intros fs.
  rewrite transform_effects_moved, rmap_bind. apply bind_ext. intros d.
  rewrite non_skipped_moved, bind_rmap, rmap_bind. apply bind_ext. intros effs. cbn [rmap fst snd].
  rewrite rows_moved, flat_vals_moved. do 2 f_equal. exact (model_call_moved c s (mkPrepared (index_of y) fs effs (truthy (invert (no_columns X2))) None false) t1 td _ _).
Qed.

Lemma n_series_moved : forall n l, n_series n (moved_labels l) = n_series n l.
Proof. intros. unfold n_series. destruct n; [reflexivity|]. unfold ShiftSpec.moved_labels. rewrite map_map. reflexivity. Qed.

Lemma hierarchical_fit_moved : forall c ob s y X,
  hierarchical_fit_data ns_of order keep tr_fit_transform (moved_config c) (moved_objects ob) s (moved y) (option_map moved X)
  = moved_result (hierarchical_fit_data ns_of order keep tr_fit_transform c ob s y X).
Proof.
  intros. unfold hierarchical_fit_data. cbv zeta. rewrite time_ids_moved, aggregate_moved, loc_bottom_moved.
  set (ya := aggregate keep y). clearbody ya.
  destruct (loc_bottom_series ya) as [yb|er]; cbn [rmap]; [|reflexivity].
  rewrite tensor_moved. destruct (series_to_tensor yb) as [tensor|er]; [|reflexivity].
  rewrite index_of_moved.
  replace (match option_map moved X with
           | None => empty_frame (f_levels (moved ya)) (moved_labels (index_of ya))
           | Some X0 => if no_columns X0 then empty_frame (f_levels (moved ya)) (moved_labels (index_of ya)) else X0 end)
    with (moved (match X with None => empty_frame (f_levels ya) (index_of ya) | Some X0 => if no_columns X0 then empty_frame (f_levels ya) (index_of ya) else X0 end)).
  2:{ destruct X as [X0|]; cbn [option_map]; [rewrite no_columns_moved; destruct (no_columns X0)|]; try reflexivity; symmetry; apply empty_frame_moved. }
  set (X1 := match X with None => empty_frame (f_levels ya) (index_of ya) | Some X0 => if no_columns X0 then empty_frame (f_levels ya) (index_of ya) else X0 end). clearbody X1.
  rewrite loc_bottom_moved. destruct (loc_bottom_series X1) as [Xb|er]; cbn [rmap]; [|reflexivity].
  rewrite run_fit_transform_moved. destruct (run_fit_transform tr_fit_transform ob Xb) as [ob1 [X2|er]]; cbn [fst snd rmap]; [|reflexivity].
  rewrite no_columns_moved. rewrite get_trend_moved. change (c_shared (moved_config c)) with (c_shared c).
  rewrite expand_bottom_moved.
  set (E := expand_bottom 0%R (fun _ => false) order match c_shared c with None => [] | Some l => l end X2).
  replace (if negb (no_columns X2) then '(X0, ex) <- rmap (fun r : frame R * expander => (moved (fst r), snd r)) E;; Ok (X0, Some ex) else Ok (moved X2, None))
    with (rmap (fun r : frame R * option expander => (moved (fst r), snd r)) (if negb (no_columns X2) then '(X0, ex) <- E;; Ok (X0, Some ex) else Ok (X2, None)))
    by (destruct (negb (no_columns X2)); [destruct E as [[? ?]|]|]; reflexivity).
  destruct (if negb (no_columns X2) then '(X0, ex) <- E;; Ok (X0, Some ex) else Ok (X2, None)) as [[X3 ex]|er]; cbn [rmap fst snd]; [|reflexivity].
  destruct (get_trend_model c ob1) as [t|er]; cbn [rmap]; [|reflexivity].
  change (Some (moved X3)) with (option_map moved (Some X3)).
  rewrite (trend_fit_moved k ns_of order delta Clock). destruct (trend_fit ns_of order t (Some X3) yb (scale_number s)) as [t1 [er|]]; cbn [fst snd]; [reflexivity|].
  unfold moved_result. cbn [fst snd]. f_equal.
  rewrite (trend_transform_moved k ns_of delta Clock), rmap_bind. apply bind_ext. intros td.
  rewrite effects_of_moved. change (c_default (moved_config c)) with (option_map moved_effect (c_default c)).
  rewrite fit_effects_moved, bind_rmap, rmap_bind. apply bind_ext. intros fs.
  rewrite transform_effects_moved, rmap_bind. apply bind_ext. intros d.
  rewrite non_skipped_moved, bind_rmap, rmap_bind. apply bind_ext. intros effs. cbn [rmap fst snd].
  rewrite n_series_moved. do 2 f_equal. exact (model_call_moved c s (mkPrepared (index_of ya) fs effs (negb (no_columns X2)) ex (n_series (f_levels ya) (index_of ya) =? 1)%nat) t1 td _ _).
Qed.

Lemma fit_data_moved : forall c ob s y X,
  fit_data ns_of order keep tr_fit_transform (moved_config c) (moved_objects ob) s (moved y) (option_map moved X)
  = moved_result (fit_data ns_of order keep tr_fit_transform c ob s y X).
Proof. intros. unfold fit_data. change (c_hier (moved_config c)) with (c_hier c). destruct (c_hier c). apply hierarchical_fit_moved. apply univariate_fit_moved. Qed.

Notation fit_forecaster := (fit_forecaster ns_of order keep tr_fit_transform svi_run nuts_run latent_sites).
Lemma c90_fit : forall c ob y X, fit_forecaster (moved_config c) (moved_objects ob) (moved y) (option_map moved X)
  = (moved_objects (fst (fit_forecaster c ob y X)), rmap moved_fitted (snd (fit_forecaster c ob y X))).
Proof.
  intros. unfold Forecaster.fit_forecaster. change (c_scale (moved_config c)) with (c_scale c). rewrite set_y_scales_moved, discrete_moved.
  destruct (set_y_scales (c_scale c) y) as [s|er]; cbn [bind]; [|reflexivity].
  unfold scale_y. rewrite apply_scale_moved. destruct (apply_scale Rdiv (discrete c) s y) as [ys|er]; cbn [bind rmap]; [|reflexivity].
  rewrite fit_data_moved. unfold moved_result. destruct (fit_data ns_of order keep tr_fit_transform c ob s ys X) as [ob1 r]. cbn [fst snd].
  f_equal. rewrite bind_rmap, rmap_bind. apply bind_ext. intros [p m]. cbn [fst snd].
  change (engine_of (moved_config c)) with (engine_of c). rewrite rmap_bind. apply bind_ext. intros post. reflexivity.
Qed.

(** * Forecasts *)
Lemma max_time_moved : forall l, max_time (map moved_time l) = rmap moved_time (max_time l).
Proof.
  intros [|t tl]; [reflexivity|]. cbn [map max_time rmap]. f_equal. revert t. induction tl as [|x tl IH]; intros t; cbn [map fold_left]. reflexivity.
  rewrite <- IH. f_equal. unfold ShiftSpec.moved_time. lia.
Qed.
Lemma to_absolute_moved : forall c fh, to_absolute (moved_time c) (moved_horizon fh) = map moved_time (to_absolute c fh).
Proof.
  intros c [ks|ts]; [|reflexivity]. cbn. rewrite map_map. apply map_ext. intros x. unfold ShiftSpec.moved_time. lia.
Qed.
Lemma fh_to_index_moved : forall y fh, fh_to_index (moved y) (moved_horizon fh) = rmap (map moved_time) (fh_to_index y fh).
Proof.
  intros. unfold fh_to_index. rewrite rows_moved, times_moved, max_time_moved, bind_rmap, rmap_bind. apply bind_ext. intros c. cbn. rewrite to_absolute_moved. reflexivity.
Qed.
Lemma cutoff_index_moved : forall l, map snd (moved_labels l) = map moved_time (map snd l).
Proof. intros. unfold ShiftSpec.moved_labels. rewrite !map_map. reflexivity. Qed.
Lemma reindex_labels_moved : forall {V} (y : frame V) ts, map fst (reindex_time_series (moved y) (map moved_time ts)) = moved_labels (map fst (reindex_time_series y ts)).
Proof.
  intros. unfold reindex_time_series. cbn [f_levels ShiftSpec.moved]. rewrite index_levels_moved. unfold ShiftSpec.moved_labels. rewrite !map_map. cbn [fst].
  destruct (f_levels y).
  - rewrite !map_map. reflexivity.
  - set (ps := product (index_levels y)). induction ps as [|p tl IH]; cbn [flat_map]. reflexivity.
    rewrite !map_app, IH, !map_map. reflexivity.
Qed.
Lemma forallb_same : forall {A B} (g : A -> B) (p : B -> bool) (q : A -> bool) l, (forall a, p (g a) = q a) -> forallb p (map g l) = forallb q l.
Proof. induction l as [|x tl IH]; intros H; simpl. reflexivity. rewrite H, IH by exact H. reflexivity. Qed.

Lemma univariate_predict_moved : forall c ob f y X fh,
  univariate_predict_model (P := P) ns_of tr_transform (moved_config c) (moved_objects ob) (moved_fitted f) (moved y) (option_map moved X) (moved_horizon fh)
  = univariate_predict_model ns_of tr_transform c ob f y X fh.
Proof.
  intros. unfold univariate_predict_model. cbv zeta. rewrite rows_moved, times_moved, max_time_moved, bind_rmap. apply bind_ext. intros cut.
  rewrite to_absolute_moved. set (ts := to_absolute cut fh). clearbody ts.
  replace (match option_map moved X with None => empty_frame 0 (map (fun t => ([], t)) (map moved_time ts)) | Some X0 => X0 end)
    with (moved (match X with None => empty_frame 0 (map (fun t => ([], t)) ts) | Some X0 => X0 end)).
  2:{ destruct X; [reflexivity|]. cbn [option_map]. rewrite <- empty_frame_moved. unfold ShiftSpec.moved_labels. rewrite !map_map. reflexivity. }
  rewrite run_transform_moved, bind_rmap. apply bind_ext. intros X1.
  cbn [o_trend ShiftSpec.moved_objects]. rewrite (trend_transform_moved k ns_of delta Clock). apply bind_ext. intros td.
  cbn [ft_prepared ShiftSpec.moved_fitted p_has_exogenous ShiftSpec.moved_prepared p_fitted ft_scale].
  rewrite transform_effects_moved. apply bind_ext. intros d. f_equal. apply (model_call_moved c (ft_scale f) (ft_prepared f)).
Qed.
Lemma hierarchical_predict_moved : forall c ob f y X fh,
  hierarchical_predict_model (P := P) ns_of keep tr_transform (moved_config c) (moved_objects ob) (moved_fitted f) (moved y) (option_map moved X) (moved_horizon fh)
  = hierarchical_predict_model ns_of keep tr_transform c ob f y X fh.
Proof.
  intros. unfold hierarchical_predict_model. cbv zeta.
  cbn [ft_prepared ShiftSpec.moved_fitted p_has_exogenous ShiftSpec.moved_prepared p_fitted ft_scale p_index p_expander].
  rewrite cutoff_index_moved, max_time_moved, bind_rmap. apply bind_ext. intros cut.
  rewrite to_absolute_moved. set (ts := to_absolute cut fh). clearbody ts.
  rewrite reindex_labels_moved. change (f_levels (moved y)) with (f_levels y). rewrite empty_frame_moved, aggregate_moved.
  set (none := aggregate keep (empty_frame (f_levels y) (map fst (reindex_time_series y ts)))). clearbody none.
  replace (match option_map moved X with None => moved none | Some X0 => if no_columns X0 then moved none else X0 end)
    with (moved (match X with None => none | Some X0 => if no_columns X0 then none else X0 end))
    by (destruct X as [X0|]; [cbn [option_map]; rewrite no_columns_moved; destruct (no_columns X0)|]; reflexivity).
  rewrite loc_bottom_moved, bind_rmap. apply bind_ext. intros Xb.
  set (body := if p_has_exogenous (ft_prepared f) then
           if forallb (fun t => existsb (Z.eqb t) (map r_time (f_rows Xb))) ts then
             Xb <- run_transform tr_transform ob Xb ;;
             ex <- attr (p_expander (ft_prepared f)) ;;
             '(Xb, ex) <- expand_transform 0%R (fun _ => false) ex Xb ;; Ok (Xb, Some ex)
           else Err AssertionError
         else Ok (Xb, p_expander (ft_prepared f))).
  match goal with |- bind ?B _ = _ => replace B with (rmap (fun r : frame R * option expander => (moved (fst r), snd r)) body) end.
  - rewrite bind_rmap. apply bind_ext. intros [X1 ex]. cbn [fst snd].
    cbn [o_trend ShiftSpec.moved_objects]. rewrite (trend_transform_moved k ns_of delta Clock). apply bind_ext. intros td.
    rewrite transform_effects_moved. apply bind_ext. intros d. do 2 f_equal. apply (model_call_moved c (ft_scale f) (ft_prepared f)).
  - unfold body. destruct (p_has_exogenous (ft_prepared f)); [|reflexivity].
    rewrite (forallb_same moved_time _ (fun t => existsb (Z.eqb t) (map r_time (f_rows Xb))) ts).
    2:{ intros t. rewrite rows_moved, times_moved, existsb_map. apply existsb_same. intros u. apply eqb_moved. }
    destruct (forallb _ ts); [|reflexivity]. rewrite run_transform_moved, bind_rmap, rmap_bind. apply bind_ext. intros X1.
    rewrite rmap_bind. apply bind_ext. intros ex. rewrite expand_transform_moved, bind_rmap, rmap_bind. apply bind_ext. intros [X2 ex2]. reflexivity.
Qed.

Notation samples_dict := (predictive_samples_dict ns_of keep tr_transform guide_draw complete_draw).
Lemma samples_dict_moved : forall c ob f y X fh,
  samples_dict (moved_config c) (moved_objects ob) (moved_fitted f) (moved y) (option_map moved X) (moved_horizon fh)
  = (moved_fitted (fst (samples_dict c ob f y X fh)), snd (samples_dict c ob f y X fh)).
Proof.
  intros. unfold predictive_samples_dict. change (c_hier (moved_config c)) with (c_hier c). change (engine_of (moved_config c)) with (engine_of c).
  rewrite hierarchical_predict_moved, univariate_predict_moved. destruct (c_hier c).
  - destruct (hierarchical_predict_model ns_of keep tr_transform c ob f y X fh) as [[m ex]|er]; reflexivity.
  - reflexivity.
Qed.

Definition moved_labeller (lb : labeller) : labeller := mkLab (lb_levels lb) (moved_labels (lb_index lb)) (lb_hier lb) (lb_scale lb) (lb_discrete lb).
Lemma multiindex_moved : forall lb ts, periodindex_to_multiindex (moved_labeller lb) (map moved_time ts) = rmap moved_labels (periodindex_to_multiindex lb ts).
Proof.
  intros. unfold periodindex_to_multiindex. cbn [lb_levels moved_labeller lb_index lb_hier]. destruct (lb_levels lb).
  - cbn [rmap]. unfold ShiftSpec.moved_labels. rewrite !map_map. reflexivity.
  - replace (map fst (moved_labels (lb_index lb))) with (map fst (lb_index lb)) by (unfold ShiftSpec.moved_labels; rewrite map_map; reflexivity).
    destruct (paths_unique (map fst (lb_index lb))) as [|p0 ids]; [reflexivity|]. cbn [rmap]. f_equal.
    unfold ShiftSpec.moved_labels. rewrite map_flat_map. apply flat_map_same. intros p _. rewrite !map_map. reflexivity.
Qed.
Lemma frame_of_moved : forall n cs idx d, frame_of n cs (moved_labels idx) d = rmap moved (frame_of n cs idx d).
Proof.
  intros. unfold frame_of, ShiftSpec.moved_labels. rewrite map_length. destruct (_ =? _)%nat; [|reflexivity]. cbn [rmap]. unfold ShiftSpec.moved. cbn.
  do 2 f_equal. rewrite combine_map_l, !map_map. reflexivity.
Qed.
Lemma predict_samples_moved : forall lb ts ds, predict_samples keep (moved_labeller lb) (map moved_time ts) ds = rmap moved (predict_samples keep lb ts ds).
Proof.
  intros. unfold predict_samples. cbn [lb_hier moved_labeller].
  assert (B : predict_samples_base (moved_labeller lb) (map moved_time ts) ds = rmap moved (predict_samples_base lb ts ds)).
  { unfold predict_samples_base. rewrite rmap_bind. apply bind_ext. intros obs. destruct (a_shape obs) as [|n sh]; [reflexivity|].
    rewrite rmap_bind. apply bind_ext. intros data. rewrite multiindex_moved, bind_rmap, rmap_bind. apply bind_ext. intros idx.
    cbn [lb_levels moved_labeller lb_discrete lb_scale]. rewrite frame_of_moved, bind_rmap, rmap_bind. apply bind_ext. intros preds.
    rewrite sort_index_moved. apply apply_scale_moved. }
  rewrite B, bind_rmap, rmap_bind. apply bind_ext. intros s. cbn [rmap]. destruct (lb_hier lb). rewrite aggregate_moved. reflexivity. reflexivity.
Qed.
Lemma point_forecast_moved : forall n s, point_forecast n (moved s) = moved (point_forecast n s).
Proof. intros. unfold point_forecast, ShiftSpec.moved. cbn. rewrite !map_map. reflexivity. Qed.
Lemma predict_quantiles_moved : forall alpha s, predict_quantiles alpha (moved s) = rmap (moved_quantiles k) (predict_quantiles alpha s).
Proof. intros. unfold predict_quantiles. destruct (forallb _ alpha); [|reflexivity]. unfold rmap, moved_quantiles, ShiftSpec.moved. cbn. rewrite !map_map. reflexivity. Qed.
Lemma nth_labels : forall l i, (i < List.length l)%nat -> nth i (moved_labels l) ([], 0%Z) = (fst (nth i l ([], 0%Z)), moved_time (snd (nth i l ([], 0%Z)))).
Proof.
  intros l i H. rewrite (nth_indep _ _ (([] : path), moved_time 0)) by (unfold ShiftSpec.moved_labels; rewrite map_length; exact H).
  exact (map_nth (fun pt => (fst pt, moved_time (snd pt))) l ([], 0%Z) i).
Qed.
Lemma predict_all_sites_moved : forall lb ts ds, predict_all_sites (moved_labeller lb) (map moved_time ts) ds = rmap moved (predict_all_sites lb ts ds).
Proof.
  intros. unfold predict_all_sites. rewrite rmap_bind. apply bind_ext. intros sites. rewrite multiindex_moved, bind_rmap, rmap_bind. apply bind_ext. intros idx.
  replace (List.length (moved_labels idx)) with (List.length idx) by (unfold ShiftSpec.moved_labels; rewrite map_length; reflexivity).
  destruct (forallb _ sites); [|reflexivity]. cbn [lb_levels moved_labeller lb_discrete lb_scale]. unfold inv_scale_y. rewrite <- apply_scale_moved, <- sort_index_moved.
  do 2 f_equal. unfold ShiftSpec.moved. cbn. f_equal. rewrite map_map. apply map_ext_in. intros i Hi. apply in_seq in Hi.
  rewrite (nth_labels idx i) by lia. reflexivity.
Qed.
Lemma predict_all_sites_samples_moved : forall lb ts ds, predict_all_sites_samples (moved_labeller lb) (map moved_time ts) ds
  = rmap (fun r => (fst r, map (moved_sample_row k) (snd r))) (predict_all_sites_samples lb ts ds).
Proof.
  intros. unfold predict_all_sites_samples. rewrite multiindex_moved, bind_rmap, rmap_bind. apply bind_ext. intros idx.
  destruct ds as [|[n0 a0] tl]; [reflexivity|]. destruct (a_shape a0) as [|n sh]; [reflexivity|].
  replace (List.length (moved_labels idx)) with (List.length idx) by (unfold ShiftSpec.moved_labels; rewrite map_length; reflexivity).
  destruct (forallb _ _); [|reflexivity]. cbn [rmap fst snd]. do 2 f_equal. rewrite map_flat_map. apply flat_map_same. intros s _.
  rewrite map_map. apply map_ext_in. intros i Hi. apply in_seq in Hi. rewrite (nth_labels idx i) by lia. reflexivity.
Qed.

Notation forecast_samples := (forecast_samples ns_of keep tr_transform guide_draw complete_draw).
Notation forecast_point := (forecast_point ns_of keep tr_transform guide_draw complete_draw).
Notation forecast_quantiles := (forecast_quantiles ns_of keep tr_transform guide_draw complete_draw).
Notation forecast_all_sites := (forecast_all_sites ns_of keep tr_transform guide_draw complete_draw).
Notation forecast_all_sites_samples := (forecast_all_sites_samples ns_of keep tr_transform guide_draw complete_draw).

Lemma labeller_moved : forall c f y, labeller_of (moved_config c) (moved_fitted f) (moved y) = moved_labeller (labeller_of (P := P) c f y).
Proof. reflexivity. Qed.
Lemma c90_samples : forall c ob f y X fh,
  forecast_samples (moved_config c) (moved_objects ob) (moved_fitted f) (moved y) (option_map moved X) (moved_horizon fh)
  = (moved_fitted (fst (forecast_samples c ob f y X fh)), rmap moved (snd (forecast_samples c ob f y X fh))).
Proof.
  intros. unfold Forecaster.forecast_samples. rewrite fh_to_index_moved. destruct (fh_to_index y fh) as [ts|er]; cbn [rmap]; [|reflexivity].
  rewrite samples_dict_moved. destruct (samples_dict c ob f y X fh) as [f1 ds]. cbn [fst snd]. f_equal. rewrite rmap_bind. apply bind_ext. intros d.
  rewrite labeller_moved. apply predict_samples_moved.
Qed.
Lemma c90_point : forall c ob f y X fh,
  forecast_point (moved_config c) (moved_objects ob) (moved_fitted f) (moved y) (option_map moved X) (moved_horizon fh)
  = (moved_fitted (fst (forecast_point c ob f y X fh)), rmap moved (snd (forecast_point c ob f y X fh))).
Proof.
  intros. unfold Forecaster.forecast_point. rewrite c90_samples. destruct (forecast_samples c ob f y X fh) as [f1 s]. cbn [fst snd]. f_equal.
  rewrite bind_rmap, rmap_bind. apply bind_ext. intros a. cbn [rmap]. rewrite point_forecast_moved. reflexivity.
Qed.
Lemma c90_quantiles : forall c ob f y X fh alpha,
  forecast_quantiles (moved_config c) (moved_objects ob) (moved_fitted f) (moved y) (option_map moved X) (moved_horizon fh) alpha
  = (moved_fitted (fst (forecast_quantiles c ob f y X fh alpha)), rmap (moved_quantiles k) (snd (forecast_quantiles c ob f y X fh alpha))).
Proof.
  intros. unfold Forecaster.forecast_quantiles. rewrite c90_samples. destruct (forecast_samples c ob f y X fh) as [f1 s]. cbn [fst snd]. f_equal.
  rewrite bind_rmap, rmap_bind. apply bind_ext. intros a. apply predict_quantiles_moved.
Qed.
Lemma c90_all_sites : forall c ob f y X fh,
  forecast_all_sites (moved_config c) (moved_objects ob) (moved_fitted f) (moved y) (option_map moved X) (moved_horizon fh)
  = (moved_fitted (fst (forecast_all_sites c ob f y X fh)), rmap moved (snd (forecast_all_sites c ob f y X fh))).
Proof.
  intros. unfold Forecaster.forecast_all_sites. rewrite fh_to_index_moved. destruct (fh_to_index y fh) as [ts|er]; cbn [rmap]; [|reflexivity].
  rewrite samples_dict_moved. destruct (samples_dict c ob f y X fh) as [f1 ds]. cbn [fst snd]. f_equal. rewrite rmap_bind. apply bind_ext. intros d.
  rewrite labeller_moved. apply predict_all_sites_moved.
Qed.
Lemma c90_all_sites_samples : forall c ob f y X fh,
  forecast_all_sites_samples (moved_config c) (moved_objects ob) (moved_fitted f) (moved y) (option_map moved X) (moved_horizon fh)
  = (moved_fitted (fst (forecast_all_sites_samples c ob f y X fh)),
     rmap (fun r => (fst r, map (moved_sample_row k) (snd r))) (snd (forecast_all_sites_samples c ob f y X fh))).
Proof.
  intros. unfold Forecaster.forecast_all_sites_samples. rewrite samples_dict_moved. destruct (samples_dict c ob f y X fh) as [f1 ds]. cbn [fst snd]. f_equal.
  rewrite rmap_bind. apply bind_ext. intros d. rewrite fh_to_index_moved, bind_rmap, rmap_bind. apply bind_ext. intros ts.
  rewrite labeller_moved. apply predict_all_sites_samples_moved.
Qed.

(** * Without dated parameters *)
Lemma dateless_moved : forall e, dateless e = true -> moved_effect e = e.
Proof. intros [] H; try reflexivity; try discriminate. destruct features; [discriminate|reflexivity]. Qed.
Lemma dateless_config_moved : forall c, dateless_config c = true -> moved_config c = c.
Proof.
  intros c H. unfold dateless_config in H. apply andb_prop in H. destruct H as (HE & HD).
  destruct c as [h tr iv rg cs os csc cl effs def ns lk sc sh con me ke st op sa wa ch]. unfold ShiftSpec.moved_config. cbn in *.
  assert (E1 : option_map (map (moved_listed k)) effs = effs).
  { destruct effs as [l|]; [|reflexivity]. cbn in *. f_equal. rewrite <- (map_id l) at 2. apply map_ext_in. intros [[n e] r] Hi.
    rewrite forallb_forall in HE. specialize (HE _ Hi). cbn in HE. unfold moved_listed. rewrite dateless_moved by exact HE. reflexivity. }
  assert (E2 : option_map moved_effect def = def).
  { destruct def as [e|]; [|reflexivity]. cbn in *. rewrite dateless_moved by exact HD. reflexivity. }
  rewrite E1, E2. reflexivity.
Qed.

Lemma fresh_moved : forall t, fresh_trend t -> moved_trend t = t.
Proof. intros [p c b f|s b l|e] H; cbn in *. subst; reflexivity. reflexivity. rewrite dateless_moved by exact H. reflexivity. Qed.
End Shift.

Section Plain.
Variable k : Z.
Variable delta : R.
Variable ns_of : Z -> Z.
Variable order : list string -> list string.
Variable keep : path -> bool.
Context {TS : Type}.
Variable tr_fit_transform : TS -> frame R -> TS * res (frame R).
Variable tr_transform : TS -> frame R -> res (frame R).
Context {P : Type}.
Variable svi_run : Z -> nat -> nat -> prog arr -> res (list xr * P).
Variable nuts_run : Z -> nat -> nat -> nat -> prog arr -> res (nat -> nat -> env).
Variable latent_sites : prog arr -> list string.
Variable guide_draw : P -> Z -> nat -> prog arr -> env.
Variable complete_draw : env -> Z -> nat -> prog arr -> env.
Notation fit_forecaster := (fit_forecaster ns_of order keep tr_fit_transform svi_run nuts_run latent_sites).
Notation forecast_samples := (forecast_samples ns_of keep tr_transform guide_draw complete_draw).

Lemma c90_same : moves_by ns_of k delta -> transformer_moves k (fun st => st) tr_fit_transform tr_transform ->
  forall c ob0 y X ob f, dateless_config c = true -> fresh_trend (o_trend ob0) ->
  fit_forecaster c ob0 y X = (ob, Ok f) ->
  exists ob' f', fit_forecaster c ob0 (moved k y) (option_map (moved k) X) = (ob', Ok f') /\
    ft_scale f' = ft_scale f /\ ft_posterior f' = ft_posterior f /\ p_effects (ft_prepared f') = map (fun ne => (fst ne, moved_effect k (snd ne))) (p_effects (ft_prepared f)) /\
    forall y2 X2 fh, snd (forecast_samples c ob' f' (moved k y2) (option_map (moved k) X2) (moved_horizon k fh))
                   = rmap (moved k) (snd (forecast_samples c ob f y2 X2 fh)).
Proof.
  intros C T c ob0 y X ob f D FT F.
  assert (O : moved_objects k delta (fun st : TS => st) ob0 = ob0).
  { unfold moved_objects. rewrite fresh_moved by exact FT. destruct ob0 as [t [tr|]]; reflexivity. }
  pose proof (c90_fit k delta ns_of order keep tr_fit_transform tr_transform svi_run nuts_run latent_sites C (fun st => st) T c ob0 y X) as E.
  rewrite (dateless_config_moved k c D), O, F in E. cbn [fst snd rmap] in E.
  eexists _, _. split; [exact E|]. split; [reflexivity|]. split; [reflexivity|]. split; [reflexivity|].
  intros y2 X2 fh.
  pose proof (c90_samples k delta ns_of keep tr_fit_transform tr_transform guide_draw complete_draw C (fun st => st) T c ob f y2 X2 fh) as G.
  rewrite (dateless_config_moved k c D) in G. rewrite G. reflexivity.
Qed.
End Plain.
