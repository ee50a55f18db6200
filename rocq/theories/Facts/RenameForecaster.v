(** Forecasters whose effects have other names. *)
From Coq Require Import Reals String Ascii Bool ZArith List Lia FunctionalExtensionality.
From Verif.Model Require Import Base Num XFloat Regex Frame Arr Expand Aggregate Scale Predict Prog Likelihood Effect Trend TrendProg Engine Forecaster.
From Verif.Spec Require Import ProgSpec ForecasterSpec SiteSpec ShiftSpec RelistSpec RenameSpec.
From Verif.Facts Require Import BaseFacts FrameFacts MeanFacts EffectPredict ForecasterFacts ForecasterInv RenameFacts RenameModel.
Import ListNotations.
Local Open Scope string_scope.

Section Any.
Variable ns_of : Z -> Z.
Variable order : list string -> list string.
Variable keep : path -> bool.
Context {TS P : Type}.
Variable tr_fit_transform : TS -> frame R -> TS * res (frame R).
Variable tr_transform : TS -> frame R -> res (frame R).
Variable svi_run : Z -> nat -> nat -> prog arr -> res (list xr * P).
Variable nuts_run : Z -> nat -> nat -> nat -> prog arr -> res (nat -> nat -> env).
Variable latent_sites : prog arr -> list string.
Variable guide_draw : P -> Z -> nat -> prog arr -> env.
Variable complete_draw : env -> Z -> nat -> prog arr -> env.
Notation fit_data := (fit_data ns_of order keep tr_fit_transform).
Notation fit_forecaster := (fit_forecaster ns_of order keep tr_fit_transform svi_run nuts_run latent_sites).
Notation predict_model := (predict_model ns_of keep tr_transform).

Variable rho : string -> string.
Hypothesis REN : renaming rho.
Notation sigma := (site_name rho).
Notation ren := (rename_sites sigma).
Notation renamed c := (with_effects c (map (rename_listed rho) (effects_of c))).

Definition rename_data (r : objects (TS := TS) * res (prepared * prog arr)) := (fst r, rmap (fun pm => (rename_prepared rho (fst pm), ren (snd pm))) (snd r)).

Lemma c115_fit c ob s y X : (forall l, In l (effects_of c) -> no_slash (l_name l) = true) -> fit_data (renamed c) ob s y X = rename_data (fit_data c ob s y X).
Proof.
  intros NS. unfold Forecaster.fit_data. set (c' := renamed c). change (c_hier c') with (c_hier c). destruct (c_hier c) eqn:HH.
  - unfold hierarchical_fit_data. change (get_trend_model c') with (get_trend_model (TS := TS) c). change (c_shared c') with (c_shared c). change (effects_of c') with (map (rename_listed rho) (effects_of c)). change (c_default c') with (c_default c).
    destruct (loc_bottom_series (aggregate keep y)) as [yb|]; [|reflexivity]. destruct (series_to_tensor yb) as [tensor|]; [|reflexivity]. cbv zeta.
    destruct (loc_bottom_series _) as [Xb|]; [|reflexivity]. destruct (run_fit_transform _ _ _) as [ob1 [Xt|]]; [|reflexivity].
    destruct (if negb (no_columns Xt) then _ else _) as [[Xe ex]|]; [|reflexivity]. destruct (get_trend_model c ob1) as [t0|]; [|reflexivity].
    destruct (trend_fit _ _ _ _ _ _) as [t [er|]]; [reflexivity|]. unfold rename_data. cbn [fst snd]. f_equal. destruct (trend_transform _ _ _ _) as [td|]; [|reflexivity]. cbn [bind].
    rewrite (fit_effects_rename rho REN). destruct (fit_effects _ _ (effects_of c) _ _) as [g|] eqn:FE; [|reflexivity]. cbn [bind rmap]. rewrite (transform_effects_rename rho REN). destruct (transform_effects g _ _) as [data|]; [|reflexivity]. cbn [bind rmap].
    rewrite (non_skipped_rename rho REN). destruct (non_skipped g) as [effs|] eqn:NE; [|reflexivity]. cbn [bind rmap fst snd]. f_equal. f_equal.
    symmetry. apply (ren_call rho REN c _ s (mkPrepared _ g effs _ ex _)). cbn [p_effects]. exact (names_plain order _ _ _ _ _ _ FE NE NS).
  - unfold univariate_fit_data. change (get_trend_model c') with (get_trend_model (TS := TS) c). change (discrete c') with (discrete c). change (effects_of c') with (map (rename_listed rho) (effects_of c)). change (c_default c') with (c_default c).
    destruct (get_trend_model c ob) as [t0|]; [|reflexivity]. destruct (if discrete c then divide_target s y else Ok y) as [yt|]; [|reflexivity].
    destruct (trend_fit _ _ t0 X yt 1) as [t [er|]]; [reflexivity|]. cbv zeta. destruct (run_fit_transform _ _ _) as [ob1 [Xt|]]; [|reflexivity]. unfold rename_data. cbn [fst snd bind]. f_equal.
    destruct (loc_index Xt (index_of y)) as [X1|]; [|reflexivity]. cbn [bind]. destruct (trend_transform _ _ _ _) as [td|]; [|reflexivity]. cbn [bind].
    rewrite (fit_effects_rename rho REN). destruct (fit_effects _ _ (effects_of c) _ _) as [g|] eqn:FE; [|reflexivity]. cbn [bind rmap]. rewrite (transform_effects_rename rho REN). destruct (transform_effects g _ _) as [data|]; [|reflexivity]. cbn [bind rmap].
    rewrite (non_skipped_rename rho REN). destruct (non_skipped g) as [effs|] eqn:NE; [|reflexivity]. cbn [bind rmap fst snd]. f_equal. f_equal.
    symmetry. apply (ren_call rho REN c _ s (mkPrepared _ g effs _ None _)). cbn [p_effects]. exact (names_plain order _ _ _ _ _ _ FE NE NS).
Qed.

(** * Runs *)
Lemma ren_run {A} (m : prog A) e e' : same_values sigma e e' -> forall tr, run e' (rename_keys sigma tr) (ren m) = rmap (fun at_ => (fst at_, rename_keys sigma (snd at_))) (run e tr m).
Proof.
  intros SV. pose proof (sigma_inj rho REN) as I.
  assert (RC : forall tr n s, record (rename_keys sigma tr) (sigma n) s = rmap (rename_keys sigma) (record tr n s)) by (intros tr n s; unfold record; rewrite get_keys, set_keys by exact I; destruct s; [destruct (dict_get tr n)| |]; reflexivity).
  induction m as [a|x|n d sh o k IH|n v k IH|n s k IH]; intros tr; cbn [rename_sites run]; try reflexivity.
  - assert (SVV : site_value e' (sigma n) sh o = site_value e n sh o) by (destruct o; [reflexivity|]; cbn; f_equal; apply map_ext; intros j; apply SV). rewrite SVV, RC. destruct (record _ n _); cbn [rmap bind]; [apply IH|reflexivity].
  - rewrite RC. destruct (record _ n _); cbn [rmap bind]; [apply IH|reflexivity].
  - rewrite RC. destruct (record _ n _); cbn [rmap bind]; [apply IH|reflexivity].
Qed.

(** * Forecasts *)
Lemma prepared_plain c ob y X ob' (f : fitted (P := P)) : fit_forecaster c ob y X = (ob', Ok f) -> (forall l, In l (effects_of c) -> no_slash (l_name l) = true) -> forall n, In n (dict_keys (p_effects (ft_prepared f))) -> no_slash n = true.
Proof.
  intros H NS. unfold Forecaster.fit_forecaster in H. destruct (_ <- set_y_scales (c_scale c) y ;; _) as [[s ys]|]; [|discriminate]. destruct (fit_data c ob s ys X) as [ob1 [[p m]|]] eqn:E; [|discriminate]. injection H as <- H. cbn [bind] in H. inv_bind H. injection H as <-. cbn [ft_prepared].
  unfold Forecaster.fit_data in E. destruct (c_hier c).
  - unfold hierarchical_fit_data in E. destruct (loc_bottom_series (aggregate keep ys)) as [yb|]; [|discriminate]. destruct (series_to_tensor yb) as [tensor|]; [|discriminate]. cbv zeta in *.
    destruct (loc_bottom_series _) as [Xb|]; [|discriminate]. destruct (run_fit_transform _ _ _) as [ob2 [Xt|]]; [|discriminate].
    destruct (if negb (no_columns Xt) then _ else _) as [[Xe ex]|]; [|discriminate]. destruct (get_trend_model c ob2) as [t0|]; [|discriminate].
    destruct (trend_fit _ _ _ _ _ _) as [t [er|]]; [discriminate|]. injection E as <- H. inv_bind H. inv_bind H. inv_bind H. inv_bind H. injection H as <- <-. cbn [p_effects]. eapply (names_plain order); eassumption.
  - unfold univariate_fit_data in E. destruct (get_trend_model c ob) as [t0|]; [|discriminate]. destruct (if discrete c then divide_target s ys else Ok ys) as [yt|]; [|discriminate].
    destruct (trend_fit _ _ t0 X yt 1) as [t [er|]]; [discriminate|]. cbv zeta in *. destruct (run_fit_transform _ _ _) as [ob2 [Xt|]]; [|discriminate].
    injection E as <- H. cbn [bind] in *. inv_bind H. inv_bind H. inv_bind H. inv_bind H. inv_bind H. injection H as <- <-. cbn [p_effects]. eapply (names_plain order); eassumption.
Qed.

Lemma hier_model_rename c es ob (f f' : fitted (P := P)) y X fh : (forall n, In n (dict_keys (p_effects (ft_prepared f))) -> no_slash n = true) -> ft_scale f' = ft_scale f -> ft_prepared f' = rename_prepared rho (ft_prepared f) ->
  hierarchical_predict_model ns_of keep tr_transform (with_effects c es) ob f' y X fh = rmap (fun me => (ren (fst me), snd me)) (hierarchical_predict_model ns_of keep tr_transform c ob f y X fh).
Proof.
  intros NS E1 E2. unfold hierarchical_predict_model. cbv zeta. rewrite E1, E2. cbn [rename_prepared p_index p_has_exogenous p_expander p_fitted].
  destruct (max_time _) as [cutoff|]; [|reflexivity]. cbn [bind]. destruct (loc_bottom_series _) as [Xb|]; [|reflexivity]. cbn [bind]. set (step := if p_has_exogenous (ft_prepared f) then _ else _). destruct step as [[Xe ex]|]; [|reflexivity]. cbn [bind].
  destruct (trend_transform _ _ _ _) as [td|]; [|reflexivity]. cbn [bind]. rewrite (transform_effects_rename rho REN). destruct (transform_effects _ _ _) as [data|]; [|reflexivity]. cbn [bind rmap fst snd]. f_equal. f_equal. symmetry. exact (ren_call rho REN c es (ft_scale f) (ft_prepared f) _ td None (Some data) NS).
Qed.
Lemma univ_model_rename c es ob (f f' : fitted (P := P)) y X fh : (forall n, In n (dict_keys (p_effects (ft_prepared f))) -> no_slash n = true) -> ft_scale f' = ft_scale f -> ft_prepared f' = rename_prepared rho (ft_prepared f) ->
  univariate_predict_model ns_of tr_transform (with_effects c es) ob f' y X fh = rmap ren (univariate_predict_model ns_of tr_transform c ob f y X fh).
Proof.
  intros NS E1 E2. unfold univariate_predict_model. cbv zeta. rewrite E1, E2. cbn [rename_prepared p_has_exogenous p_fitted].
  destruct (max_time _) as [cutoff|]; [|reflexivity]. cbn [bind]. destruct (run_transform _ _ _) as [Xt|]; [|reflexivity]. cbn [bind]. destruct (trend_transform _ _ _ _) as [td|]; [|reflexivity]. cbn [bind].
  destruct (p_has_exogenous (ft_prepared f)) eqn:HE.
  - rewrite (transform_effects_rename rho REN). destruct (transform_effects _ _ _) as [data|]; [|reflexivity]. cbn [bind rmap]. f_equal. symmetry. exact (ren_call rho REN c es (ft_scale f) (ft_prepared f) _ td None (Some data) NS).
  - cbn [bind rmap]. f_equal. symmetry. exact (ren_call rho REN c es (ft_scale f) (ft_prepared f) _ td None None NS).
Qed.
Lemma c115_model c es ob (f f' : fitted (P := P)) y X fh : (forall n, In n (dict_keys (p_effects (ft_prepared f))) -> no_slash n = true) -> ft_scale f' = ft_scale f -> ft_prepared f' = rename_prepared rho (ft_prepared f) ->
  predict_model (with_effects c es) ob f' y X fh = rmap ren (predict_model c ob f y X fh).
Proof.
  intros NS E1 E2. unfold ForecasterSpec.predict_model. change (c_hier (with_effects c es)) with (c_hier c). destruct (c_hier c); [|now apply univ_model_rename]. rewrite (hier_model_rename c es ob f f') by assumption.
  destruct (hierarchical_predict_model _ _ _ c ob f y X fh) as [[m ex]|]; reflexivity.
Qed.

Lemma predictive_rename latent tr : predictive_values (map sigma latent) (rename_keys sigma tr) = rename_keys sigma (predictive_values latent tr).
Proof.
  unfold predictive_values, rename_keys. induction tr as [|[n s] tr IH]; [reflexivity|]. cbn [map flat_map fst snd]. rewrite IH, map_app. f_equal.
  assert (Q : str_in (sigma n) (map sigma latent) = str_in n latent) by (unfold str_in; clear -REN; induction latent as [|l ls IH]; [reflexivity|]; cbn [map existsb]; rewrite IH, (eqb_inj sigma n l) by (exact (sigma_inj rho REN)); reflexivity).
  destruct s; [rewrite Q; destruct (str_in n latent); reflexivity|reflexivity|reflexivity].
Qed.
Lemma stack_rename ds : stack (map (rename_keys sigma) ds) = rmap (rename_keys sigma) (stack ds).
Proof.
  assert (Q : forall ka, stack_site (map (rename_keys sigma) ds) (sigma (fst ka), snd ka) = rmap (fun kv => (sigma (fst kv), snd kv)) (stack_site ds ka)).
  { intros [k a]. unfold stack_site. cbn [fst snd]. assert (M : mapM (fun d => dict_item d (sigma k)) (map (rename_keys sigma) ds) = mapM (fun d => dict_item d k) ds) by (clear a; induction ds as [|d ds IH]; [reflexivity|]; cbn [map mapM]; rewrite (item_keys sigma d k) by (exact (sigma_inj rho REN)); now rewrite IH).
    rewrite M, map_length. destruct (mapM _ ds) as [vs|]; [|reflexivity]. cbn [bind]. destruct (forallb _ vs); reflexivity. }
  unfold stack. destruct ds as [|d ds']; [reflexivity|]. cbn [map]. set (ds := d :: ds') in *. change (rename_keys sigma d :: map (rename_keys sigma) ds') with (map (rename_keys sigma) ds).
  unfold rename_keys at 2. rewrite (mapM_rename (stack_site ds) (stack_site (map (rename_keys sigma) ds)) (fun kv => (sigma (fst kv), snd kv)) (fun kv => (sigma (fst kv), snd kv))) by exact Q. reflexivity.
Qed.

Notation draws_match := (draws_match guide_draw complete_draw sigma).
Lemma engine_rename a i i' m : draws_match a i i' m -> engine_predict guide_draw complete_draw a i' (ren m) = rmap (rename_keys sigma) (engine_predict guide_draw complete_draw a i m).
Proof.
  intros [L F]. unfold engine_predict. rewrite L.
  assert (M : mapM (fun e => run e [] (ren m)) (draws guide_draw complete_draw a i' (ren m)) = rmap (map (fun at_ => (fst at_, rename_keys sigma (snd at_)))) (mapM (fun e => run e [] m) (draws guide_draw complete_draw a i m))).
  { induction F as [|e e' es es' SV F IH]; [reflexivity|]. cbn [mapM]. change (@nil (string * site)) with (rename_keys (V := site) sigma []) at 1. rewrite (ren_run m e e' SV). destruct (run e [] m) as [[v tr]|]; cbn [rmap bind]; [|reflexivity]. rewrite IH. destruct (mapM _ es); reflexivity. }
  rewrite M. clear M. destruct (mapM _ _) as [traces|]; [|reflexivity]. cbn [rmap bind]. rewrite <- stack_rename. f_equal. rewrite !map_map. apply map_ext. intros [v tr]. cbn [fst snd]. apply predictive_rename.
Qed.

Notation predictive_samples_dict := (predictive_samples_dict ns_of keep tr_transform guide_draw complete_draw).
Lemma dict_rename c es ob (f f' : fitted (P := P)) y X fh : (forall n, In n (dict_keys (p_effects (ft_prepared f))) -> no_slash n = true) -> ft_scale f' = ft_scale f -> ft_prepared f' = rename_prepared rho (ft_prepared f) ->
  (forall m, predict_model c ob f y X fh = Ok m -> draws_match (engine_of c) (ft_posterior f) (ft_posterior f') m) ->
  snd (predictive_samples_dict (with_effects c es) ob f' y X fh) = rmap (rename_keys sigma) (snd (predictive_samples_dict c ob f y X fh)).
Proof.
  intros NS E1 E2 D. unfold Forecaster.predictive_samples_dict, ForecasterSpec.predict_model in *. change (c_hier (with_effects c es)) with (c_hier c). change (engine_of (with_effects c es)) with (engine_of c). destruct (c_hier c).
  - rewrite (hier_model_rename c es ob f f') by assumption. destruct (hierarchical_predict_model _ _ _ c ob f y X fh) as [[m ex]|]; [|reflexivity]. cbn [rmap fst snd]. apply engine_rename, D. reflexivity.
  - rewrite (univ_model_rename c es ob f f') by assumption. destruct (univariate_predict_model _ _ c ob f y X fh) as [m|]; [|reflexivity]. cbn [rmap bind snd]. apply engine_rename, D. reflexivity.
Qed.

Lemma samples_rename lb times ds : predict_samples keep lb times (rename_keys sigma ds) = predict_samples keep lb times ds.
Proof.
  unfold predict_samples, predict_samples_base. replace (dict_item (rename_keys sigma ds) "obs") with (dict_item ds "obs"); [reflexivity|].
  rewrite <- (item_keys sigma ds "obs") by (exact (sigma_inj rho REN)). now rewrite (kept rho REN "obs") by (cbn; tauto).
Qed.
Lemma apply_scale_columns op disc s (X : frame R) : apply_scale op disc s (rename_columns sigma X) = rmap (rename_columns sigma) (apply_scale op disc s X).
Proof.
  unfold apply_scale. destruct disc; [reflexivity|]. destruct s as [c|z|tab|tab]; try reflexivity.
  - unfold scale_for_each_obs. cbn [rename_columns f_levels f_rows]. destruct (f_levels X); [reflexivity|]. destruct (mapM _ _); reflexivity.
  - unfold scale_for_each_obs. cbn [rename_columns f_levels f_rows]. destruct (f_levels X); [reflexivity|]. destruct (mapM _ _); [|reflexivity]. cbn [bind]. unfold by_column. cbn [rename_columns f_cols]. rewrite map_length. destruct (Nat.eqb _ _); reflexivity.
Qed.
Lemma all_sites_rename lb times ds : predict_all_sites lb times (rename_keys sigma ds) = rmap (rename_columns sigma) (predict_all_sites lb times ds).
Proof.
  unfold predict_all_sites. unfold rename_keys at 1. rewrite (mapM_rename (fun kv => m <- mean0 (snd kv) ;; Ok (fst kv, flatten m)) (fun kv => m <- mean0 (snd kv) ;; Ok (fst kv, flatten m)) (fun kv => (sigma (fst kv), snd kv)) (fun kv => (sigma (fst kv), snd kv))) by (intros [k a]; cbn [fst snd]; destruct (mean0 a); reflexivity).
  destruct (mapM _ ds) as [sites|]; [|reflexivity]. cbn [rmap bind]. destruct (periodindex_to_multiindex lb times) as [index|]; [|reflexivity]. cbn [bind].
  assert (FB : forallb (fun s : string * list R => Nat.eqb (List.length (snd s)) (List.length index)) (map (fun kv => (sigma (fst kv), snd kv)) sites) = forallb (fun s : string * list R => Nat.eqb (List.length (snd s)) (List.length index)) sites) by (clear; induction sites as [|s sites IH]; [reflexivity|]; cbn [map forallb snd]; now rewrite IH).
  rewrite FB. destruct (forallb _ sites); [|reflexivity]. unfold inv_scale_y. rewrite <- apply_scale_columns. f_equal. unfold rename_columns, sort_index. cbn [f_levels f_cols f_rows]. rewrite !map_map. cbn [fst]. f_equal. f_equal. apply map_ext. intros i. f_equal. rewrite map_map. reflexivity.
Qed.
Lemma sites_samples_rename lb times ds : predict_all_sites_samples lb times (rename_keys sigma ds) = rmap (fun cr => (map sigma (fst cr), snd cr)) (predict_all_sites_samples lb times ds).
Proof.
  unfold predict_all_sites_samples. destruct (periodindex_to_multiindex lb times) as [index|]; [|reflexivity]. cbn [bind]. destruct ds as [|[k0 a0] ds0]; [reflexivity|]. cbn [rename_keys map fst snd]. destruct (a_shape a0) as [|n sh]; [reflexivity|].
  set (ds := (k0, a0) :: ds0). change ((sigma k0, a0) :: map (fun kv : string * arr => (sigma (fst kv), snd kv)) ds0) with (rename_keys sigma ds).
  match goal with |- (if forallb ?g _ then _ else _) = _ => assert (FB : forallb g (rename_keys sigma ds) = forallb g ds) by (unfold rename_keys; clear; induction ds as [|s sites IH]; [reflexivity|]; cbn [map forallb snd]; now rewrite IH) end.
  rewrite FB. clear FB. destruct (forallb _ ds); [|reflexivity]. cbn [rmap fst snd]. f_equal. f_equal.
  - cbn [map fst]. rewrite !map_map. reflexivity.
  - apply flat_map_ext. intros s. apply map_ext. intros i. f_equal. unfold ds. cbn [map fst snd]. rewrite map_map. reflexivity.
Qed.

Notation forecast_samples := (forecast_samples ns_of keep tr_transform guide_draw complete_draw).
Notation forecast_point := (forecast_point ns_of keep tr_transform guide_draw complete_draw).
Notation forecast_quantiles := (forecast_quantiles ns_of keep tr_transform guide_draw complete_draw).
Notation forecast_all_sites := (forecast_all_sites ns_of keep tr_transform guide_draw complete_draw).
Notation forecast_all_sites_samples := (forecast_all_sites_samples ns_of keep tr_transform guide_draw complete_draw).
Theorem c115_forecast c ob y X ob' (f f' : fitted (P := P)) : fit_forecaster c ob y X = (ob', Ok f) -> (forall l, In l (effects_of c) -> no_slash (l_name l) = true) ->
  ft_scale f' = ft_scale f -> ft_prepared f' = rename_prepared rho (ft_prepared f) ->
  forall ob2 y2 X2 fh, (forall m, predict_model c ob2 f y2 X2 fh = Ok m -> draws_match (engine_of c) (ft_posterior f) (ft_posterior f') m) ->
  snd (forecast_samples (renamed c) ob2 f' y2 X2 fh) = snd (forecast_samples c ob2 f y2 X2 fh) /\
  snd (forecast_point (renamed c) ob2 f' y2 X2 fh) = snd (forecast_point c ob2 f y2 X2 fh) /\
  (forall alpha, snd (forecast_quantiles (renamed c) ob2 f' y2 X2 fh alpha) = snd (forecast_quantiles c ob2 f y2 X2 fh alpha)) /\
  snd (forecast_all_sites (renamed c) ob2 f' y2 X2 fh) = rmap (rename_columns sigma) (snd (forecast_all_sites c ob2 f y2 X2 fh)) /\
  snd (forecast_all_sites_samples (renamed c) ob2 f' y2 X2 fh) = rmap (fun cr => (map sigma (fst cr), snd cr)) (snd (forecast_all_sites_samples c ob2 f y2 X2 fh)).
Proof.
  intros H NS E1 E2 ob2 y2 X2 fh D. pose proof (prepared_plain _ _ _ _ _ _ H NS) as NP. clear H. set (c' := renamed c).
  pose proof (dict_rename c (map (rename_listed rho) (effects_of c)) ob2 f f' y2 X2 fh NP E1 E2 D) as Q. fold c' in Q.
  assert (LB : labeller_of c' f' y2 = labeller_of c f y2) by (unfold labeller_of; rewrite E1, E2; reflexivity).
  assert (S : snd (forecast_samples c' ob2 f' y2 X2 fh) = snd (forecast_samples c ob2 f y2 X2 fh)).
  { unfold Forecaster.forecast_samples. destruct (fh_to_index y2 fh) as [times|]; [|reflexivity]. rewrite LB. destruct (predictive_samples_dict c' ob2 f' y2 X2 fh) as [g1 d1]. destruct (predictive_samples_dict c ob2 f y2 X2 fh) as [g2 d2]. cbn [snd] in *. rewrite Q. destruct d2 as [d2|]; [|reflexivity]. cbn [rmap bind]. apply samples_rename. }
  split; [exact S|]. split; [|split; [|split]].
  - unfold Forecaster.forecast_point. revert S. destruct (forecast_samples c' ob2 f' y2 X2 fh) as [g1 d1]. destruct (forecast_samples c ob2 f y2 X2 fh) as [g2 d2]. cbn [snd]. now intros ->.
  - intros alpha. unfold Forecaster.forecast_quantiles. revert S. destruct (forecast_samples c' ob2 f' y2 X2 fh) as [g1 d1]. destruct (forecast_samples c ob2 f y2 X2 fh) as [g2 d2]. cbn [snd]. now intros ->.
  - unfold Forecaster.forecast_all_sites. destruct (fh_to_index y2 fh) as [times|]; [|reflexivity]. rewrite LB. destruct (predictive_samples_dict c' ob2 f' y2 X2 fh) as [g1 d1]. destruct (predictive_samples_dict c ob2 f y2 X2 fh) as [g2 d2]. cbn [snd] in *. rewrite Q. destruct d2 as [d2|]; [|reflexivity]. cbn [rmap bind]. apply all_sites_rename.
  - unfold Forecaster.forecast_all_sites_samples. rewrite LB. destruct (predictive_samples_dict c' ob2 f' y2 X2 fh) as [g1 d1]. destruct (predictive_samples_dict c ob2 f y2 X2 fh) as [g2 d2]. cbn [snd] in *. rewrite Q. destruct d2 as [d2|]; [|reflexivity]. cbn [rmap bind]. destruct (fh_to_index y2 fh) as [times|]; [|reflexivity]. cbn [bind]. apply sites_samples_rename.
Qed.
End Any.
