(** C121: the components of a forecast are limited by their parameters. *)
From Coq Require Import Reals Lra String Bool ZArith List Sorted Permutation.
From Verif.Model Require Import Base Num XFloat Frame Arr Expand Aggregate Scale Prog Likelihood Effect Trend TrendProg Engine Forecaster.
From Verif.Spec Require Import RegexSpec FrameSpec ProgSpec ForecasterSpec AlignSpec SiteSpec ShapeSpec OverlapSpec ComponentSpec TrendSpec DocsSpec ResponseSpec ObservedSpec UpwardSpec SeasonSpec LimitSpec.
From Verif.Facts Require Import ResponseHierarchical EffectExamples ForecasterExamples EngineExamples HistoryExamples ComponentExamples CounterExamples OverlapExamples TotalExamples DocsExamples ResponseExamples InsampleExamples CellExamples
  UpwardExamples SeasonExamples DocsTrend LimitForecaster LimitPanel LimitTransformed LimitExamples PanelTotalExamples AddedPanelExamples TransformedExamples.
Import ListNotations.
Local Open Scope string_scope.

Section Any.
Variable ns_of : Z -> Z.
Variable order : list string -> list string.
Variable keep : path -> bool.
Context {TS : Type}.
Variable tr_fit_transform : TS -> frame R -> TS * res (frame R).
Variable tr_transform : TS -> frame R -> res (frame R).
Context {P : Type}.
Variable svi_run : Z -> nat -> nat -> prog arr -> res (list xr * P).
Variable nuts_run : Z -> nat -> nat -> nat -> prog arr -> res (nat -> nat -> env).
Variable latent_sites : prog arr -> list string.
Notation fit_forecaster := (fit_forecaster ns_of order keep tr_fit_transform svi_run nuts_run latent_sites).
Notation predict_model := (predict_model ns_of keep tr_transform).

(** * C121 *)
(** For every posterior draw [e] and date: every component is at most its limit [b], which depends on the parameters of the
    effect and the inputs of this date, but not on the date itself; for multiplicative effects it is relative to the trend.
    The location of the observation differs from the trend by no more than the sum of these limits.  The hypothesis [tame]
    is about Hill effects only: inputs which are not negative, and a positive half-maximum. *)
Theorem C121_forecast : forall c ob y X ob' (f : fitted (P := P)), fit_forecaster c ob y X = (ob', Ok f) -> c_hier c = false -> f_levels y = 0 -> frame_wf y -> clean_config c ->
  scalar_piecewise (o_trend ob') \/ flat_trend (o_trend ob') -> (forall Z, X = Some Z -> frame_wf Z) -> (forall s Z s' Z', frame_wf Z -> tr_fit_transform s Z = (s', Ok Z') -> frame_wf Z') -> f_rows y <> [] ->
  forall y2 X2 fh m cutoff ts Xt, predict_model c ob' f y2 X2 fh = Ok m -> max_time (map r_time (f_rows y2)) = Ok cutoff -> to_absolute cutoff fh = ts ->
  run_transform tr_transform ob' (supplied X2 ts) = Ok Xt -> covers Xt ts -> frame_wf Xt -> f_levels Xt = 0 -> in_order ts ->
  forall e o tr, run e [] m = Ok (o, tr) ->
  forall j t r, nth_error ts j = Some t -> In r (f_rows Xt) -> r_time r = t ->
  (forall name ef ef0 cols x, In (name, ef, cols) (p_fitted (ft_prepared f)) -> configured c name ef0 -> values_at Xt r cols x -> tame e name ef0 x) ->
  exists trend bs s, component_at tr "trend" j trend /\
    Forall2 (fun name b => limited c (p_fitted (ft_prepared f)) e (fun _ k => k) (values_at Xt r) trend name b /\ exists v, component_at tr name j v /\ (Rabs v <= b)%R) (map fst (p_effects (ft_prepared f))) bs /\
    level tr (map fst (p_effects (ft_prepared f))) j s /\ (Rabs (s - trend) <= Rsum bs)%R /\ (c_likelihood c = "normal" -> expected tr j s).
Proof. exact (c121_forecast ns_of order keep tr_fit_transform tr_transform svi_run nuts_run latent_sites). Qed.

(** A logistic trend stays strictly between zero and its capacity at every date, past or future, if the capacity is positive. *)
Theorem C121_saturated : forall c ob y X ob' (f : fitted (P := P)) iv rg (K : nat), fit_forecaster c ob y X = (ob', Ok f) -> c_hier c = false -> f_levels y = 0 -> clean_config c ->
  piecewise_options (o_trend ob') iv rg true -> (0 < iv)%R ->
  forall ds, map r_time (f_rows y) = ds -> increasing (map (fun t => day (ns_of t)) ds) -> changepoint_count (List.length ds) iv rg K ->
  forall y2 X2 fh m cutoff ts, predict_model c ob' f y2 X2 fh = Ok m -> max_time (map r_time (f_rows y2)) = Ok cutoff -> to_absolute cutoff fh = ts ->
  forall e o tr, run e [] m = Ok (o, tr) -> (0 < e "capacity" 0%nat)%R ->
  forall j t, nth_error ts j = Some t -> exists trend, component_at tr "trend" j trend /\ (0 < trend < e "capacity" 0%nat)%R.
Proof. exact (c121_saturated ns_of order keep tr_fit_transform tr_transform svi_run nuts_run latent_sites). Qed.

(** Panels (hierarchical class): the same for series [i] at date [j], where a seasonality has its own coefficients for every
    series. *)
Theorem C121_panel (Order : forall l, Permutation (order l) l) : forall c ob y Z0 ob' (f : fitted (P := P)), fit_forecaster c ob y (Some Z0) = (ob', Ok f) -> c_hier c = true -> f_levels y <> 0 -> frame_wf y ->
  (forall r, In r (f_rows y) -> ~ In "__total" (r_path r)) -> clean_config c -> scalar_piecewise (o_trend ob') -> o_transformer ob = None -> frame_wf Z0 -> f_levels Z0 <> 0 -> f_cols Z0 <> [] ->
  forall shared, (match c_shared c with None => [] | Some l => l end) = shared -> copyable shared (f_cols Z0) (bottom_series Z0) ->
  forall y2 X2 fh m cutoff ts, predict_model c ob' f y2 (Some X2) fh = Ok m -> max_time (map snd (p_index (ft_prepared f))) = Ok cutoff -> to_absolute cutoff fh = ts ->
  frame_wf X2 -> f_levels X2 <> 0 -> f_cols X2 = f_cols Z0 -> bottom_series X2 = bottom_series Z0 -> covers X2 ts -> in_order ts ->
  forall e o tr, run e [] m = Ok (o, tr) ->
  forall i j k t r t0, i < List.length (series_ids y) -> nth_error (bottom_series X2) i = Some (r_path r) -> nth_error ts j = Some t -> In r (f_rows X2) -> r_time r = t -> first_date (dates Z0 (r_path r)) t0 -> i * List.length ts + j = k ->
  (forall name ef ef0 cols x, In (name, ef, cols) (p_fitted (ft_prepared f)) -> configured c name ef0 -> Forall2 (seen shared (bottom_series X2) X2 r) cols x -> tame e name ef0 x) ->
  exists trend bs s, component_at tr "trend" k trend /\
    Forall2 (fun name b => limited c (p_fitted (ft_prepared f)) e (fun ef w => wave_numbers ef w * List.length (bottom_series X2) + i) (Forall2 (seen shared (bottom_series X2) X2 r)) trend name b /\ exists v, component_at tr name k v /\ (Rabs v <= b)%R) (map fst (p_effects (ft_prepared f))) bs /\
    level tr (map fst (p_effects (ft_prepared f))) k s /\ (Rabs (s - trend) <= Rsum bs)%R /\ (List.length (series_ids y) = 1 -> expected tr j s) /\ (List.length (series_ids y) <> 1 -> expected_at tr i j s).
Proof. intros. eapply (c121_panel ns_of order keep tr_fit_transform tr_transform svi_run nuts_run latent_sites Order); eassumption. Qed.
(** The same with a feature transformer of the forecaster (or without inputs): [Zt] is what it made of the training table and [X2] what it makes of the given one. *)
Theorem C121_transformed (Order : forall l, Permutation (order l) l) : forall c ob y X0 ob' (f : fitted (P := P)), fit_forecaster c ob y X0 = (ob', Ok f) -> c_hier c = true -> f_levels y <> 0 -> frame_wf y ->
  (forall r, In r (f_rows y) -> ~ In "__total" (r_path r)) -> clean_config c -> scalar_piecewise (o_trend ob') ->
  forall B0 ob1 Zt, given_training X0 y B0 -> run_fit_transform tr_fit_transform ob B0 = (ob1, Ok Zt) -> frame_wf Zt -> f_levels Zt <> 0 -> f_rows Zt <> [] -> f_cols Zt <> [] ->
  forall shared, (match c_shared c with None => [] | Some l => l end) = shared -> copyable shared (f_cols Zt) (series_ids Zt) ->
  forall y2 given fh m cutoff ts below X2, predict_model c ob' f y2 given fh = Ok m -> max_time (map snd (p_index (ft_prepared f))) = Ok cutoff -> to_absolute cutoff fh = ts ->
  given_forecast given y2 ts below -> run_transform tr_transform ob' below = Ok X2 -> frame_wf X2 -> f_levels X2 <> 0 -> f_cols X2 = f_cols Zt -> series_ids X2 = series_ids Zt -> covers X2 ts -> in_order ts ->
  forall e o tr, run e [] m = Ok (o, tr) ->
  forall i j k t r t0, i < List.length (series_ids y) -> nth_error (series_ids X2) i = Some (r_path r) -> nth_error ts j = Some t -> In r (f_rows X2) -> r_time r = t -> first_date (dates Zt (r_path r)) t0 -> i * List.length ts + j = k ->
  (forall name ef ef0 cols x, In (name, ef, cols) (p_fitted (ft_prepared f)) -> configured c name ef0 -> Forall2 (seen shared (series_ids X2) X2 r) cols x -> tame e name ef0 x) ->
  exists trend bs s, component_at tr "trend" k trend /\
    Forall2 (fun name b => limited c (p_fitted (ft_prepared f)) e (fun ef w => wave_numbers ef w * List.length (series_ids X2) + i) (Forall2 (seen shared (series_ids X2) X2 r)) trend name b /\ exists v, component_at tr name k v /\ (Rabs v <= b)%R) (map fst (p_effects (ft_prepared f))) bs /\
    level tr (map fst (p_effects (ft_prepared f))) k s /\ (Rabs (s - trend) <= Rsum bs)%R /\ (List.length (series_ids y) = 1 -> expected tr j s) /\ (List.length (series_ids y) <> 1 -> expected_at tr i j s).
Proof. intros. eapply (c121_transformed ns_of order keep tr_fit_transform tr_transform svi_run nuts_run latent_sites Order); eassumption. Qed.

(** Panels: every series has its own capacity. *)
Theorem C121_panel_saturated : forall c ob y X ob' (f : fitted (P := P)) iv rg (K : nat), fit_forecaster c ob y X = (ob', Ok f) -> c_hier c = true -> f_levels y <> 0 -> frame_wf y ->
  (forall r, In r (f_rows y) -> ~ In "__total" (r_path r)) -> balanced y -> clean_config c -> piecewise_options (o_trend ob') iv rg true -> (0 < iv)%R ->
  forall ds, StronglySorted Z.lt ds -> (forall t, In t ds <-> In t (map r_time (f_rows y))) -> increasing (map (fun t => day (ns_of t)) ds) -> changepoint_count (List.length ds) iv rg K ->
  forall y2 X2 fh m cutoff ts, predict_model c ob' f y2 X2 fh = Ok m -> max_time (map snd (p_index (ft_prepared f))) = Ok cutoff -> to_absolute cutoff fh = ts -> NoDup ts ->
  forall e o tr, run e [] m = Ok (o, tr) ->
  forall i j t, i < List.length (series_ids y) -> (0 < e "capacity" i)%R -> nth_error ts j = Some t -> exists trend, component_at tr "trend" (i * List.length ts + j) trend /\ (0 < trend < e "capacity" i)%R.
Proof. exact (c121_panel_saturated ns_of order keep tr_fit_transform tr_transform svi_run nuts_run latent_sites). Qed.
End Any.

Print Assumptions C121_forecast.
Print Assumptions C121_saturated.
Print Assumptions C121_panel.
Print Assumptions C121_transformed.
Print Assumptions C121_panel_saturated.

(** A linear effect, a weekly seasonality, a Hill effect and a trend with two changepoints, forecasts for the days 0, 7 and
    14, all parameters one; the date is day 7. *)
Example C121_nonvacuous : forall trend, In trend ["linear"; "linear_raw"; "flat"; "logistic"] -> exists ob f m o tr, total_fit trend "normal" "mcmc" = (ob, Ok f) /\ frame_wf ex_y /\ clean_config (docs_config trend) /\
  (scalar_piecewise (o_trend ob) \/ flat_trend (o_trend ob)) /\ frame_wf Xu /\ (forall s Z s' Z', frame_wf Z -> ex_fit_transform s Z = (s', Ok Z') -> frame_wf Z') /\
  predict_model ex_ns keep_all ex_transform (docs_config trend) ob f ex_y (Some Xd) hd3 = Ok m /\ run_transform ex_transform ob (supplied (Some Xd) [0; 7; 14]%Z) = Ok Xd /\ frame_wf Xd /\ covers Xd [0; 7; 14]%Z /\ in_order [0; 7; 14]%Z /\
  run one [] m = Ok (o, tr) /\ nth_error [0; 7; 14]%Z 1 = Some 7%Z /\ In this_week (f_rows Xd) /\
  (forall name ef0 cols x, configured (docs_config trend) name ef0 -> values_at Xd this_week cols x -> tame one name ef0 x) /\
  (forall l, In l [linear_tv; season; hill_web] -> exists ef, In (l_name l, ef) (p_effects (ft_prepared f))).
Proof.
  intros trend HT. destruct (season_run trend HT) as (ob & f & HF & HR). destruct (HR Xd) as (m & o & tr & M & RU); [simpl; auto|]. destruct (plan_wf Xd) as (W & C & _); [simpl; auto|]. exists ob, f, m, o, tr.
  split; [exact HF|]. split; [exact docs_y_wf|]. split; [apply total_clean|]. split; [exact (season_trend trend ob f HT HF)|]. split; [exact docs_x_wf|]. split; [exact docs_transformer|]. split; [exact M|].
  split; [exact (plan_transformed _ _ _ _ HF)|]. do 2 (split; [assumption|]). split; [exact docs_order|]. split; [exact RU|]. split; [reflexivity|]. split; [simpl; auto|]. split; [exact (week_tame trend)|]. intros l Hl. exact (docs_used trend ob f l HF Hl).
Qed.
(** The same with the logistic trend; its capacity is one. *)
Example C121_saturated_nonvacuous : exists ob f m o tr, total_fit "logistic" "normal" "mcmc" = (ob, Ok f) /\ piecewise_options (o_trend ob) 1 (4 / 5) true /\ map r_time (f_rows ex_y) = [0; 1; 7]%Z /\
  increasing (map (fun t => DocsSpec.day (ex_ns t)) [0; 1; 7]%Z) /\ changepoint_count 3 1 (4 / 5) 2 /\
  predict_model ex_ns keep_all ex_transform (docs_config "logistic") ob f ex_y (Some Xd) hd3 = Ok m /\ run one [] m = Ok (o, tr) /\ (0 < one "capacity" 0)%R.
Proof.
  destruct (docs_example "logistic" ltac:(simpl; auto)) as (ob & f & m & o & tr & HF & HM & RU). exists ob, f, m, o, tr.
  destruct (named_options ex_ns sorted_sets keep_all ex_fit_transform ex_svi ex_nuts comp_latent _ _ _ _ _ _ "logistic" HF eq_refl ltac:(simpl; auto)) as [H1 _].
  split; [exact HF|]. split; [exact H1|]. split; [reflexivity|]. split; [exact docs_days|]. split; [exact docs_count|]. split; [exact HM|]. split; [exact RU|]. unfold one. lra.
Qed.
(** Two series, forecasts of the days 2 and 3; the row is that of the second series on day 2. *)
Example C121_panel_nonvacuous : copyable [] (f_cols ex_Xh) (bottom_series ex_Xh) /\ frame_wf ex_Xh /\ frame_wf ex_X2 /\ frame_wf ex_yh /\ (forall r, In r (f_rows ex_yh) -> ~ In "__total" (r_path r)) /\ clean_config two_config /\
  bottom_series ex_X2 = bottom_series ex_Xh /\ covers ex_X2 [2; 3]%Z /\ in_order [2; 3]%Z /\ first_date (dates ex_Xh (r_path quiet2)) 0 /\ List.length (series_ids ex_yh) = 2 /\ nth_error (bottom_series ex_X2) 1 = Some (r_path quiet2) /\ In quiet2 (f_rows ex_X2) /\
  (forall name ef0 x, configured two_config name ef0 -> tame one name ef0 x) /\
  exists ob f m o tr, two_fit = (ob, Ok f) /\ o_transformer ob = None /\ scalar_piecewise (o_trend ob) /\ max_time (map snd (p_index (ft_prepared f))) = Ok 1%Z /\
  predict_model ex_ns keep_all ex_transform two_config ob f ex_yh (Some ex_X2) (Relative [1; 2]%Z) = Ok m /\ run one [] m = Ok (o, tr).
Proof.
  split; [exact panel_copyable|]. split; [exact Xh_wf|]. split; [exact X2_wf|]. split; [exact yh_wf|]. split; [exact yh_no_total|]. split; [exact two_clean|]. split; [reflexivity|]. split; [apply X2_covers|]. split; [repeat constructor|].
  split; [apply panel_first; simpl; auto|]. do 2 (split; [reflexivity|]). split; [simpl; auto|]. split; [exact two_tame|].
  destruct cells_hierarchical as (ob & f & m1 & m2 & o1 & tr1 & o2 & tr2 & HF & OT & SP & MT & M1 & _ & R1 & _). exists ob, f, m1, o1, tr1. do 5 (split; [assumption|]). exact R1.
Qed.
(** Two series with a logistic trend of two changepoints each, all capacities one. *)
Example C121_panel_saturated_nonvacuous : exists ob f m o tr, wide_fit "logistic" true = (ob, Ok f) /\ frame_wf ex_yh /\ (forall r, In r (f_rows ex_yh) -> ~ In "__total" (r_path r)) /\ balanced ex_yh /\ clean_config (wide_config "logistic" true) /\
  piecewise_options (o_trend ob) 1 (4 / 5) true /\ StronglySorted Z.lt [0; 1]%Z /\ (forall t, In t [0; 1]%Z <-> In t (map r_time (f_rows ex_yh))) /\ increasing (map (fun t => DocsSpec.day (ex_ns t)) [0; 1]%Z) /\ (exists K, changepoint_count 2 1 (4 / 5) K) /\
  predict_model ex_ns keep_all ex_transform (wide_config "logistic" true) ob f ex_yh (Some ex_X2) (Relative [1; 2]%Z) = Ok m /\ max_time (map snd (p_index (ft_prepared f))) = Ok 1%Z /\ run one [] m = Ok (o, tr) /\ List.length (series_ids ex_yh) = 2 /\
  (forall i, 0 < one "capacity" i)%R.
Proof.
  destruct (wide_run "logistic" true ltac:(simpl; auto)) as (ob & f & m & HF & _ & KC & M & RU & PO). destruct (RU one) as (o & tr & R1). exists ob, f, m, o, tr.
  split; [exact HF|]. split; [exact yh_wf|]. split; [exact yh_no_total|]. split; [exact yh_balanced|]. split; [apply wide_clean|]. split; [exact PO|]. split; [repeat constructor|]. split; [intros t; cbn; tauto|].
  split; [exact docs_days2|]. split; [eexists; exact (DocsTrend.count_exists _ 2 1 (4 / 5) Rlt_0_1 eq_refl)|]. split; [exact M|]. split; [exact KC|]. split; [exact R1|]. split; [reflexivity|]. intros i. unfold one. lra.
Qed.
(** The transformer keeps the column web only; the row is that of the second series on day 2. *)
Example C121_transformed_nonvacuous : given_training (Some ex_Xh) ex_yh ex_Xh /\ run_fit_transform ex_fit_transform (no_objects (Some false)) ex_Xh = (no_objects (Some false), Ok Xp0) /\ frame_wf Xp0 /\ copyable [] (f_cols Xp0) (series_ids Xp0) /\
  given_forecast (Some X_pick) ex_yh [2; 3]%Z X_pick /\ frame_wf Xp1 /\ f_cols Xp1 = f_cols Xp0 /\ series_ids Xp1 = series_ids Xp0 /\ covers Xp1 [2; 3]%Z /\ in_order [2; 3]%Z /\ frame_wf ex_yh /\ (forall r, In r (f_rows ex_yh) -> ~ In "__total" (r_path r)) /\
  clean_config (web_config true) /\ first_date (dates Xp0 (r_path b_first)) 0 /\ List.length (series_ids ex_yh) = 2 /\ nth_error (series_ids Xp1) 1 = Some (r_path b_first) /\ In b_first (f_rows Xp1) /\
  (forall name ef0 x, configured (web_config true) name ef0 -> tame one name ef0 x) /\
  exists ob f m o tr, web_fit true = (ob, Ok f) /\ scalar_piecewise (o_trend ob) /\ max_time (map snd (p_index (ft_prepared f))) = Ok 1%Z /\ run_transform ex_transform ob X_pick = Ok Xp1 /\
  predict_model ex_ns keep_all ex_transform (web_config true) ob f ex_yh (Some X_pick) (Relative [1; 2]%Z) = Ok m /\ run one [] m = Ok (o, tr) /\ map fst (p_effects (ft_prepared f)) = ["web"; "extra"].
Proof.
  split; [apply web_given|]. split; [reflexivity|]. split; [exact (proj1 pick_wf)|]. split; [exact pick_copyable|]. split; [apply web_given|]. split; [exact (proj2 pick_wf)|]. do 3 (split; [reflexivity|]). split; [repeat constructor|].
  split; [exact yh_wf|]. split; [exact yh_no_total|]. split; [exact (web_clean true)|]. split; [split; [simpl; auto|intros t Ht; simpl in Ht; intuition (subst; discriminate)]|]. do 2 (split; [reflexivity|]). split; [simpl; auto|].
  split; [intros name ef0 x [(effects & regex & [= <-] & HI)|[_ [[=]|[_ ->]]]]; [destruct HI as [HI|[HI|[]]]; injection HI as _ <- _|]; exact I|].
  destruct (web_run true) as (ob & f & m1 & m2 & o1 & o2 & tr1 & tr2 & HF & T1 & _ & SP & MT & NM & _ & M1 & _ & R1 & _). exists ob, f, m1, o1, tr1. do 6 (split; [assumption|]). exact NM.
Qed.
