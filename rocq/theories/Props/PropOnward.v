(** C123: after the last changepoint forecasts go on with the final rate of the trend. *)
From Coq Require Import Reals Lra String Bool ZArith List Sorted Permutation Lia.
From Verif.Model Require Import Base Num XFloat Frame Arr Expand Aggregate Scale Prog Likelihood Effect Trend TrendProg Engine Forecaster.
From Verif.Spec Require Import RegexSpec FrameSpec ProgSpec ForecasterSpec AlignSpec SiteSpec ShapeSpec OverlapSpec ComponentSpec TrendSpec DocsSpec ResponseSpec UpwardSpec SeasonSpec OnwardSpec.
From Verif.Facts Require Import EffectExamples ForecasterExamples EngineExamples HistoryExamples ComponentExamples CounterExamples OverlapExamples TotalExamples DocsExamples ResponseExamples InsampleExamples CellExamples
  UpwardExamples SeasonExamples OnwardForecaster OnwardTransformed OnwardExamples TransformedExamples.
Import ListNotations.
Local Open Scope string_scope.

Section Any.
Variable ns_of : Z -> Z.
Variable order : list string -> list string.
Variable keep : path -> bool.
Context {TS : Type}.
Variable tr_fit_transform : TS -> frame R -> TS * res (frame R).
Variable tr_transform : TS -> frame R -> res (frame R).
Context {P : Type}.
Variable svi_run : Z -> nat -> nat -> prog arr -> res (list xr * P).
Variable nuts_run : Z -> nat -> nat -> nat -> prog arr -> res (nat -> nat -> env).
Variable latent_sites : prog arr -> list string.
Notation fit_forecaster := (fit_forecaster ns_of order keep tr_fit_transform svi_run nuts_run latent_sites).
Notation predict_model := (predict_model ns_of keep tr_transform).

(** * C123 *)
(** One fitted forecaster of one series, one posterior draw [e], two forecasts (possibly the same one) and two of their dates,
    [s1] and [s2] steps after the first training date, both not before any of the [K] changepoints.  Between them a linear
    trend changes by the number of steps times the sum of all rate adjustments; a logistic trend does so on the scale of its
    curve, [ln (v / (capacity - v))]. *)
Theorem C123_trend : forall c ob y X ob' (f : fitted (P := P)) iv rg lg K, fit_forecaster c ob y X = (ob', Ok f) -> c_hier c = false -> f_levels y = 0 -> clean_config c ->
  piecewise_options (o_trend ob') iv rg lg -> (0 < iv)%R ->
  forall ds, map r_time (f_rows y) = ds -> increasing (map (fun t => day (ns_of t)) ds) -> changepoint_count (List.length ds) iv rg K ->
  forall y1 y2 X1 X2 fh1 fh2 m1 m2 cut1 cut2 ts1 ts2, predict_model c ob' f y1 X1 fh1 = Ok m1 -> predict_model c ob' f y2 X2 fh2 = Ok m2 ->
  max_time (map r_time (f_rows y1)) = Ok cut1 -> max_time (map r_time (f_rows y2)) = Ok cut2 -> to_absolute cut1 fh1 = ts1 -> to_absolute cut2 fh2 = ts2 ->
  forall e o1 o2 tr1 tr2, run e [] m1 = Ok (o1, tr1) -> run e [] m2 = Ok (o2, tr2) ->
  forall j1 j2 t1 t2 s1 s2, nth_error ts1 j1 = Some t1 -> nth_error ts2 j2 = Some t2 -> steps (map (fun t => day (ns_of t)) ds) (day (ns_of t1)) = s1 -> steps (map (fun t => day (ns_of t)) ds) (day (ns_of t2)) = s2 -> past_changepoints K iv s1 -> past_changepoints K iv s2 ->
  exists v1 v2, component_at tr1 "trend" j1 v1 /\ component_at tr2 "trend" j2 v2 /\ onward e lg K 0 (s2 - s1) v1 v2.
Proof. exact (c123_trend ns_of order keep tr_fit_transform tr_transform svi_run nuts_run latent_sites). Qed.

(** The same for every series of a panel (hierarchical class). *)
Theorem C123_panel_trend : forall c ob y X ob' (f : fitted (P := P)) iv rg lg K, fit_forecaster c ob y X = (ob', Ok f) -> c_hier c = true -> f_levels y <> 0 -> frame_wf y ->
  (forall r, In r (f_rows y) -> ~ In "__total" (r_path r)) -> balanced y -> clean_config c -> piecewise_options (o_trend ob') iv rg lg -> (0 < iv)%R ->
  forall ds, StronglySorted Z.lt ds -> (forall t, In t ds <-> In t (map r_time (f_rows y))) -> increasing (map (fun t => day (ns_of t)) ds) -> changepoint_count (List.length ds) iv rg K ->
  forall y1 y2 X1 X2 fh1 fh2 m1 m2 cutoff ts1 ts2, predict_model c ob' f y1 X1 fh1 = Ok m1 -> predict_model c ob' f y2 X2 fh2 = Ok m2 ->
  max_time (map snd (p_index (ft_prepared f))) = Ok cutoff -> to_absolute cutoff fh1 = ts1 -> to_absolute cutoff fh2 = ts2 -> NoDup ts1 -> NoDup ts2 ->
  forall e o1 o2 tr1 tr2, run e [] m1 = Ok (o1, tr1) -> run e [] m2 = Ok (o2, tr2) ->
  forall i j1 j2 t1 t2 s1 s2, i < List.length (series_ids y) -> nth_error ts1 j1 = Some t1 -> nth_error ts2 j2 = Some t2 ->
  steps (map (fun t => day (ns_of t)) ds) (day (ns_of t1)) = s1 -> steps (map (fun t => day (ns_of t)) ds) (day (ns_of t2)) = s2 -> past_changepoints K iv s1 -> past_changepoints K iv s2 ->
  exists v1 v2, component_at tr1 "trend" (i * List.length ts1 + j1) v1 /\ component_at tr2 "trend" (i * List.length ts2 + j2) v2 /\ onward e lg K i (s2 - s1) v1 v2.
Proof. exact (c123_panel_trend ns_of order keep tr_fit_transform tr_transform svi_run nuts_run latent_sites). Qed.

(** With a range below one (a fraction of the history, or counted from its end), or one that ends within the history, all
    dates from the last training date on are such dates. *)
Theorem C123_beyond : forall ds n iv rg K t, List.length ds = n -> increasing (map (fun t => day (ns_of t)) ds) -> changepoint_count n iv rg K -> (rg < 1 \/ rg <= INR (n - 1))%R ->
  (forall d, In d ds -> day (ns_of d) <= day (ns_of t))%R -> past_changepoints K iv (steps (map (fun t => day (ns_of t)) ds) (day (ns_of t))).
Proof. exact (c123_beyond ns_of). Qed.

(** The forecasts themselves: with additive effects which repeat after [p] steps (the same values in their columns, or a
    seasonality all whose periods divide [p]), a linear trend and the normal likelihood, the expected observations differ
    by exactly this growth. *)
Theorem C123_forecast : forall c ob ob' y X (f : fitted (P := P)) iv rg K, fit_forecaster c ob y X = (ob', Ok f) -> c_hier c = false -> f_levels y = 0 -> frame_wf y -> clean_config c ->
  piecewise_options (o_trend ob') iv rg false -> (0 < iv)%R -> c_likelihood c = "normal" -> f_rows y <> [] -> (forall Z, X = Some Z -> frame_wf Z) -> (forall s Z s' Z', frame_wf Z -> tr_fit_transform s Z = (s', Ok Z') -> frame_wf Z') ->
  forall ds, map r_time (f_rows y) = ds -> increasing (map (fun t => day (ns_of t)) ds) -> changepoint_count (List.length ds) iv rg K ->
  forall y1 y2 X1 X2 fh1 fh2 m1 m2 cut1 cut2 ts1 ts2 U1 U2, predict_model c ob' f y1 X1 fh1 = Ok m1 -> predict_model c ob' f y2 X2 fh2 = Ok m2 ->
  max_time (map r_time (f_rows y1)) = Ok cut1 -> max_time (map r_time (f_rows y2)) = Ok cut2 -> to_absolute cut1 fh1 = ts1 -> to_absolute cut2 fh2 = ts2 ->
  run_transform tr_transform ob' (supplied X1 ts1) = Ok U1 -> run_transform tr_transform ob' (supplied X2 ts2) = Ok U2 ->
  covers U1 ts1 -> covers U2 ts2 -> frame_wf U1 -> frame_wf U2 -> f_levels U1 = 0 -> f_levels U2 = 0 -> in_order ts1 -> in_order ts2 ->
  forall e o1 o2 tr1 tr2, run e [] m1 = Ok (o1, tr1) -> run e [] m2 = Ok (o2, tr2) ->
  forall p t1 t2 j1 j2 r1 r2, nth_error ts1 j1 = Some t1 -> nth_error ts2 j2 = Some t2 -> In r1 (f_rows U1) -> In r2 (f_rows U2) -> r_time r1 = t1 -> r_time r2 = t2 -> t2 = (t1 + p)%Z ->
  (forall name ef ef0 cols x1 x2, In name (map fst (p_effects (ft_prepared f))) -> In (name, ef, cols) (p_fitted (ft_prepared f)) -> configured c name ef0 -> values_at U1 r1 cols x1 -> values_at U2 r2 cols x2 -> recurs p ef0 x1 x2) ->
  (forall name ef0, In name (map fst (p_effects (ft_prepared f))) -> configured c name ef0 -> effect_mode ef0 Additive) ->
  forall s1 s2, steps (map (fun t => day (ns_of t)) ds) (day (ns_of t1)) = s1 -> steps (map (fun t => day (ns_of t)) ds) (day (ns_of t2)) = s2 -> past_changepoints K iv s1 -> past_changepoints K iv s2 ->
  exists x1 x2, expected tr1 j1 x1 /\ expected tr2 j2 x2 /\ (x2 - x1 = (s2 - s1) * final_rate e K 0)%R.
Proof. exact (c123_forecast ns_of order keep tr_fit_transform tr_transform svi_run nuts_run latent_sites). Qed.

(** For every series of a panel without feature transformer. *)
Theorem C123_panel (Order : forall l, Permutation (order l) l) : forall c ob ob' y Z0 (f : fitted (P := P)) iv rg K, fit_forecaster c ob y (Some Z0) = (ob', Ok f) -> c_hier c = true -> f_levels y <> 0 -> frame_wf y ->
  (forall r, In r (f_rows y) -> ~ In "__total" (r_path r)) -> balanced y -> clean_config c -> piecewise_options (o_trend ob') iv rg false -> (0 < iv)%R -> o_transformer ob = None -> frame_wf Z0 -> f_levels Z0 <> 0 -> f_cols Z0 <> [] ->
  forall shared, (match c_shared c with None => [] | Some l => l end) = shared -> copyable shared (f_cols Z0) (bottom_series Z0) ->
  forall ds, StronglySorted Z.lt ds -> (forall t, In t ds <-> In t (map r_time (f_rows y))) -> increasing (map (fun t => day (ns_of t)) ds) -> changepoint_count (List.length ds) iv rg K ->
  forall y1 y2 X1 X2 fh1 fh2 m1 m2 cutoff ts1 ts2, predict_model c ob' f y1 (Some X1) fh1 = Ok m1 -> predict_model c ob' f y2 (Some X2) fh2 = Ok m2 ->
  max_time (map snd (p_index (ft_prepared f))) = Ok cutoff -> to_absolute cutoff fh1 = ts1 -> to_absolute cutoff fh2 = ts2 ->
  frame_wf X1 -> frame_wf X2 -> f_levels X1 <> 0 -> f_levels X2 <> 0 -> f_cols X1 = f_cols Z0 -> f_cols X2 = f_cols Z0 ->
  bottom_series X1 = bottom_series Z0 -> bottom_series X2 = bottom_series Z0 -> covers X1 ts1 -> covers X2 ts2 -> in_order ts1 -> in_order ts2 ->
  forall e o1 o2 tr1 tr2, run e [] m1 = Ok (o1, tr1) -> run e [] m2 = Ok (o2, tr2) ->
  forall i p t1 t2 j1 j2 r1 r2, i < List.length (series_ids y) -> nth_error ts1 j1 = Some t1 -> nth_error ts2 j2 = Some t2 -> In r1 (f_rows X1) -> In r2 (f_rows X2) -> r_time r1 = t1 -> r_time r2 = t2 ->
  nth_error (bottom_series Z0) i = Some (r_path r1) -> nth_error (bottom_series Z0) i = Some (r_path r2) -> t2 = (t1 + p)%Z ->
  (forall name ef ef0 cols x1 x2, In name (map fst (p_effects (ft_prepared f))) -> In (name, ef, cols) (p_fitted (ft_prepared f)) -> configured c name ef0 ->
    Forall2 (seen shared (bottom_series X1) X1 r1) cols x1 -> Forall2 (seen shared (bottom_series X2) X2 r2) cols x2 -> recurs p ef0 x1 x2) ->
  (forall name ef0, In name (map fst (p_effects (ft_prepared f))) -> configured c name ef0 -> effect_mode ef0 Additive) ->
  forall s1 s2, steps (map (fun t => day (ns_of t)) ds) (day (ns_of t1)) = s1 -> steps (map (fun t => day (ns_of t)) ds) (day (ns_of t2)) = s2 -> past_changepoints K iv s1 -> past_changepoints K iv s2 ->
  exists x1 x2, (List.length (series_ids y) = 1 -> expected tr1 j1 x1 /\ expected tr2 j2 x2) /\ (List.length (series_ids y) <> 1 -> expected_at tr1 i j1 x1 /\ expected_at tr2 i j2 x2) /\ (x2 - x1 = (s2 - s1) * final_rate e K i)%R.
Proof. exact (c123_panel ns_of order keep tr_fit_transform tr_transform svi_run nuts_run latent_sites Order). Qed.
(** The same with a feature transformer of the forecaster (or without inputs): [Zt] is what it made of the training table and [X1], [X2] what it makes of the given ones. *)
Theorem C123_transformed (Order : forall l, Permutation (order l) l) : forall c ob ob' y X0 (f : fitted (P := P)) iv rg K, fit_forecaster c ob y X0 = (ob', Ok f) -> c_hier c = true -> f_levels y <> 0 -> frame_wf y ->
  (forall r, In r (f_rows y) -> ~ In "__total" (r_path r)) -> balanced y -> clean_config c -> piecewise_options (o_trend ob') iv rg false -> (0 < iv)%R ->
  forall B0 Zt ob1, given_training X0 y B0 -> run_fit_transform tr_fit_transform ob B0 = (ob1, Ok Zt) -> frame_wf Zt -> f_levels Zt <> 0 -> f_rows Zt <> [] -> f_cols Zt <> [] ->
  forall shared, (match c_shared c with None => [] | Some l => l end) = shared -> copyable shared (f_cols Zt) (series_ids Zt) ->
  forall ds, StronglySorted Z.lt ds -> (forall t, In t ds <-> In t (map r_time (f_rows y))) -> increasing (map (fun t => day (ns_of t)) ds) -> changepoint_count (List.length ds) iv rg K ->
  forall y1 y2 given1 given2 below1 below2 X1 X2 fh1 fh2 m1 m2 cutoff ts1 ts2, predict_model c ob' f y1 given1 fh1 = Ok m1 -> predict_model c ob' f y2 given2 fh2 = Ok m2 ->
  max_time (map snd (p_index (ft_prepared f))) = Ok cutoff -> to_absolute cutoff fh1 = ts1 -> to_absolute cutoff fh2 = ts2 ->
  given_forecast given1 y1 ts1 below1 -> given_forecast given2 y2 ts2 below2 -> run_transform tr_transform ob' below1 = Ok X1 -> run_transform tr_transform ob' below2 = Ok X2 ->
  frame_wf X1 -> frame_wf X2 -> f_levels X1 <> 0 -> f_levels X2 <> 0 -> f_cols X1 = f_cols Zt -> f_cols X2 = f_cols Zt ->
  series_ids X1 = series_ids Zt -> series_ids X2 = series_ids Zt -> covers X1 ts1 -> covers X2 ts2 -> in_order ts1 -> in_order ts2 ->
  forall e o1 o2 tr1 tr2, run e [] m1 = Ok (o1, tr1) -> run e [] m2 = Ok (o2, tr2) ->
  forall i p t1 t2 j1 j2 r1 r2, i < List.length (series_ids y) -> nth_error ts1 j1 = Some t1 -> nth_error ts2 j2 = Some t2 -> In r1 (f_rows X1) -> In r2 (f_rows X2) -> r_time r1 = t1 -> r_time r2 = t2 ->
  nth_error (series_ids Zt) i = Some (r_path r1) -> nth_error (series_ids Zt) i = Some (r_path r2) -> t2 = (t1 + p)%Z ->
  (forall name ef ef0 cols x1 x2, In name (map fst (p_effects (ft_prepared f))) -> In (name, ef, cols) (p_fitted (ft_prepared f)) -> configured c name ef0 ->
    Forall2 (seen shared (series_ids X1) X1 r1) cols x1 -> Forall2 (seen shared (series_ids X2) X2 r2) cols x2 -> recurs p ef0 x1 x2) ->
  (forall name ef0, In name (map fst (p_effects (ft_prepared f))) -> configured c name ef0 -> effect_mode ef0 Additive) ->
  forall s1 s2, steps (map (fun t => day (ns_of t)) ds) (day (ns_of t1)) = s1 -> steps (map (fun t => day (ns_of t)) ds) (day (ns_of t2)) = s2 -> past_changepoints K iv s1 -> past_changepoints K iv s2 ->
  exists x1 x2, (List.length (series_ids y) = 1 -> expected tr1 j1 x1 /\ expected tr2 j2 x2) /\ (List.length (series_ids y) <> 1 -> expected_at tr1 i j1 x1 /\ expected_at tr2 i j2 x2) /\ (x2 - x1 = (s2 - s1) * final_rate e K i)%R.
Proof. exact (c123_transformed ns_of order keep tr_fit_transform tr_transform svi_run nuts_run latent_sites Order). Qed.
End Any.

Print Assumptions C123_trend.
Print Assumptions C123_panel_trend.
Print Assumptions C123_beyond.
Print Assumptions C123_forecast.
Print Assumptions C123_panel.
Print Assumptions C123_transformed.

(** Training days 0, 1 and 7 (a step is three and a half days), changepoints at the steps 0 and 1, a linear effect, a weekly
    seasonality and a Hill effect, all parameters one: from day 7 to day 14, two steps later, with the same advertising the
    trend and the expected observation grow by 4. *)
Example C123_nonvacuous : forall trend, In trend ["linear"; "linear_raw"] -> exists ob f m1 o1 tr1 m2 o2 tr2 v1 v2 x1 x2, total_fit trend "normal" "mcmc" = (ob, Ok f) /\
  predict_model ex_ns keep_all ex_transform (docs_config trend) ob f ex_y (Some Xd) hd3 = Ok m1 /\ predict_model ex_ns keep_all ex_transform (docs_config trend) ob f ex_y (Some Xagain) hd3 = Ok m2 /\
  run one [] m1 = Ok (o1, tr1) /\ run one [] m2 = Ok (o2, tr2) /\ component_at tr1 "trend" 1 v1 /\ component_at tr2 "trend" 2 v2 /\ (v2 - v1 = 4)%R /\ expected tr1 1 x1 /\ expected tr2 2 x2 /\ (x2 - x1 = 4)%R.
Proof.
  intros trend HT. assert (HT3 : In trend ["linear"; "linear_raw"; "logistic"]) by (simpl in *; tauto). assert (HT4 : In trend ["linear"; "linear_raw"; "flat"; "logistic"]) by (simpl in *; tauto).
  destruct (season_run trend HT4) as (ob & f & HF & HR). destruct (HR Xd) as (m1 & o1 & tr1 & M1 & R1); [simpl; auto|]. destruct (HR Xagain) as (m2 & o2 & tr2 & M2 & R2); [simpl; auto|].
  destruct (plan_wf Xd) as (W1 & C1 & _); [simpl; auto|]. destruct again_wf as (W2 & C2).
  destruct (named_options ex_ns sorted_sets keep_all ex_fit_transform ex_svi ex_nuts comp_latent _ _ _ _ _ _ trend HF eq_refl HT3) as [PO _].
  assert (LG : String.eqb trend "logistic" = false) by (simpl in HT; destruct HT as [<-|[<-|[]]]; reflexivity). rewrite LG in PO.
  destruct (C123_trend ex_ns sorted_sets keep_all ex_fit_transform ex_transform ex_svi ex_nuts comp_latent _ _ _ _ _ _ _ _ _ 2 HF eq_refl eq_refl (total_clean _ _ _) PO ltac:(simpl; lra) [0; 1; 7]%Z eq_refl docs_days docs_count
    _ _ _ _ _ _ _ _ 7%Z 7%Z [0; 7; 14]%Z [0; 7; 14]%Z M1 M2 eq_refl eq_refl eq_refl eq_refl _ _ _ _ _ R1 R2 1 2 7%Z 14%Z 2%R 4%R eq_refl eq_refl ltac:(rewrite onward_at; lra) ltac:(rewrite onward_at; lra) (onward_past 2 ltac:(lra)) (onward_past 4 ltac:(lra))) as (v1 & v2 & V1 & V2 & V).
  destruct (C123_forecast ex_ns sorted_sets keep_all ex_fit_transform ex_transform ex_svi ex_nuts comp_latent _ _ _ _ _ _ _ _ 2 HF eq_refl eq_refl docs_y_wf (total_clean _ _ _) PO ltac:(simpl; lra) eq_refl ltac:(discriminate)
    ltac:(intros Z [= <-]; exact docs_x_wf) docs_transformer [0; 1; 7]%Z eq_refl docs_days docs_count _ _ _ _ _ _ _ _ 7%Z 7%Z [0; 7; 14]%Z [0; 7; 14]%Z Xd Xagain M1 M2 eq_refl eq_refl eq_refl eq_refl (plan_transformed _ _ _ _ HF) (plan_transformed _ _ _ _ HF)
    C1 C2 W1 W2 eq_refl eq_refl docs_order docs_order _ _ _ _ _ R1 R2 7%Z 7%Z 14%Z 1 2 this_week next_week eq_refl eq_refl ltac:(simpl; auto) ltac:(simpl; auto) eq_refl eq_refl eq_refl
    (fun name ef ef0 cols x1 x2 _ _ CF V1 V2 => proj1 (week_recurs trend name ef0 cols x1 x2 CF V1 V2)) (week_additive trend f) 2%R 4%R ltac:(rewrite onward_at; lra) ltac:(rewrite onward_at; lra) (onward_past 2 ltac:(lra)) (onward_past 4 ltac:(lra))) as (x1 & x2 & X1 & X2 & X).
  exists ob, f, m1, o1, tr1, m2, o2, tr2, v1, v2, x1, x2. do 5 (split; [assumption|]). split; [exact V1|]. split; [exact V2|]. rewrite one_rate in X. unfold onward in V. rewrite one_rate in V. split; [lra|]. split; [exact X1|]. split; [exact X2|]. lra.
Qed.
(** The logistic trend of the same series. *)
Example C123_logistic_nonvacuous : exists ob f m o tr v1 v2, total_fit "logistic" "normal" "mcmc" = (ob, Ok f) /\ predict_model ex_ns keep_all ex_transform (docs_config "logistic") ob f ex_y (Some Xd) hd3 = Ok m /\ run one [] m = Ok (o, tr) /\
  component_at tr "trend" 1 v1 /\ component_at tr "trend" 2 v2 /\ (logit 1 v2 - logit 1 v1 = 4)%R.
Proof.
  destruct (season_run "logistic" ltac:(simpl; auto)) as (ob & f & HF & HR). destruct (HR Xd) as (m & o & tr & M & R1); [simpl; auto|].
  destruct (named_options ex_ns sorted_sets keep_all ex_fit_transform ex_svi ex_nuts comp_latent _ _ _ _ _ _ "logistic" HF eq_refl ltac:(simpl; auto)) as [PO _].
  destruct (C123_trend ex_ns sorted_sets keep_all ex_fit_transform ex_transform ex_svi ex_nuts comp_latent _ _ _ _ _ _ _ _ _ 2 HF eq_refl eq_refl (total_clean _ _ _) PO ltac:(simpl; lra) [0; 1; 7]%Z eq_refl docs_days docs_count
    _ _ _ _ _ _ _ _ 7%Z 7%Z [0; 7; 14]%Z [0; 7; 14]%Z M M eq_refl eq_refl eq_refl eq_refl _ _ _ _ _ R1 R1 1 2 7%Z 14%Z 2%R 4%R eq_refl eq_refl ltac:(rewrite onward_at; lra) ltac:(rewrite onward_at; lra) (onward_past 2 ltac:(lra)) (onward_past 4 ltac:(lra))) as (v1 & v2 & V1 & V2 & V).
  exists ob, f, m, o, tr, v1, v2. do 3 (split; [assumption|]). split; [exact V1|]. split; [exact V2|]. cbv [onward String.eqb Ascii.eqb Bool.eqb] in V. rewrite one_rate in V. unfold one in V. rewrite V by lra. lra.
Qed.
(** Two series trained on the days 0 and 1 with a single changepoint each: from day 2 to day 3, without advertising, the second
    one grows by 1. *)
Example C123_panel_nonvacuous : exists ob f m1 m2 o1 tr1 o2 tr2 v1 v2 x1 x2, two_fit = (ob, Ok f) /\
  predict_model ex_ns keep_all ex_transform two_config ob f ex_yh (Some ex_X2) (Relative [1; 2]%Z) = Ok m1 /\ predict_model ex_ns keep_all ex_transform two_config ob f ex_yh (Some ex_X3) (Relative [1; 2]%Z) = Ok m2 /\
  run one [] m1 = Ok (o1, tr1) /\ run one [] m2 = Ok (o2, tr2) /\ component_at tr1 "trend" 2 v1 /\ component_at tr2 "trend" 3 v2 /\ (v2 - v1 = 1)%R /\ expected_at tr1 1 0 x1 /\ expected_at tr2 1 1 x2 /\ (x2 - x1 = 1)%R.
Proof.
  destruct cells_hierarchical as (ob & f & m1 & m2 & o1 & tr1 & o2 & tr2 & HF & NT & _ & MT & M1 & M2 & R1 & R2).
  destruct (named_options ex_ns sorted_sets keep_all ex_fit_transform ex_svi ex_nuts two_latent _ _ _ _ _ _ "linear_raw" HF eq_refl ltac:(simpl; auto)) as [PO _].
  assert (DS : forall t, In t [0; 1]%Z <-> In t (map r_time (f_rows ex_yh))) by (intros t; cbn; tauto).
  destruct (C123_panel_trend ex_ns sorted_sets keep_all ex_fit_transform ex_transform ex_svi ex_nuts two_latent _ _ _ _ _ _ _ _ _ 1 HF eq_refl ltac:(discriminate) yh_wf yh_no_total yh_balanced two_clean PO ltac:(simpl; lra) [0; 1]%Z ltac:(repeat constructor) DS docs_days2 docs_count2
    _ _ _ _ _ _ _ _ 1%Z [2; 3]%Z [2; 3]%Z M1 M2 MT eq_refl eq_refl ltac:(repeat constructor; simpl; intuition discriminate) ltac:(repeat constructor; simpl; intuition discriminate) _ _ _ _ _ R1 R2 1 0 1 2%Z 3%Z 2%R 3%R ltac:(vm_compute; auto) eq_refl eq_refl (onward_at2 2) (onward_at2 3) (onward_past2 2 ltac:(lra)) (onward_past2 3 ltac:(lra))) as (v1 & v2 & V1 & V2 & V).
  destruct (C123_panel ex_ns sorted_sets keep_all ex_fit_transform ex_transform ex_svi ex_nuts two_latent (fun l => Permutation_refl l) _ _ _ _ _ _ _ _ 1 HF eq_refl ltac:(discriminate) yh_wf yh_no_total yh_balanced two_clean PO ltac:(simpl; lra) eq_refl Xh_wf ltac:(discriminate) ltac:(discriminate)
    [] eq_refl panel_copyable [0; 1]%Z ltac:(repeat constructor) DS docs_days2 docs_count2 _ _ _ _ _ _ _ _ 1%Z [2; 3]%Z [2; 3]%Z M1 M2 MT eq_refl eq_refl X2_wf X3_wf ltac:(discriminate) ltac:(discriminate) eq_refl eq_refl eq_refl eq_refl (proj1 X2_covers) X3_covers ltac:(repeat constructor) ltac:(repeat constructor)
    _ _ _ _ _ R1 R2 1 1%Z 2%Z 3%Z 0 1 quiet2 quiet3 ltac:(vm_compute; auto) eq_refl eq_refl ltac:(simpl; auto) ltac:(simpl; auto) eq_refl eq_refl eq_refl eq_refl eq_refl
    (fun name ef ef0 cols x1 x2 _ _ CF V1 V2 => proj1 (panel_recurs name ef0 cols x1 x2 CF V1 V2)) (panel_additive f) 2%R 3%R (onward_at2 2) (onward_at2 3) (onward_past2 2 ltac:(lra)) (onward_past2 3 ltac:(lra))) as (x1 & x2 & _ & XE & X).
  destruct XE as [X1 X2]; [vm_compute; discriminate|]. exists ob, f, m1, m2, o1, tr1, o2, tr2, v1, v2, x1, x2. do 5 (split; [assumption|]). split; [exact V1|]. split; [exact V2|]. rewrite one_rate1 in X. change (String.eqb "linear_raw" "logistic") with false in V. unfold onward in V. rewrite one_rate1 in V. split; [lra|]. split; [exact X1|]. split; [exact X2|]. lra.
Qed.
(** With a range of four fifths of the history, all dates from day 7 on are after the changepoints. *)
Example C123_beyond_nonvacuous : forall t, (7 <= t)%Z -> past_changepoints 2 1 (steps (map (fun t => DocsSpec.day (ex_ns t)) [0; 1; 7]%Z) (DocsSpec.day (ex_ns t))).
Proof.
  intros t Ht. assert (RG : (4 / 5 < 1)%R) by lra. apply (C123_beyond ex_ns [0; 1; 7]%Z 3 1 (4 / 5) 2 t eq_refl docs_days docs_count (or_introl RG)). intros d Hd. rewrite !ex_day. apply IZR_le. destruct Hd as [<-|[<-|[<-|[]]]]; lia.
Qed.
(** The same with a feature transformer: from day 2 to day 3, with the same value of web, the second series grows by 1. *)
Example C123_transformed_nonvacuous : exists ob f m1 m2 o1 o2 tr1 tr2 x1 x2, web_fit false = (ob, Ok f) /\
  predict_model ex_ns keep_all ex_transform (web_config false) ob f ex_yh (Some X_pick) (Relative [1; 2]%Z) = Ok m1 /\ predict_model ex_ns keep_all ex_transform (web_config false) ob f ex_yh (Some X_more) (Relative [1; 2]%Z) = Ok m2 /\
  run one [] m1 = Ok (o1, tr1) /\ run one [] m2 = Ok (o2, tr2) /\ expected_at tr1 1 0 x1 /\ expected_at tr2 1 1 x2 /\ (x2 - x1 = 1)%R.
Proof.
  destruct (web_run false) as (ob & f & m1 & m2 & o1 & o2 & tr1 & tr2 & HF & T1 & T2 & SP & MT & NM & _ & M1 & M2 & R1 & R2 & _).
  destruct (named_options ex_ns sorted_sets keep_all ex_fit_transform ex_svi ex_nuts two_latent _ _ _ _ _ _ "linear_raw" HF eq_refl ltac:(simpl; auto)) as [PO _].
  assert (DS : forall t, In t [0; 1]%Z <-> In t (map r_time (f_rows ex_yh))) by (intros t; cbn; tauto).
  destruct (C123_transformed ex_ns sorted_sets keep_all ex_fit_transform ex_transform ex_svi ex_nuts two_latent (fun l => Permutation_refl l) _ _ _ _ _ _ _ _ 1 HF eq_refl ltac:(discriminate) yh_wf yh_no_total yh_balanced (web_clean false) PO ltac:(simpl; lra)
    _ _ _ (proj1 web_given) eq_refl (proj1 pick_wf) ltac:(discriminate) ltac:(discriminate) ltac:(discriminate)
    [] eq_refl pick_copyable [0; 1]%Z ltac:(repeat constructor) DS docs_days2 docs_count2 _ _ _ _ _ _ _ _ _ _ _ _ 1%Z [2; 3]%Z [2; 3]%Z M1 M2 MT eq_refl eq_refl (proj1 (proj2 web_given)) (proj2 (proj2 web_given)) T1 T2
    (proj2 pick_wf) more_wf ltac:(discriminate) ltac:(discriminate) eq_refl eq_refl eq_refl eq_refl eq_refl eq_refl ltac:(repeat constructor) ltac:(repeat constructor)
    _ _ _ _ _ R1 R2 1 1%Z 2%Z 3%Z 0 1 b_first b_next ltac:(vm_compute; auto) eq_refl eq_refl ltac:(simpl; auto) ltac:(simpl; auto) eq_refl eq_refl eq_refl eq_refl eq_refl
    (fun name ef ef0 cols x1 x2 _ _ CF V1 V2 => proj1 (web_recurs name ef0 cols x1 x2 CF V1 V2))
    ltac:(intros name ef0 _ CF; destruct (web_effect _ _ _ CF ltac:(discriminate)) as (d & ->); reflexivity) 2%R 3%R (onward_at2 2) (onward_at2 3) (onward_past2 2 ltac:(lra)) (onward_past2 3 ltac:(lra))) as (x1 & x2 & _ & XE & X).
  destruct XE as [X1 X2]; [vm_compute; discriminate|]. exists ob, f, m1, m2, o1, o2, tr1, tr2, x1, x2. do 5 (split; [assumption|]). rewrite one_rate1 in X. split; [exact X1|]. split; [exact X2|]. lra.
Qed.
