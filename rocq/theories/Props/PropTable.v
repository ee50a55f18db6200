(** C112: from the settings and the data to the table of components.  The table which [predict_all_sites] returns holds, for
    every date, the documented formulas of trend and effects: averages over the posterior draws, times the scale of the
    target. *)
From Coq Require Import Reals Lra String Bool ZArith List Permutation Lia Sorted.
From Verif.Model Require Import Base Num XFloat Frame Arr Expand Aggregate Scale Prog Likelihood Effect Trend TrendProg Engine Predict Forecaster.
From Verif.Spec Require Import TotalSpec FrameSpec ScaleSpec ProgSpec PredictSpec EffectSpec TrendSpec ForecasterSpec AlignSpec ShapeSpec SiteSpec ComponentSpec OverlapSpec DocsSpec ResponseSpec DrawSpec TableSpec.
From Verif.Facts Require Import EffectExamples ForecasterExamples EngineExamples HistoryExamples AlignExamples ComponentExamples OverlapExamples TotalExamples DocsExamples ResponseExamples ResponseHierarchical
  TableFacts TablePanel TotalSitesExamples TableExamples TableFlat TableFlatExamples CounterExamples TableTransformed TableTransformedExamples.
From Verif.Spec Require Import ResponseSpec OverlapSpec DrawSpec.
Import ListNotations.
Local Open Scope string_scope.

Section Any.
Variable ns_of : Z -> Z.
Variable order : list string -> list string.
Variable keep : path -> bool.
Context {TS P : Type}.
Variable tr_fit_transform : TS -> frame R -> TS * res (frame R).
Variable tr_transform : TS -> frame R -> res (frame R).
Variable svi_run : Z -> nat -> nat -> prog arr -> res (list xr * P).
Variable nuts_run : Z -> nat -> nat -> nat -> prog arr -> res (nat -> nat -> env).
Variable latent_sites : prog arr -> list string.
Variable guide_draw : P -> Z -> nat -> prog arr -> env.
Variable complete_draw : env -> Z -> nat -> prog arr -> env.
Notation fit_forecaster := (fit_forecaster ns_of order keep tr_fit_transform svi_run nuts_run latent_sites).
Notation predict_model := (predict_model ns_of keep tr_transform).
Notation forecast_all_sites := (forecast_all_sites ns_of keep tr_transform guide_draw complete_draw).
Notation draws := (Engine.draws guide_draw complete_draw).
Notation day := (fun t => day (ns_of t)).

(** One series.  [es] are the posterior draws, [trend e] is the documented trend with the parameters of draw [e], [v] is the
    answer of the effect configured under the name of the column to the values [x] of its columns. *)
Theorem C112_univariate : forall c ob y X ob' (f : fitted (P := P)) iv rg lg K s u, fit_forecaster c ob y X = (ob', Ok f) -> c_hier c = false -> f_levels y = 0 -> frame_wf y -> clean_config c -> distinct_names c ->
  piecewise_options (o_trend ob') iv rg lg -> (0 < iv)%R -> ft_scale f = SFloat s -> factor c f u ->
  (forall Z, X = Some Z -> frame_wf Z) -> (forall s Z s' Z', frame_wf Z -> tr_fit_transform s Z = (s', Ok Z') -> frame_wf Z') ->
  forall ds t0, map r_time (f_rows y) = ds -> increasing (map day ds) -> changepoint_count (List.length ds) iv rg K -> first_date ds t0 ->
  forall y2 X2 fh f2 out cutoff ts Xt, forecast_all_sites c ob' f y2 X2 fh = (f2, Ok out) -> f_levels y2 = 0 -> max_time (map r_time (f_rows y2)) = Ok cutoff -> to_absolute cutoff fh = ts ->
  run_transform tr_transform ob' (supplied X2 ts) = Ok Xt -> covers Xt ts -> frame_wf Xt -> f_levels Xt = 0 -> ts <> [] -> in_order ts ->
  exists m es, predict_model c ob' f y2 X2 fh = Ok m /\ es = draws (engine_of c) (ft_posterior f) m /\ es <> [] /\
    (forall t, In t ts <-> exists row, In row (f_rows out) /\ r_time row = t) /\
    forall row, In row (f_rows out) -> let trend e := trend_at e lg K iv 0 (steps (map day ds) (day (r_time row))) in
      cell out row "trend" = Some (u * Rmean (map trend es))%R /\
      forall name ef cols, In (name, ef, cols) (p_fitted (ft_prepared f)) -> In (name, ef) (p_effects (ft_prepared f)) ->
      exists ef0, configured c name ef0 /\
      forall r, In r (f_rows Xt) -> r_time r = r_time row ->
      exists x vs, values_at Xt r cols x /\ Forall2 (fun e v => answers e name (fun k => k) ef0 x (r_time row - t0) (trend e) v) es vs /\ cell out row name = Some (u * Rmean vs)%R.
Proof. exact (c112_univariate ns_of order keep tr_fit_transform tr_transform svi_run nuts_run latent_sites guide_draw complete_draw). Qed.

(** One series with a flat trend. *)
Theorem C112_flat : forall c ob y X ob' (f : fitted (P := P)) s u, fit_forecaster c ob y X = (ob', Ok f) -> c_hier c = false -> f_levels y = 0 -> frame_wf y -> clean_config c -> distinct_names c ->
  flat_trend (o_trend ob') -> ft_scale f = SFloat s -> factor c f u ->
  (forall Z, X = Some Z -> frame_wf Z) -> (forall s Z s' Z', frame_wf Z -> tr_fit_transform s Z = (s', Ok Z') -> frame_wf Z') ->
  forall ds t0, map r_time (f_rows y) = ds -> first_date ds t0 ->
  forall y2 X2 fh f2 out cutoff ts Xt, forecast_all_sites c ob' f y2 X2 fh = (f2, Ok out) -> f_levels y2 = 0 -> max_time (map r_time (f_rows y2)) = Ok cutoff -> to_absolute cutoff fh = ts ->
  run_transform tr_transform ob' (supplied X2 ts) = Ok Xt -> covers Xt ts -> frame_wf Xt -> f_levels Xt = 0 -> ts <> [] -> in_order ts ->
  exists m es, predict_model c ob' f y2 X2 fh = Ok m /\ es = draws (engine_of c) (ft_posterior f) m /\ es <> [] /\
    (forall t, In t ts <-> exists row, In row (f_rows out) /\ r_time row = t) /\
    forall row, In row (f_rows out) -> let trend e := e "trend_flat_coefficient" 0 in
      cell out row "trend" = Some (u * Rmean (map trend es))%R /\
      forall name ef cols, In (name, ef, cols) (p_fitted (ft_prepared f)) -> In (name, ef) (p_effects (ft_prepared f)) ->
      exists ef0, configured c name ef0 /\
      forall r, In r (f_rows Xt) -> r_time r = r_time row ->
      exists x vs, values_at Xt r cols x /\ Forall2 (fun e v => answers e name (fun k => k) ef0 x (r_time row - t0) (trend e) v) es vs /\ cell out row name = Some (u * Rmean vs)%R.
Proof. exact (c112_flat ns_of order keep tr_fit_transform tr_transform svi_run nuts_run latent_sites guide_draw complete_draw). Qed.

(** Several series (HierarchicalProphet): series number [i] has its own trend and its own coefficients, its own scale, and
    sees its own values in its own copies of the columns.  [wave_numbers ef] numbers the waves of a seasonality; it belongs
    to the fitted effect, so it is the same for all draws, series and dates. *)
Theorem C112_panel (Order : forall l, Permutation (order l) l) : forall c ob y Z0 ob' (f : fitted (P := P)) iv rg lg K u, fit_forecaster c ob y (Some Z0) = (ob', Ok f) -> c_hier c = true -> f_levels y <> 0 -> frame_wf y ->
  (forall r, In r (f_rows y) -> ~ In "__total" (r_path r)) -> balanced y -> clean_config c -> distinct_names c -> piecewise_options (o_trend ob') iv rg lg -> (0 < iv)%R ->
  o_transformer ob = None -> frame_wf Z0 -> f_levels Z0 <> 0 -> f_cols Z0 <> [] ->
  forall shared, (match c_shared c with None => [] | Some l => l end) = shared -> copyable shared (f_cols Z0) (bottom_series Z0) ->
  forall ds, StronglySorted Z.lt ds -> (forall t, In t ds <-> In t (map r_time (f_rows y))) -> increasing (map day ds) -> changepoint_count (List.length ds) iv rg K ->
  forall y2 X2 fh f2 out ts, forecast_all_sites c ob' f y2 (Some X2) fh = (f2, Ok out) -> f_levels y2 = f_levels y -> fh_to_index y2 fh = Ok ts ->
  forall cutoff, max_time (map snd (p_index (ft_prepared f))) = Ok cutoff -> to_absolute cutoff fh = ts ->
  index_series (labeller_of c f y2) = bottom_series X2 -> (forall q, In q (bottom_series X2) -> scale_of (ft_scale f) q = Some (u q)) ->
  frame_wf X2 -> f_levels X2 <> 0 -> f_cols X2 = f_cols Z0 -> bottom_series X2 = bottom_series Z0 -> covers X2 ts -> ts <> [] -> in_order ts ->
  exists m es, predict_model c ob' f y2 (Some X2) fh = Ok m /\ es = draws (engine_of c) (ft_posterior f) m /\ es <> [] /\
    (forall q t, In q (bottom_series X2) /\ In t ts <-> exists row, In row (f_rows out) /\ r_path row = q /\ r_time row = t) /\
    forall row i, In row (f_rows out) -> nth_error (bottom_series X2) i = Some (r_path row) -> let trend e := trend_at e lg K iv i (steps (map day ds) (day (r_time row))) in
      cell out row "trend" = Some (u (r_path row) * Rmean (map trend es))%R /\
      forall name ef cols, In (name, ef, cols) (p_fitted (ft_prepared f)) -> In (name, ef) (p_effects (ft_prepared f)) ->
      exists ef0, configured c name ef0 /\ numbering ef0 (wave_numbers ef) /\
      forall r t0, In r (f_rows X2) -> r_path r = r_path row -> r_time r = r_time row -> first_date (dates Z0 (r_path r)) t0 ->
      exists x vs, Forall2 (ResponseSpec.seen shared (bottom_series X2) X2 r) cols x /\
        Forall2 (fun e v => answers e name (fun k => wave_numbers ef k * List.length (bottom_series X2) + i) ef0 x (r_time row - t0) (trend e) v) es vs /\ cell out row name = Some (u (r_path row) * Rmean vs)%R.
Proof. exact (c112_panel ns_of order Order keep tr_fit_transform tr_transform svi_run nuts_run latent_sites guide_draw complete_draw). Qed.

(** The same with a feature transformer: [Zt] and [Xt] are what it returns in fit and forecast. *)
Theorem C112_transformed (Order : forall l, Permutation (order l) l) : forall c ob y X0 ob' (f : fitted (P := P)) iv rg lg K u, fit_forecaster c ob y X0 = (ob', Ok f) -> c_hier c = true -> f_levels y <> 0 -> frame_wf y ->
  (forall r, In r (f_rows y) -> ~ In "__total" (r_path r)) -> balanced y -> clean_config c -> distinct_names c -> piecewise_options (o_trend ob') iv rg lg -> (0 < iv)%R ->
  forall B0 ob1 Zt, given_training X0 y B0 -> run_fit_transform tr_fit_transform ob B0 = (ob1, Ok Zt) -> frame_wf Zt -> f_levels Zt <> 0 -> f_rows Zt <> [] -> f_cols Zt <> [] ->
  forall shared, (match c_shared c with None => [] | Some l => l end) = shared -> copyable shared (f_cols Zt) (series_ids Zt) ->
  forall ds, StronglySorted Z.lt ds -> (forall t, In t ds <-> In t (map r_time (f_rows y))) -> increasing (map day ds) -> changepoint_count (List.length ds) iv rg K ->
  forall y2 X2 fh f2 out ts, forecast_all_sites c ob' f y2 X2 fh = (f2, Ok out) -> f_levels y2 = f_levels y -> fh_to_index y2 fh = Ok ts ->
  forall cutoff, max_time (map snd (p_index (ft_prepared f))) = Ok cutoff -> to_absolute cutoff fh = ts ->
  forall B Xt, given_forecast X2 y2 ts B -> run_transform tr_transform ob' B = Ok Xt ->
  index_series (labeller_of c f y2) = series_ids Xt -> (forall q, In q (series_ids Xt) -> scale_of (ft_scale f) q = Some (u q)) ->
  frame_wf Xt -> f_levels Xt <> 0 -> f_cols Xt = f_cols Zt -> series_ids Xt = series_ids Zt -> covers Xt ts -> ts <> [] -> in_order ts ->
  exists m es, predict_model c ob' f y2 X2 fh = Ok m /\ es = draws (engine_of c) (ft_posterior f) m /\ es <> [] /\
    (forall q t, In q (series_ids Xt) /\ In t ts <-> exists row, In row (f_rows out) /\ r_path row = q /\ r_time row = t) /\
    forall row i, In row (f_rows out) -> nth_error (series_ids Xt) i = Some (r_path row) -> let trend e := trend_at e lg K iv i (steps (map day ds) (day (r_time row))) in
      cell out row "trend" = Some (u (r_path row) * Rmean (map trend es))%R /\
      forall name ef cols, In (name, ef, cols) (p_fitted (ft_prepared f)) -> In (name, ef) (p_effects (ft_prepared f)) ->
      exists ef0, configured c name ef0 /\ numbering ef0 (wave_numbers ef) /\
      forall r t0, In r (f_rows Xt) -> r_path r = r_path row -> r_time r = r_time row -> first_date (dates Zt (r_path r)) t0 ->
      exists x vs, Forall2 (ResponseSpec.seen shared (series_ids Xt) Xt r) cols x /\
        Forall2 (fun e v => answers e name (fun k => wave_numbers ef k * List.length (series_ids Xt) + i) ef0 x (r_time row - t0) (trend e) v) es vs /\ cell out row name = Some (u (r_path row) * Rmean vs)%R.
Proof. exact (c112_transformed ns_of order Order keep tr_fit_transform tr_transform svi_run nuts_run latent_sites guide_draw complete_draw). Qed.

(** Panels without columns (the transformer, if any, returned none). *)
Theorem C112_without_columns (Order : forall l, Permutation (order l) l) : forall c ob y X0 ob' (f : fitted (P := P)) iv rg lg K u, fit_forecaster c ob y X0 = (ob', Ok f) -> c_hier c = true -> f_levels y <> 0 -> frame_wf y ->
  (forall r, In r (f_rows y) -> ~ In "__total" (r_path r)) -> balanced y -> clean_config c -> distinct_names c -> piecewise_options (o_trend ob') iv rg lg -> (0 < iv)%R ->
  forall B0 ob1 Zt, given_training X0 y B0 -> run_fit_transform tr_fit_transform ob B0 = (ob1, Ok Zt) -> frame_wf Zt -> f_levels Zt <> 0 -> f_rows Zt <> [] -> f_cols Zt = [] -> NoDup (map (String.concat "-") (series_ids Zt)) ->
  forall ds, StronglySorted Z.lt ds -> (forall t, In t ds <-> In t (map r_time (f_rows y))) -> increasing (map day ds) -> changepoint_count (List.length ds) iv rg K ->
  forall y2 X2 fh f2 out ts, forecast_all_sites c ob' f y2 X2 fh = (f2, Ok out) -> f_levels y2 = f_levels y -> fh_to_index y2 fh = Ok ts ->
  forall cutoff, max_time (map snd (p_index (ft_prepared f))) = Ok cutoff -> to_absolute cutoff fh = ts ->
  forall B, given_forecast X2 y2 ts B ->
  index_series (labeller_of c f y2) = series_ids B -> (forall q, In q (series_ids B) -> scale_of (ft_scale f) q = Some (u q)) ->
  frame_wf B -> f_levels B <> 0 -> series_ids B = series_ids Zt -> covers B ts -> ts <> [] -> in_order ts ->
  exists m es, predict_model c ob' f y2 X2 fh = Ok m /\ es = draws (engine_of c) (ft_posterior f) m /\ es <> [] /\
    (forall q t, In q (series_ids B) /\ In t ts <-> exists row, In row (f_rows out) /\ r_path row = q /\ r_time row = t) /\
    forall row i, In row (f_rows out) -> nth_error (series_ids B) i = Some (r_path row) -> let trend e := trend_at e lg K iv i (steps (map day ds) (day (r_time row))) in
      cell out row "trend" = Some (u (r_path row) * Rmean (map trend es))%R /\
      forall name ef, In (name, ef) (p_effects (ft_prepared f)) ->
      exists ef0, configured c name ef0 /\ numbering ef0 (wave_numbers ef) /\
      forall t0, first_date (dates Zt (r_path row)) t0 ->
      exists vs, Forall2 (fun e v => answers e name (fun k => wave_numbers ef k * List.length (series_ids B) + i) ef0 [] (r_time row - t0) (trend e) v) es vs /\ cell out row name = Some (u (r_path row) * Rmean vs)%R.
Proof. exact (c112_bare ns_of order Order keep tr_fit_transform tr_transform svi_run nuts_run latent_sites guide_draw complete_draw). Qed.
End Any.
Print Assumptions C112_univariate.
Print Assumptions C112_flat.
Print Assumptions C112_panel.
Print Assumptions C112_transformed.
Print Assumptions C112_without_columns.

(** Training on the days 0, 1 and 7, components for the days 0, 7 and 14; a linear effect, a weekly seasonality and a
    saturation.  All posterior draws have parameters 1: the saturation column shows 10/11, 20/21 and 30/31, times the scale. *)
Example C112_univariate_nonvacuous : forall trend, In trend ["linear"; "linear_raw"; "logistic"] -> exists ob f out u,
  sites_fit trend "normal" = (ob, Ok f) /\ frame_wf ex_y /\ clean_config (docs_config trend) /\ distinct_names (docs_config trend) /\ piecewise_options (o_trend ob) 1 (4 / 5) (String.eqb trend "logistic") /\
  ft_scale f = SFloat u /\ factor (docs_config trend) f u /\ map r_time (f_rows ex_y) = [0; 1; 7]%Z /\ increasing (map (fun t => DocsSpec.day (ex_ns t)) [0; 1; 7]%Z) /\ changepoint_count 3 1 (4 / 5) 2 /\ first_date [0; 1; 7]%Z 0 /\
  forecast_all_sites ex_ns keep_all ex_transform ex_guide ex_complete (docs_config trend) ob f ex_y (Some Xd) hd3 = (f, Ok out) /\ run_transform ex_transform ob (supplied (Some Xd) [0; 7; 14]%Z) = Ok Xd /\
  covers Xd [0; 7; 14]%Z /\ frame_wf Xd /\ in_order [0; 7; 14]%Z /\ (forall l, In l [linear_tv; season; hill_web] -> exists ef, In (l_name l, ef) (p_effects (ft_prepared f))) /\
  forall row, In row (f_rows out) -> (r_time row = 0%Z -> cell out row "sat" = Some (u * (10 / 11))%R) /\ (r_time row = 7%Z -> cell out row "sat" = Some (u * (20 / 21))%R) /\ (r_time row = 14%Z -> cell out row "sat" = Some (u * (30 / 31))%R).
Proof. exact table_example. Qed.
(** The same with a flat trend: its column holds the scale, since the parameter is one in all draws. *)
Example C112_flat_nonvacuous : exists ob f out u,
  sites_fit "flat" "normal" = (ob, Ok f) /\ flat_trend (o_trend ob) /\ ft_scale f = SFloat u /\ factor (docs_config "flat") f u /\
  forecast_all_sites ex_ns keep_all ex_transform ex_guide ex_complete (docs_config "flat") ob f ex_y (Some Xd) hd3 = (f, Ok out) /\ run_transform ex_transform ob (supplied (Some Xd) [0; 7; 14]%Z) = Ok Xd /\
  (forall l, In l [linear_tv; season; hill_web] -> exists ef, In (l_name l, ef) (p_effects (ft_prepared f))) /\
  forall row, In row (f_rows out) -> cell out row "trend" = Some u.
Proof. exact flat_example. Qed.
(** Two series, days 0 and 1, components for the days 2 and 3. *)
Example C112_panel_nonvacuous : frame_wf ex_yh /\ balanced ex_yh /\ (forall r, In r (f_rows ex_yh) -> ~ In "__total" (r_path r)) /\ clean_config pw_config /\ distinct_names pw_config /\
  copyable [] (f_cols ex_Xh) (bottom_series ex_Xh) /\ increasing (map (fun t => DocsSpec.day (ex_ns t)) [0; 1]%Z) /\ changepoint_count 2 25 (4 / 5) 1 /\ fh_to_index ex_yh (Relative [1; 2]%Z) = Ok [2; 3]%Z /\ covers ex_X2 [2; 3]%Z /\ in_order [2; 3]%Z /\
  exists ob f f' out u, parts_fit = (ob, Ok f) /\ parts_forecast ob f = (f', Ok out) /\ piecewise_options (o_trend ob) 25 (4 / 5) false /\ map fst (p_effects (ft_prepared f)) = ["all"] /\
    max_time (map snd (p_index (ft_prepared f))) = Ok 1%Z /\ index_series (labeller_of pw_config f ex_yh) = bottom_series ex_X2 /\ bottom_series ex_X2 = [["a"]; ["b"]] /\ forall q, In q (bottom_series ex_X2) -> scale_of (ft_scale f) q = Some (u q).
Proof. exact table_panel_example. Qed.
(** A transformer that keeps the column web only. *)
Example C112_transformed_nonvacuous : given_training (Some ex_Xh) ex_yh ex_Xh /\ run_fit_transform ex_fit_transform (no_objects (Some false)) ex_Xh = (no_objects (Some false), Ok Xp0) /\ frame_wf Xp0 /\ copyable [] (f_cols Xp0) (series_ids Xp0) /\
  clean_config two_config /\ distinct_names two_config /\ balanced ex_yh /\ increasing (map (fun t => DocsSpec.day (ex_ns t)) [0; 1]%Z) /\ changepoint_count 2 25 (4 / 5) 1 /\ fh_to_index ex_yh (Relative [1; 2]%Z) = Ok [2; 3]%Z /\
  given_forecast (Some X_pick) ex_yh [2; 3]%Z X_pick /\ frame_wf Xp1 /\ f_cols Xp1 = f_cols Xp0 /\ series_ids Xp1 = series_ids Xp0 /\ series_ids Xp1 = [["a"]; ["b"]] /\ covers Xp1 [2; 3]%Z /\
  exists ob f f' out u, pick_fit = (ob, Ok f) /\ picked_forecast ob f = (f', Ok out) /\ run_transform ex_transform ob X_pick = Ok Xp1 /\ piecewise_options (o_trend ob) 25 (4 / 5) false /\
    map fst (p_effects (ft_prepared f)) = ["web"] /\ max_time (map snd (p_index (ft_prepared f))) = Ok 1%Z /\ index_series (labeller_of two_config f ex_yh) = [["a"]; ["b"]] /\ forall q, In q [["a"]; ["b"]] -> scale_of (ft_scale f) q = Some (u q).
Proof.
  split; [exact (proj1 pick_training)|]. split; [reflexivity|]. split; [exact (proj1 pick_wf)|]. split; [exact pick_copyable|]. split; [exact two_clean|]. split; [repeat constructor; simpl; intuition discriminate|].
  split; [exact yh_balanced|]. split; [exact docs_days2|]. split; [exact docs_count2|]. split; [reflexivity|]. split; [exact (proj2 pick_training)|]. split; [exact (proj2 pick_wf)|]. do 4 (split; [reflexivity|]). exact picked_runs.
Qed.
(** No exogenous data, a weekly seasonality. *)
Example C112_without_columns_nonvacuous : given_training None ex_yh Xb0 /\ run_fit_transform ex_fit_transform (no_objects None) Xb0 = (no_objects None, Ok Xb0) /\ frame_wf Xb0 /\ NoDup (map (String.concat "-") (series_ids Xb0)) /\
  clean_config week_config /\ distinct_names week_config /\ fh_to_index ex_yh (Relative [1; 2]%Z) = Ok [2; 3]%Z /\ given_forecast None ex_yh [2; 3]%Z Xb1 /\ frame_wf Xb1 /\ series_ids Xb1 = series_ids Xb0 /\ covers Xb1 [2; 3]%Z /\ first_date (dates Xb0 ["b"]) 0 /\
  exists ob f f' out u, week_fit = (ob, Ok f) /\ weekly_forecast ob f = (f', Ok out) /\ o_transformer ob = None /\ piecewise_options (o_trend ob) 25 (4 / 5) false /\
    map fst (p_effects (ft_prepared f)) = ["season"] /\ max_time (map snd (p_index (ft_prepared f))) = Ok 1%Z /\ index_series (labeller_of week_config f ex_yh) = [["a"]; ["b"]] /\ forall q, In q [["a"]; ["b"]] -> scale_of (ft_scale f) q = Some (u q).
Proof.
  split; [exact week_training|]. split; [reflexivity|]. split; [exact (proj1 blank_wf0)|]. split; [repeat constructor; simpl; intuition discriminate|]. split; [exact week_clean|]. split; [repeat constructor; simpl; intuition discriminate|].
  split; [reflexivity|]. split; [exact week_forecast|]. split; [exact (proj2 blank_wf0)|]. do 2 (split; [reflexivity|]). split; [split; [cbn; auto|]; cbn; intros t [<-|[<-|[]]]; lia|]. exact weekly_runs.
Qed.
