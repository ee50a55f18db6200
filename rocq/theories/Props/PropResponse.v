(** C104: the recorded components of the effects, as functions of the columns, the trend and the parameters. *)
From Coq Require Import Reals Lra String Bool ZArith List Sorted Permutation.
From Verif.Model Require Import Base Num XFloat Frame Arr Expand Aggregate Scale Prog Likelihood Effect Trend TrendProg Engine Forecaster.
From Verif.Spec Require Import RegexSpec FrameSpec TrendSpec ProgSpec ForecasterSpec AlignSpec SiteSpec ShapeSpec OverlapSpec ResponseSpec.
From Verif.Facts Require Import EffectExamples ForecasterExamples EngineExamples HistoryExamples ComponentExamples CounterExamples OverlapExamples TotalExamples DocsExamples
  ResponseEffects ResponseForecaster ResponseHierarchical ResponseExamples ResponseTraining InsampleExamples ObservedExamples.
Import ListNotations.
Local Open Scope string_scope.

Section Any.
Variable ns_of : Z -> Z.
Variable order : list string -> list string.
Variable keep : path -> bool.
Context {TS : Type}.
Variable tr_fit_transform : TS -> frame R -> TS * res (frame R).
Variable tr_transform : TS -> frame R -> res (frame R).
Context {P : Type}.
Variable svi_run : Z -> nat -> nat -> prog arr -> res (list xr * P).
Variable nuts_run : Z -> nat -> nat -> nat -> prog arr -> res (nat -> nat -> env).
Variable latent_sites : prog arr -> list string.
Notation fit_forecaster := (fit_forecaster ns_of order keep tr_fit_transform svi_run nuts_run latent_sites).
Notation predict_model := (predict_model ns_of keep tr_transform).
Notation fit_data := (fit_data ns_of order keep tr_fit_transform).

(** * C104 *)
(** The component recorded under the name of an effect is, at every forecast date, the formula of the
    effect's class applied to the values which the (transformed) exogenous data have at this date in the effect's columns,
    to the trend component and to the effect's own parameters; these parameters have the priors of the configured effect.
    Seasonalities count the days from the first training date.
    Here for a single series ([f_levels y = 0], univariate class); the configured effect is a listed one or the default,
    which columns it has is C40. *)
Theorem C104_univariate : forall c ob y X ob' (f : fitted (P := P)) t0, fit_forecaster c ob y X = (ob', Ok f) -> c_hier c = false -> f_levels y = 0 -> frame_wf y -> clean_config c ->
  scalar_piecewise (o_trend ob') \/ flat_trend (o_trend ob') -> (forall Z, X = Some Z -> frame_wf Z) -> (forall s Z s' Z', frame_wf Z -> tr_fit_transform s Z = (s', Ok Z') -> frame_wf Z') ->
  first_date (map r_time (f_rows y)) t0 ->
  forall y2 X2 fh m cutoff ts Xt, predict_model c ob' f y2 X2 fh = Ok m -> max_time (map r_time (f_rows y2)) = Ok cutoff -> to_absolute cutoff fh = ts ->
  run_transform tr_transform ob' (supplied X2 ts) = Ok Xt -> covers Xt ts -> frame_wf Xt -> f_levels Xt = 0 -> ts <> [] -> in_order ts ->
  forall e o tr, run e [] m = Ok (o, tr) ->
  exists tv, dict_get tr "trend" = Some (SDet tv) /\
  forall name ef, In (name, ef) (p_effects (ft_prepared f)) ->
    exists ef0 cols w, configured c name ef0 /\ In (name, ef, cols) (p_fitted (ft_prepared f)) /\ dict_get tr name = Some (SDet w) /\
    (forall j t r, nth_error ts j = Some t -> In r (f_rows Xt) -> r_time r = t ->
       exists x trend v, values_at Xt r cols x /\ nth_error (a_flat tv) j = Some trend /\ nth_error (a_flat w) j = Some v /\ answers e name (fun k => k) ef0 x (t - t0) trend v) /\
    priors e name 1 ef0 tr (List.length cols).
Proof. exact (c104_univariate ns_of order keep tr_fit_transform tr_transform svi_run nuts_run latent_sites). Qed.

(** Panels: the component of series [i] at date [j] is the formula applied to the values in the row of this series and date.
    Columns which are not shared exist once for every series, and a copy counts only in the rows of its own series; a
    seasonality has its own coefficients for every series, and the days are counted from the first date which the exogenous
    data of the fit have for the series.  (The number of the coefficient of wave k of series i is
    [wave_numbers ef k * series + i], where [wave_numbers ef] is a permutation that depends on the fitted effect only: it is the
    same for every draw, for the training program and for every forecast.) *)
Theorem C104_hierarchical (Order : forall l, Permutation (order l) l) : forall c ob y Z0 ob' (f : fitted (P := P)), fit_forecaster c ob y (Some Z0) = (ob', Ok f) -> c_hier c = true -> f_levels y <> 0 -> frame_wf y ->
  (forall r, In r (f_rows y) -> ~ In "__total" (r_path r)) -> clean_config c -> scalar_piecewise (o_trend ob') -> o_transformer ob = None -> frame_wf Z0 -> f_levels Z0 <> 0 -> f_cols Z0 <> [] ->
  forall shared, (match c_shared c with None => [] | Some l => l end) = shared -> copyable shared (f_cols Z0) (bottom_series Z0) ->
  forall y2 X2 fh m cutoff ts, predict_model c ob' f y2 (Some X2) fh = Ok m -> max_time (map snd (p_index (ft_prepared f))) = Ok cutoff -> to_absolute cutoff fh = ts ->
  frame_wf X2 -> f_levels X2 <> 0 -> f_cols X2 = f_cols Z0 -> bottom_series X2 = bottom_series Z0 -> covers X2 ts -> ts <> [] -> in_order ts ->
  forall e o tr, run e [] m = Ok (o, tr) ->
  exists tv, dict_get tr "trend" = Some (SDet tv) /\
  forall name ef, In (name, ef) (p_effects (ft_prepared f)) ->
    exists ef0 cols w, configured c name ef0 /\ In (name, ef, cols) (p_fitted (ft_prepared f)) /\ dict_get tr name = Some (SDet w) /\ numbering ef0 (wave_numbers ef) /\
    (forall i j t r t0, nth_error (bottom_series X2) i = Some (r_path r) -> nth_error ts j = Some t -> In r (f_rows X2) -> r_time r = t -> first_date (dates Z0 (r_path r)) t0 ->
       exists x trend v, Forall2 (seen shared (bottom_series X2) X2 r) cols x /\ nth_error (a_flat tv) (i * List.length ts + j) = Some trend /\ nth_error (a_flat w) (i * List.length ts + j) = Some v /\
         answers e name (fun k => wave_numbers ef k * List.length (bottom_series X2) + i) ef0 x (t - t0) trend v) /\
    priors e name (List.length (bottom_series X2)) ef0 tr (List.length cols).
Proof. exact (c104_hierarchical ns_of order Order keep tr_fit_transform tr_transform svi_run nuts_run latent_sites). Qed.
(** Panels with a feature transformer, with or without exogenous data: what the transformer was given and what it
    returned ([Zt] for the fit, [Xt] for the forecast) are named; here it returned columns. *)
Theorem C104_transformed (Order : forall l, Permutation (order l) l) : forall c ob y X0 ob' (f : fitted (P := P)), fit_forecaster c ob y X0 = (ob', Ok f) -> c_hier c = true -> f_levels y <> 0 -> frame_wf y ->
  (forall r, In r (f_rows y) -> ~ In "__total" (r_path r)) -> clean_config c -> scalar_piecewise (o_trend ob') ->
  forall B0 ob1 Zt, given_training X0 y B0 -> run_fit_transform tr_fit_transform ob B0 = (ob1, Ok Zt) -> frame_wf Zt -> f_levels Zt <> 0 -> f_rows Zt <> [] -> f_cols Zt <> [] ->
  forall shared, (match c_shared c with None => [] | Some l => l end) = shared -> copyable shared (f_cols Zt) (series_ids Zt) ->
  forall y2 X2 fh m cutoff ts B Xt, predict_model c ob' f y2 X2 fh = Ok m -> max_time (map snd (p_index (ft_prepared f))) = Ok cutoff -> to_absolute cutoff fh = ts ->
  given_forecast X2 y2 ts B -> run_transform tr_transform ob' B = Ok Xt -> frame_wf Xt -> f_levels Xt <> 0 -> f_cols Xt = f_cols Zt -> series_ids Xt = series_ids Zt -> covers Xt ts -> ts <> [] -> in_order ts ->
  forall e o tr, run e [] m = Ok (o, tr) ->
  exists tv, dict_get tr "trend" = Some (SDet tv) /\
  forall name ef, In (name, ef) (p_effects (ft_prepared f)) ->
    exists ef0 cols w, configured c name ef0 /\ In (name, ef, cols) (p_fitted (ft_prepared f)) /\ dict_get tr name = Some (SDet w) /\ numbering ef0 (wave_numbers ef) /\
    (forall i j t r t0, nth_error (series_ids Xt) i = Some (r_path r) -> nth_error ts j = Some t -> In r (f_rows Xt) -> r_time r = t -> first_date (dates Zt (r_path r)) t0 ->
       exists x trend v, Forall2 (seen shared (series_ids Xt) Xt r) cols x /\ nth_error (a_flat tv) (i * List.length ts + j) = Some trend /\ nth_error (a_flat w) (i * List.length ts + j) = Some v /\
         answers e name (fun k => wave_numbers ef k * List.length (series_ids Xt) + i) ef0 x (t - t0) trend v) /\
    priors e name (List.length (series_ids Xt)) ef0 tr (List.length cols).
Proof. exact (c104_transformed ns_of order Order keep tr_fit_transform tr_transform svi_run nuts_run latent_sites). Qed.

(** Panels without columns (the transformer, if any, returned none): the effects that take part have no columns either, and
    their components depend on the date, the series and their parameters only.  (The forecast then does not call the
    transformer.) *)
Theorem C104_without_columns (Order : forall l, Permutation (order l) l) : forall c ob y X0 ob' (f : fitted (P := P)), fit_forecaster c ob y X0 = (ob', Ok f) -> c_hier c = true -> f_levels y <> 0 -> frame_wf y ->
  (forall r, In r (f_rows y) -> ~ In "__total" (r_path r)) -> clean_config c -> scalar_piecewise (o_trend ob') ->
  forall B0 ob1 Zt, given_training X0 y B0 -> run_fit_transform tr_fit_transform ob B0 = (ob1, Ok Zt) -> frame_wf Zt -> f_levels Zt <> 0 -> f_rows Zt <> [] -> f_cols Zt = [] -> NoDup (map (String.concat "-") (series_ids Zt)) ->
  forall y2 X2 fh m cutoff ts B, predict_model c ob' f y2 X2 fh = Ok m -> max_time (map snd (p_index (ft_prepared f))) = Ok cutoff -> to_absolute cutoff fh = ts ->
  given_forecast X2 y2 ts B -> frame_wf B -> f_levels B <> 0 -> series_ids B = series_ids Zt -> covers B ts -> ts <> [] -> in_order ts ->
  forall e o tr, run e [] m = Ok (o, tr) ->
  exists tv, dict_get tr "trend" = Some (SDet tv) /\
  forall name ef, In (name, ef) (p_effects (ft_prepared f)) ->
    exists ef0 w, configured c name ef0 /\ In (name, ef, []) (p_fitted (ft_prepared f)) /\ dict_get tr name = Some (SDet w) /\ numbering ef0 (wave_numbers ef) /\
    (forall i j p t t0, nth_error (series_ids Zt) i = Some p -> nth_error ts j = Some t -> first_date (dates Zt p) t0 ->
       exists trend v, nth_error (a_flat tv) (i * List.length ts + j) = Some trend /\ nth_error (a_flat w) (i * List.length ts + j) = Some v /\
         answers e name (fun k => wave_numbers ef k * List.length (series_ids Zt) + i) ef0 [] (t - t0) trend v) /\
    priors e name (List.length (series_ids Zt)) ef0 tr 0.
Proof. exact (c104_bare ns_of order Order keep tr_fit_transform tr_transform svi_run nuts_run latent_sites). Qed.
(** Training: the components which the trained program records are the formulas too, at the dates of [y]; this program is
    the one that the inference engine was given.  (A transformer which, once fitted, maps the exogenous data of the fit as it
    did when it was fitted.) *)
Theorem C104_training (Transformers : forall s X s' X', tr_fit_transform s X = (s', Ok X') -> tr_transform s' X = Ok X' /\ labels X' = labels X) : forall c ob y X ob' (f : fitted (P := P)) t0, fit_forecaster c ob y X = (ob', Ok f) -> c_hier c = false -> f_levels y = 0 -> frame_wf y -> clean_config c ->
  scalar_piecewise (o_trend ob') \/ flat_trend (o_trend ob') -> match X with None => True | Some X => frame_wf X /\ f_levels X = 0 /\ ascending (labels X) end -> (forall s Z s' Z', frame_wf Z -> tr_fit_transform s Z = (s', Ok Z') -> frame_wf Z') ->
  first_date (map r_time (f_rows y)) t0 -> ascending (labels y) ->
  forall ts Xt, map r_time (f_rows y) = ts -> in_order ts -> run_transform tr_transform ob' (supplied X ts) = Ok Xt -> covers Xt ts -> frame_wf Xt -> f_levels Xt = 0 ->
  exists ys m, scale_y (discrete c) (ft_scale f) y = Ok ys /\ fit_data c ob (ft_scale f) ys X = (ob', Ok (ft_prepared f, m)) /\ infer svi_run nuts_run latent_sites (engine_of c) m = Ok (ft_posterior f) /\
  forall e o tr, run e [] m = Ok (o, tr) ->
  exists tv, dict_get tr "trend" = Some (SDet tv) /\
  forall name ef, In (name, ef) (p_effects (ft_prepared f)) ->
    exists ef0 cols w, configured c name ef0 /\ In (name, ef, cols) (p_fitted (ft_prepared f)) /\ dict_get tr name = Some (SDet w) /\
    (forall j t r, nth_error ts j = Some t -> In r (f_rows Xt) -> r_time r = t ->
       exists x trend v, values_at Xt r cols x /\ nth_error (a_flat tv) j = Some trend /\ nth_error (a_flat w) j = Some v /\ answers e name (fun k => k) ef0 x (t - t0) trend v) /\
    priors e name 1 ef0 tr (List.length cols).
Proof. exact (c104_training ns_of order keep tr_fit_transform tr_transform Transformers svi_run nuts_run latent_sites). Qed.
Theorem C104_panel_training (Order : forall l, Permutation (order l) l) (Transformers : forall s X s' X', tr_fit_transform s X = (s', Ok X') -> tr_transform s' X = Ok X' /\ labels X' = labels X) : forall c ob y Z0 ob' (f : fitted (P := P)), fit_forecaster c ob y (Some Z0) = (ob', Ok f) -> c_hier c = true -> f_levels y <> 0 -> frame_wf y ->
  (forall r, In r (f_rows y) -> ~ In "__total" (r_path r)) -> clean_config c -> scalar_piecewise (o_trend ob') -> o_transformer ob = None -> frame_wf Z0 -> f_levels Z0 <> 0 -> f_cols Z0 <> [] ->
  forall shared, (match c_shared c with None => [] | Some l => l end) = shared -> copyable shared (f_cols Z0) (bottom_series Z0) ->
  forall ts, time_ids y = ts -> covers Z0 ts -> in_order ts ->
  exists ys m, scale_y (discrete c) (ft_scale f) y = Ok ys /\ fit_data c ob (ft_scale f) ys (Some Z0) = (ob', Ok (ft_prepared f, m)) /\ infer svi_run nuts_run latent_sites (engine_of c) m = Ok (ft_posterior f) /\
  forall e o tr, run e [] m = Ok (o, tr) ->
  exists tv, dict_get tr "trend" = Some (SDet tv) /\
  forall name ef, In (name, ef) (p_effects (ft_prepared f)) ->
    exists ef0 cols w, configured c name ef0 /\ In (name, ef, cols) (p_fitted (ft_prepared f)) /\ dict_get tr name = Some (SDet w) /\ numbering ef0 (wave_numbers ef) /\
    (forall i j t r t0, nth_error (bottom_series Z0) i = Some (r_path r) -> nth_error ts j = Some t -> In r (f_rows Z0) -> r_time r = t -> first_date (dates Z0 (r_path r)) t0 ->
       exists x trend v, Forall2 (seen shared (bottom_series Z0) Z0 r) cols x /\ nth_error (a_flat tv) (i * List.length ts + j) = Some trend /\ nth_error (a_flat w) (i * List.length ts + j) = Some v /\
         answers e name (fun k => wave_numbers ef k * List.length (bottom_series Z0) + i) ef0 x (t - t0) trend v) /\
    priors e name (List.length (bottom_series Z0)) ef0 tr (List.length cols).
Proof. exact (c104_panel_training ns_of order Order keep tr_fit_transform tr_transform Transformers svi_run nuts_run latent_sites). Qed.
End Any.

(** ** The documented seasonality (docs/the-theory.md)
    With one period the component is the documented sum of K cosines and K sines; [a k] is the coefficient of wave 2k-1
    and [b k] that of wave 2k-2. *)
Theorem C104_documented : forall e name place P K sg arg b ff x0 l x t trend v, P <> 0%R -> answers e name place (Fourier [P] [K] sg arg b ff x0 l) x t trend v ->
  exists m, mode_named arg m /\ v = modal m trend (documented K P (fun k => parameter e name "coefs" (place (2 * k - 1))) (fun k => parameter e name "coefs" (place (2 * k - 2))) (IZR t)).
Proof. exact answers_documented. Qed.
(** The coefficients are 2K independent normals around zero for every one of the [n] series. *)
Theorem C104_documented_priors : forall e name n P K sg arg b ff x0 l tr k, P <> 0%R -> priors e name n (Fourier [P] [K] sg arg b ff x0 l) tr k ->
  has_prior e name tr "coefs" (DNormal (scalar 0) (scalar sg)) [2 * K * n].
Proof. intros e name n P K sg arg b ff x0 l tr k NP (hs & H & HP). rewrite (one_period _ _ _ NP H), map_length, seq_length in HP. exact HP. Qed.

Print Assumptions C104_univariate.
Print Assumptions C104_hierarchical.
Print Assumptions C104_transformed.
Print Assumptions C104_without_columns.
Print Assumptions C104_training.
Print Assumptions C104_panel_training.
Print Assumptions C104_documented.
Print Assumptions C104_documented_priors.

(** A trend with two changepoints, a linear effect, a seasonality and a Hill effect: all hypotheses hold, all three effects
    take part, and the saturation component of the days 0, 7 and 14 (web = 10, 20, 30, all parameters one) is 10/11, 20/21, 30/31. *)
Example C104_nonvacuous : forall trend, In trend ["linear"; "linear_raw"; "logistic"] -> exists ob f m o tr w, total_fit trend "normal" "mcmc" = (ob, Ok f) /\ frame_wf ex_y /\ clean_config (docs_config trend) /\
  scalar_piecewise (o_trend ob) /\ frame_wf Xu /\ (forall s Z s' Z', frame_wf Z -> ex_fit_transform s Z = (s', Ok Z') -> frame_wf Z') /\ first_date (map r_time (f_rows ex_y)) 0 /\
  predict_model ex_ns keep_all ex_transform (docs_config trend) ob f ex_y (Some Xd) hd3 = Ok m /\ run_transform ex_transform ob (supplied (Some Xd) [0; 7; 14]%Z) = Ok Xd /\ covers Xd [0; 7; 14]%Z /\ frame_wf Xd /\ in_order [0; 7; 14]%Z /\
  run one [] m = Ok (o, tr) /\ (forall l, In l [linear_tv; season; hill_web] -> exists ef, In (l_name l, ef) (p_effects (ft_prepared f))) /\
  dict_get tr "sat" = Some (SDet w) /\ nth_error (a_flat w) 0 = Some (10 / 11)%R /\ nth_error (a_flat w) 1 = Some (20 / 21)%R /\ nth_error (a_flat w) 2 = Some (30 / 31)%R.
Proof.
  intros trend HT. destruct (docs_example trend HT) as (ob & f & m & o & tr & HF & HM & RU). destruct (docs_saturation trend HT ob f m o tr HF HM RU) as (w & G & W). exists ob, f, m, o, tr, w.
  split; [exact HF|]. split; [exact docs_y_wf|]. split; [apply total_clean|]. split; [exact (docs_piecewise trend HT ob f HF)|]. split; [exact docs_x_wf|]. split; [exact docs_transformer|]. split; [exact docs_first|].
  split; [exact HM|]. split; [exact (docs_no_transformer _ _ _ HF)|]. split; [exact docs_covers|]. split; [exact docs_wf|]. split; [exact docs_order|]. split; [exact RU|].
  split; [intros l Hl; exact (docs_used trend ob f l HF Hl)|]. split; [exact G|exact W].
Qed.
(** Two series, days 0 and 1, forecasts for the days 2 and 3; both columns are copied for each series.  With all parameters
    one the component tv is 1, 7 for the first series and 0 for the second: its own values (the copies for the other series
    do not count). *)
Example C104_hierarchical_nonvacuous : copyable [] (f_cols ex_Xh) (bottom_series ex_Xh) /\ frame_wf ex_Xh /\ frame_wf ex_X2 /\ frame_wf ex_yh /\ (forall r, In r (f_rows ex_yh) -> ~ In "__total" (r_path r)) /\ clean_config two_config /\
  bottom_series ex_X2 = bottom_series ex_Xh /\ bottom_series ex_X2 = [["a"]; ["b"]] /\ covers ex_X2 [2; 3]%Z /\ in_order [2; 3]%Z /\ (forall p, In p (bottom_series ex_Xh) -> first_date (dates ex_Xh p) 0) /\
  exists ob f m o tr, two_fit = (ob, Ok f) /\ o_transformer ob = None /\ scalar_piecewise (o_trend ob) /\ max_time (map snd (p_index (ft_prepared f))) = Ok 1%Z /\
  predict_model ex_ns keep_all ex_transform two_config ob f ex_yh (Some ex_X2) (Relative [1; 2]%Z) = Ok m /\ run one [] m = Ok (o, tr) /\
  map fst (p_effects (ft_prepared f)) = ["tv"; "web"] /\ map fe_cols (p_fitted (ft_prepared f)) = [["tv_dup_a"; "tv_dup_b"]; ["web_dup_a"; "web_dup_b"]] /\
  seen_in (Some tr) "tv" 0 = Some 1%R /\ seen_in (Some tr) "tv" 1 = Some 7%R /\ seen_in (Some tr) "tv" 2 = Some 0%R.
Proof.
  split; [exact panel_copyable|]. split; [exact Xh_wf|]. split; [exact X2_wf|]. split; [exact yh_wf|]. split; [exact yh_no_total|]. split; [exact two_clean|]. do 2 (split; [reflexivity|]).
  split; [apply X2_covers|]. split; [repeat constructor|]. split; [exact panel_first|exact panel_example].
Qed.
(** A transformer that keeps the column web: the component web of the first series is 5, 6, that of the second begins with 7. *)
Example C104_transformed_nonvacuous : given_training (Some ex_Xh) ex_yh ex_Xh /\ run_fit_transform ex_fit_transform (no_objects (Some false)) ex_Xh = (no_objects (Some false), Ok Xp0) /\ frame_wf Xp0 /\ copyable [] (f_cols Xp0) (series_ids Xp0) /\
  given_forecast (Some X_pick) ex_yh [2; 3]%Z X_pick /\ frame_wf Xp1 /\ f_cols Xp1 = f_cols Xp0 /\ series_ids Xp1 = series_ids Xp0 /\ covers Xp1 [2; 3]%Z /\ frame_wf ex_yh /\ (forall r, In r (f_rows ex_yh) -> ~ In "__total" (r_path r)) /\ clean_config two_config /\
  exists ob f m o tr, pick_fit = (ob, Ok f) /\ run_transform ex_transform ob X_pick = Ok Xp1 /\ scalar_piecewise (o_trend ob) /\ max_time (map snd (p_index (ft_prepared f))) = Ok 1%Z /\
  predict_model ex_ns keep_all ex_transform two_config ob f ex_yh (Some X_pick) (Relative [1; 2]%Z) = Ok m /\ run one [] m = Ok (o, tr) /\
  map fst (p_effects (ft_prepared f)) = ["web"] /\ map fe_cols (p_fitted (ft_prepared f)) = [[]; ["web_dup_a"; "web_dup_b"]] /\
  seen_in (Some tr) "web" 0 = Some 5%R /\ seen_in (Some tr) "web" 1 = Some 6%R /\ seen_in (Some tr) "web" 2 = Some 7%R.
Proof.
  split; [exact (proj1 pick_training)|]. split; [reflexivity|]. split; [exact (proj1 pick_wf)|]. split; [exact pick_copyable|]. split; [exact (proj2 pick_training)|]. split; [exact (proj2 pick_wf)|]. do 3 (split; [reflexivity|]).
  split; [exact yh_wf|]. split; [exact yh_no_total|]. split; [exact two_clean|exact pick_example].
Qed.
(** Without exogenous data a weekly seasonality takes part. *)
Example C104_without_columns_nonvacuous : given_training None ex_yh Xb0 /\ run_fit_transform ex_fit_transform (no_objects None) Xb0 = (no_objects None, Ok Xb0) /\ frame_wf Xb0 /\ NoDup (map (String.concat "-") (series_ids Xb0)) /\
  given_forecast None ex_yh [2; 3]%Z Xb1 /\ frame_wf Xb1 /\ series_ids Xb1 = series_ids Xb0 /\ series_ids Xb0 = [["a"]; ["b"]] /\ covers Xb1 [2; 3]%Z /\ first_date (dates Xb0 ["b"]) 0 /\ clean_config week_config /\
  exists ob f m o tr, week_fit = (ob, Ok f) /\ o_transformer ob = None /\ scalar_piecewise (o_trend ob) /\ max_time (map snd (p_index (ft_prepared f))) = Ok 1%Z /\ map fst (p_effects (ft_prepared f)) = ["season"] /\
  predict_model ex_ns keep_all ex_transform week_config ob f ex_yh None (Relative [1; 2]%Z) = Ok m /\ run one [] m = Ok (o, tr).
Proof.
  split; [exact week_training|]. split; [reflexivity|]. split; [exact (proj1 blank_wf0)|]. split; [repeat constructor; simpl; intuition discriminate|]. split; [exact week_forecast|]. split; [exact (proj2 blank_wf0)|].
  do 3 (split; [reflexivity|]). split; [split; [cbn; auto|]; cbn; intros t [<-|[<-|[]]]; Lia.lia|]. split; [exact week_clean|exact week_example].
Qed.
(** Training on the days 0, 1 and 7 (tv = 1, 2, 3; web = 10, 20, 30), with all parameters one. *)
Example C104_training_nonvacuous : (forall s X s' X', ex_fit_transform s X = (s', Ok X') -> ex_transform s' X = Ok X' /\ labels X' = labels X) /\ frame_wf ex_y /\ ascending (labels ex_y) /\ frame_wf Xu /\ ascending (labels Xu) /\ covers Xu [0; 1; 7]%Z /\ in_order [0; 1; 7]%Z /\
  clean_config (comp_config "normal") /\ exists ob f ys m o tr, comp_fit "normal" = (ob, Ok f) /\ flat_trend (o_trend ob) /\ run_transform ex_transform ob (supplied (Some Xu) [0; 1; 7]%Z) = Ok Xu /\ map fst (p_effects (ft_prepared f)) = ["tv"; "exogenous_variables_effect"] /\
  scale_y (discrete (comp_config "normal")) (ft_scale f) ex_y = Ok ys /\ fit_data ex_ns sorted_sets keep_all ex_fit_transform (comp_config "normal") (no_objects None) (ft_scale f) ys (Some Xu) = (ob, Ok (ft_prepared f, m)) /\ run one [] m = Ok (o, tr) /\
  seen_in (Some tr) "tv" 2 = Some 3%R /\ seen_in (Some tr) "exogenous_variables_effect" 1 = Some 20%R.
Proof.
  split; [exact ex_transformers|]. do 2 (split; [apply ex_y_ascending|]). do 2 (split; [apply Xu_ascending|]). split; [reflexivity|]. split; [repeat constructor|]. split; [apply comp_clean|].
  destruct (comp_trained "normal" ltac:(simpl; auto)) as (ob & f & ys & m & o & tr & HF & FT & _ & PE & SY & FD & RU & CT). destruct (steps_univariate "normal" ltac:(simpl; auto)) as (ob1 & f1 & _ & _ & _ & _ & _ & _ & HF1 & TR & _). rewrite HF in HF1. injection HF1 as <- <-.
  exists ob, f, ys, m, o, tr. do 2 (split; [assumption|]). split; [unfold run_transform; rewrite TR; reflexivity|]. do 4 (split; [assumption|]). rewrite <- CT. split; compute_real.
Qed.
Example C104_panel_training_nonvacuous : time_ids ex_yh = [0; 1]%Z /\ covers ex_Xh [0; 1]%Z /\ in_order [0; 1]%Z /\ copyable [] (f_cols ex_Xh) (bottom_series ex_Xh) /\ frame_wf ex_Xh /\ frame_wf ex_yh /\ (forall r, In r (f_rows ex_yh) -> ~ In "__total" (r_path r)) /\ clean_config two_config /\
  exists ob f ys m o tr, two_fit = (ob, Ok f) /\ scalar_piecewise (o_trend ob) /\ map fst (p_effects (ft_prepared f)) = ["tv"; "web"] /\
  scale_y (discrete two_config) (ft_scale f) ex_yh = Ok ys /\ fit_data ex_ns sorted_sets keep_all ex_fit_transform two_config (no_objects None) (ft_scale f) ys (Some ex_Xh) = (ob, Ok (ft_prepared f, m)) /\ run one [] m = Ok (o, tr).
Proof.
  split; [reflexivity|]. split; [reflexivity|]. split; [repeat constructor|]. split; [exact panel_copyable|]. split; [exact Xh_wf|]. split; [exact yh_wf|]. split; [exact yh_no_total|]. split; [exact two_clean|].
  destruct two_trained as (ob & f & k1 & k2 & ys & m & o & tr & HF & SP & _ & PE & SY & FD & RU & _). exists ob, f, ys, m, o, tr. do 5 (split; [assumption|]). exact RU.
Qed.
