(** Property C91 (well-posed panels can be fitted and forecast).  The section variables stand for pandas,
    the feature transformer and the inference engine; [order] is the order in which Python enumerates a set
    of strings. *)
From Coq Require Import Reals String Bool ZArith List Permutation.
From Verif.Model Require Import Base Num XFloat Frame Arr Aggregate Scale Prog Likelihood Effect Engine Predict Forecaster Tensors.
From Verif.Spec Require Import FrameSpec ScaleSpec TrendSpec ProgSpec ForecasterSpec SiteSpec PosteriorSpec TotalSpec PanelSpec.
From Verif.Facts Require Import EffectExamples ForecasterExamples EngineExamples HistoryExamples ComponentExamples InsampleExamples PanelForecast PanelTotalExamples TotalSitesExamples PanelSites PanelSitesExamples.
Import ListNotations.
Local Open Scope string_scope.

Section Any.
Variable ns_of : Z -> Z.
Variable order : list string -> list string.
Hypothesis Order : forall l, Permutation (order l) l.
Variable keep : path -> bool.
Context {TS : Type}.
Variable tr_fit_transform : TS -> frame R -> TS * res (frame R).
Variable tr_transform : TS -> frame R -> res (frame R).
Context {P : Type}.
Variable svi_run : Z -> nat -> nat -> prog arr -> res (list xr * P).
Variable nuts_run : Z -> nat -> nat -> nat -> prog arr -> res (nat -> nat -> env).
Variable latent_sites : prog arr -> list string.
Variable guide_draw : P -> Z -> nat -> prog arr -> env.
Variable complete_draw : env -> Z -> nat -> prog arr -> env.
Notation fit_forecaster := (fit_forecaster ns_of order keep tr_fit_transform svi_run nuts_run latent_sites).
Notation infer := (infer svi_run nuts_run latent_sites).
Notation forecast_samples := (forecast_samples ns_of keep tr_transform guide_draw complete_draw).
Notation forecast_point := (forecast_point ns_of keep tr_transform guide_draw complete_draw).
Notation forecast_quantiles := (forecast_quantiles ns_of keep tr_transform guide_draw complete_draw).
Notation draws := (draws guide_draw complete_draw).

(** * C91 *)
(** Fitting a well-posed panel reaches the inference engine, with a model that can be run for all values of
    the latent variables.  Whatever the engine answers, error or posterior, is the outcome of the fit. *)
Theorem C91_fit : forall c (ob : objects (TS := TS)) ids times y X, well_posed_panel ns_of c ids times y X -> clean_config c -> o_transformer ob = None ->
  exists ob' s p m, fit_forecaster c ob y X = (ob', post <- infer (engine_of c) m ;; Ok (mkFitted s p post)) /\
    forall env, exists o tr, run env [] m = Ok (o, tr).
Proof.
  intros c ob ids times y X W CL T. destruct (fit_panel_total ns_of order Order keep tr_fit_transform svi_run nuts_run latent_sites c ob ids times y X W CL T) as (ob' & tab & p & m & cols & H1 & H2 & _).
  exists ob', (STable tab), p, m. auto.
Qed.

(** Once fitted, every horizon without repeated dates can be forecast: the result has one row for each series
    and for each total kept by the aggregation at each date, and no other rows. *)
Theorem C91_forecast : forall c (ob0 ob : objects (TS := TS)) ids times y X f X2 fh cutoff, well_posed_panel ns_of c ids times y X -> clean_config c -> o_transformer ob0 = None ->
  fit_forecaster c ob0 y X = (ob, Ok f) ->
  max_time times = Ok cutoff -> NoDup (to_absolute cutoff fh) -> to_absolute cutoff fh <> [] ->
  panel_future ids (used_cols X) y (to_absolute cutoff fh) X2 ->
  ~ In "obs" (latent_of (ft_posterior f)) ->
  (forall m, draws (engine_of c) (ft_posterior f) m <> []) ->
  exists f' F, forecast_samples c ob f y X2 fh = (f', Ok F) /\ full_panel keep ids (to_absolute cutoff fh) F.
Proof. exact (forecast_panel_total ns_of order Order keep tr_fit_transform tr_transform svi_run nuts_run latent_sites guide_draw complete_draw). Qed.

(** The same for point forecasts and for quantiles at levels between 0 and 1. *)
Theorem C91_methods : forall c (ob0 ob : objects (TS := TS)) ids times y X f X2 fh cutoff, well_posed_panel ns_of c ids times y X -> clean_config c -> o_transformer ob0 = None ->
  fit_forecaster c ob0 y X = (ob, Ok f) ->
  max_time times = Ok cutoff -> NoDup (to_absolute cutoff fh) -> to_absolute cutoff fh <> [] ->
  panel_future ids (used_cols X) y (to_absolute cutoff fh) X2 ->
  ~ In "obs" (latent_of (ft_posterior f)) ->
  (forall m, draws (engine_of c) (ft_posterior f) m <> []) ->
  (exists f' F, forecast_point c ob f y X2 fh = (f', Ok F) /\ full_panel keep ids (to_absolute cutoff fh) F) /\
  (forall alpha, (forall a, In a alpha -> (0 <= a <= 1)%R) ->
    exists f' q, forecast_quantiles c ob f y X2 fh alpha = (f', Ok q) /\ full_panel keep ids (to_absolute cutoff fh) (q_frame q)).
Proof. exact (forecast_panel_methods ns_of order Order keep tr_fit_transform tr_transform svi_run nuts_run latent_sites guide_draw complete_draw). Qed.

(** The component tables of a panel can be computed, too: [predict_all_sites] has one row for each series and
    each date, and [predict_all_sites_samples] one for each draw, series and date.  The target has no totals
    of its own here, and the latent sites kept by the inference are the sample sites of the fitted model. *)
Theorem C91_components : forall c (ob0 ob : objects (TS := TS)) ids times y X f X2 fh cutoff, well_posed_panel ns_of c ids times y X -> clean_config c ->
  (forall r, In r (f_rows y) -> ~ In "__total" (r_path r)) -> o_transformer ob0 = None ->
  fit_forecaster c ob0 y X = (ob, Ok f) ->
  (forall ys p m, scale_y (discrete c) (ft_scale f) y = Ok ys -> fit_data ns_of order keep tr_fit_transform c ob0 (ft_scale f) ys X = (ob, Ok (p, m)) -> posterior_sites (latent_sites m) m) ->
  max_time times = Ok cutoff -> NoDup (to_absolute cutoff fh) -> to_absolute cutoff fh <> [] ->
  panel_future ids (used_cols X) y (to_absolute cutoff fh) X2 ->
  ~ In "obs" (latent_of (ft_posterior f)) ->
  (forall m, draws (engine_of c) (ft_posterior f) m <> []) ->
  (exists f' F, forecast_all_sites ns_of keep tr_transform guide_draw complete_draw c ob f y X2 fh = (f', Ok F) /\
    NoDup (labels F) /\ forall q t, In (q, t) (labels F) <-> In q ids /\ In t (to_absolute cutoff fh)) /\
  (exists f' m cols rows pids, predict_model ns_of keep tr_transform c ob f y X2 fh = Ok m /\
    forecast_all_sites_samples ns_of keep tr_transform guide_draw complete_draw c ob f y X2 fh = (f', Ok (cols, rows)) /\ Permutation pids ids /\
    map (fun r => (sr_sample r, (sr_path r, sr_time r))) rows = list_prod (seq 0 (List.length (draws (engine_of c) (ft_posterior f) m))) (list_prod pids (to_absolute cutoff fh))).
Proof. exact (panel_sites_total ns_of order Order keep tr_fit_transform tr_transform svi_run nuts_run latent_sites guide_draw complete_draw). Qed.
End Any.
Print Assumptions C91_components.
Print Assumptions C91_fit.
Print Assumptions C91_forecast.
Print Assumptions C91_methods.

(** Two series with two dates, with and without their totals; a trend with changepoints, a seasonality, a linear
    effect, a shared column. *)
Example C91_nonvacuous_fit trend likelihood method y X : In trend ["linear"; "linear_raw"; "logistic"] -> In y [ex_yh; ex_yt] -> In X [None; Some ex_Xh] ->
  well_posed_panel ex_ns (posed_config trend likelihood method) [["a"]; ["b"]] [0; 1]%Z y X /\ clean_config (posed_config trend likelihood method).
Proof. intros HT HY HX. split; [exact (panel_posed trend likelihood method y X HT HY HX)|exact (posed_clean trend likelihood method)]. Qed.
(** its forecast for the two days that follow: without exogenous data, with new and with known columns *)
Example C91_nonvacuous_forecast trend likelihood y (X X2 : option (frame R)) : In trend ["linear"; "linear_raw"; "logistic"] -> In y [ex_yh; ex_yt] ->
  In (X, X2) [(None, None); (None, Some ex_X2); (Some ex_Xh, Some ex_X2)] ->
  exists ob f f' F, posed_fit trend likelihood y X = (ob, Ok f) /\
    forecast_samples ex_ns keep_all ex_transform ex_guide ex_complete (posed_config trend likelihood "mcmc") ob f y X2 (Relative [1; 2]%Z) = (f', Ok F) /\
    full_panel keep_all [["a"]; ["b"]] [2; 3]%Z F.
Proof. exact (panel_example trend likelihood y X X2). Qed.

(** its component tables: four rows, and eight rows of draws *)
Example C91_nonvacuous_components trend likelihood (X X2 : option (frame R)) : In trend ["linear"; "linear_raw"; "logistic"] -> In (X, X2) [(None, None); (None, Some ex_X2); (Some ex_Xh, Some ex_X2)] ->
  exists ob f, panel_sites_fit trend likelihood X = (ob, Ok f) /\
    (forall ys p m, scale_y (discrete (posed_config trend likelihood "mcmc")) (ft_scale f) ex_yh = Ok ys ->
      fit_data ex_ns sorted_sets keep_all ex_fit_transform (posed_config trend likelihood "mcmc") (no_objects None) (ft_scale f) ys X = (ob, Ok (p, m)) -> posterior_sites (model_latent m) m) /\
    ~ In "obs" (latent_of (ft_posterior f)) /\
    (exists f' F, forecast_all_sites ex_ns keep_all ex_transform ex_guide ex_complete (posed_config trend likelihood "mcmc") ob f ex_yh X2 (Relative [1; 2]%Z) = (f', Ok F) /\
      NoDup (labels F) /\ forall q t, In (q, t) (labels F) <-> In q [["a"]; ["b"]] /\ In t [2; 3]%Z) /\
    (exists f' cols rows pids, forecast_all_sites_samples ex_ns keep_all ex_transform ex_guide ex_complete (posed_config trend likelihood "mcmc") ob f ex_yh X2 (Relative [1; 2]%Z) = (f', Ok (cols, rows)) /\
      Permutation pids [["a"]; ["b"]] /\ map (fun r => (sr_sample r, (sr_path r, sr_time r))) rows = list_prod [0; 1] (list_prod pids [2; 3]%Z)).
Proof. exact (panel_sites_example trend likelihood X X2). Qed.
