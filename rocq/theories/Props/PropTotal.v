(** Properties C78 (well-posed problems can be fitted and forecast) and C79 (all draws of a forecast
    record the same sites with the same shapes).  The section variables stand for pandas, the feature
    transformer and the inference engine. *)
From Coq Require Import Reals Lra String Bool ZArith List Permutation.
From Verif.Model Require Import Base Num XFloat Frame Arr Aggregate Scale Prog Likelihood Effect Engine Predict Forecaster.
From Verif.Spec Require Import FrameSpec ScaleSpec TrendSpec ProgSpec ForecasterSpec SiteSpec PosteriorSpec TotalSpec.
From Verif.Facts Require Import EffectExamples ForecasterExamples EngineExamples HistoryExamples ComponentExamples TotalForecast TotalExamples TotalSites TotalSitesExamples TotalTransformed TotalTransformedExamples TotalTransformedSites TotalTransformedSitesExamples.
Import ListNotations.
Local Open Scope string_scope.

Section Any.
Variable ns_of : Z -> Z.
Variable order : list string -> list string.
Variable keep : path -> bool.
Context {TS : Type}.
Variable tr_fit_transform : TS -> frame R -> TS * res (frame R).
Variable tr_transform : TS -> frame R -> res (frame R).
Context {P : Type}.
Variable svi_run : Z -> nat -> nat -> prog arr -> res (list xr * P).
Variable nuts_run : Z -> nat -> nat -> nat -> prog arr -> res (nat -> nat -> env).
Variable latent_sites : prog arr -> list string.
Variable guide_draw : P -> Z -> nat -> prog arr -> env.
Variable complete_draw : env -> Z -> nat -> prog arr -> env.
Notation fit_forecaster := (fit_forecaster ns_of order keep tr_fit_transform svi_run nuts_run latent_sites).
Notation fit_data := (fit_data ns_of order keep tr_fit_transform).
Notation infer := (infer svi_run nuts_run latent_sites).
Notation predict_model := (predict_model ns_of keep tr_transform).
Notation forecast_samples := (forecast_samples ns_of keep tr_transform guide_draw complete_draw).
Notation forecast_point := (forecast_point ns_of keep tr_transform guide_draw complete_draw).
Notation forecast_quantiles := (forecast_quantiles ns_of keep tr_transform guide_draw complete_draw).
Notation forecast_all_sites := (forecast_all_sites ns_of keep tr_transform guide_draw complete_draw).
Notation forecast_all_sites_samples := (forecast_all_sites_samples ns_of keep tr_transform guide_draw complete_draw).
Notation draws := (draws guide_draw complete_draw).
Notation engine_predict := (engine_predict guide_draw complete_draw).

(** * C78 *)
(** Fitting a well-posed problem reaches the inference engine, with a model that can be run for all
    values of the latent variables (positive ones, for the half-max of Hill effects).  Whatever the
    engine answers, error or posterior, is the outcome of the fit. *)
Theorem C78_fit : forall c (ob : objects (TS := TS)) y X, well_posed ns_of c y X -> clean_config c -> hill_data c X -> o_transformer ob = None ->
  exists ob' s p m, fit_forecaster c ob y X = (ob', post <- infer (engine_of c) m ;; Ok (mkFitted s p post)) /\
    forall env, hill_values_positive c env -> exists o tr, run env [] m = Ok (o, tr).
Proof.
  intros c ob y X W CL HD T. destruct (fit_total ns_of order keep tr_fit_transform svi_run nuts_run latent_sites c ob y X W CL HD T) as (ob' & s & p & m & H1 & H2 & _).
  exists ob', s, p, m. auto.
Qed.

(** Once fitted, every horizon without repeated dates can be forecast, if the exogenous data has rows for
    all its dates and the columns of the fit (or there was no exogenous data): one row for each date. *)
Theorem C78_forecast : forall c ob0 ob y X f X2 fh cutoff, well_posed ns_of c y X -> clean_config c -> hill_data c X -> o_transformer ob0 = None ->
  fit_forecaster c ob0 y X = (ob, Ok f) ->
  max_time (map r_time (f_rows y)) = Ok cutoff -> NoDup (to_absolute cutoff fh) -> hill_data c X2 ->
  match X2 with None => exog_cols X = [] | Some X2 => covers X2 (to_absolute cutoff fh) /\ forall x, In x (exog_cols X) -> In x (f_cols X2) end ->
  ~ In "obs" (latent_of (ft_posterior f)) ->
  (forall m, draws (engine_of c) (ft_posterior f) m <> [] /\
     forall e, In e (draws (engine_of c) (ft_posterior f) m) -> hill_values_positive c e) ->
  exists F, forecast_samples c ob f y X2 fh = (f, Ok F) /\ Permutation (map r_time (f_rows F)) (to_absolute cutoff fh).
Proof. exact (forecast_total ns_of order keep tr_fit_transform tr_transform svi_run nuts_run latent_sites guide_draw complete_draw). Qed.

(** The same for point forecasts and for quantiles at levels between 0 and 1. *)
Theorem C78_methods : forall c ob0 ob y X f X2 fh cutoff, well_posed ns_of c y X -> clean_config c -> hill_data c X -> o_transformer ob0 = None ->
  fit_forecaster c ob0 y X = (ob, Ok f) ->
  max_time (map r_time (f_rows y)) = Ok cutoff -> NoDup (to_absolute cutoff fh) -> hill_data c X2 ->
  match X2 with None => exog_cols X = [] | Some X2 => covers X2 (to_absolute cutoff fh) /\ forall x, In x (exog_cols X) -> In x (f_cols X2) end ->
  ~ In "obs" (latent_of (ft_posterior f)) ->
  (forall m, draws (engine_of c) (ft_posterior f) m <> [] /\
     forall e, In e (draws (engine_of c) (ft_posterior f) m) -> hill_values_positive c e) ->
  (exists F, forecast_point c ob f y X2 fh = (f, Ok F) /\ Permutation (map r_time (f_rows F)) (to_absolute cutoff fh)) /\
  (forall alpha, (forall a, In a alpha -> (0 <= a <= 1)%R) ->
    exists q, forecast_quantiles c ob f y X2 fh alpha = (f, Ok q) /\ Permutation (map r_time (f_rows (q_frame q))) (to_absolute cutoff fh)).
Proof. exact (forecast_total_methods ns_of order keep tr_fit_transform tr_transform svi_run nuts_run latent_sites guide_draw complete_draw). Qed.

(** The same for the tables of all components: means have one row for each date, samples one row for each draw and
    date, in this order.  (Here the posterior must have all the sample sites of the trained model that are not observed:
    what is missing would be drawn again with its own shape, and would not fit into the table.) *)
Theorem C78_components : forall c ob0 ob y X f X2 fh cutoff, well_posed ns_of c y X -> clean_config c -> hill_data c X -> o_transformer ob0 = None ->
  fit_forecaster c ob0 y X = (ob, Ok f) ->
  (forall ys p m, scale_y (discrete c) (ft_scale f) y = Ok ys -> fit_data c ob0 (ft_scale f) ys X = (ob, Ok (p, m)) -> posterior_sites (latent_sites m) m) ->
  max_time (map r_time (f_rows y)) = Ok cutoff -> NoDup (to_absolute cutoff fh) -> hill_data c X2 ->
  match X2 with None => exog_cols X = [] | Some X2 => covers X2 (to_absolute cutoff fh) /\ forall x, In x (exog_cols X) -> In x (f_cols X2) end ->
  ~ In "obs" (latent_of (ft_posterior f)) ->
  (forall m, draws (engine_of c) (ft_posterior f) m <> [] /\
     forall e, In e (draws (engine_of c) (ft_posterior f) m) -> hill_values_positive c e) ->
  (exists F, forecast_all_sites c ob f y X2 fh = (f, Ok F) /\ Permutation (map r_time (f_rows F)) (to_absolute cutoff fh)) /\
  (exists m cols rows, predict_model c ob f y X2 fh = Ok m /\ forecast_all_sites_samples c ob f y X2 fh = (f, Ok (cols, rows)) /\
    map (fun r => (sr_sample r, sr_time r)) rows = list_prod (seq 0 (List.length (draws (engine_of c) (ft_posterior f) m))) (to_absolute cutoff fh)).
Proof. exact (sites_total ns_of order keep tr_fit_transform tr_transform svi_run nuts_run latent_sites guide_draw complete_draw). Qed.

(** With a feature transformer: it is given the exogenous data, or a frame without columns that has the index of the target.
    The problem has to be well posed for what it returns ([Xt]), and [Xt] has to keep the columns of [X], which the trend asks
    for (see C70). *)
Theorem C78_transformed_fit : forall c (ob : objects (TS := TS)) y X Xt tf tf', well_posed ns_of c y (Some Xt) -> clean_config c -> hill_data c (Some Xt) -> o_transformer ob = Some tf ->
  tr_fit_transform tf (match X with None => empty_frame (f_levels y) (index_of y) | Some X => X end) = (tf', Ok Xt) -> (forall x, In x (exog_cols X) -> In x (f_cols Xt)) ->
  exists ob' s p m, fit_forecaster c ob y X = (ob', post <- infer (engine_of c) m ;; Ok (mkFitted s p post)) /\
    forall env, hill_values_positive c env -> exists o tr, run env [] m = Ok (o, tr).
Proof.
  intros c ob y X Xt tf tf' W CL HD T TF IC. destruct (fit_transformed ns_of order keep tr_fit_transform svi_run nuts_run latent_sites c ob y X Xt tf tf' W CL HD T TF IC) as (ob' & s & p & m & H1 & H2 & _).
  exists ob', s, p, m. auto.
Qed.
(** Forecasts: [Xt2] is what the fitted transformer returns for the forecast. *)
Theorem C78_transformed_forecast : forall c ob0 ob y X Xt tf tf' f X2 Xt2 fh cutoff, well_posed ns_of c y (Some Xt) -> clean_config c -> hill_data c (Some Xt) -> o_transformer ob0 = Some tf ->
  tr_fit_transform tf (match X with None => empty_frame (f_levels y) (index_of y) | Some X => X end) = (tf', Ok Xt) -> (forall x, In x (exog_cols X) -> In x (f_cols Xt)) ->
  fit_forecaster c ob0 y X = (ob, Ok f) ->
  max_time (map r_time (f_rows y)) = Ok cutoff -> NoDup (to_absolute cutoff fh) ->
  tr_transform tf' (match X2 with None => empty_frame 0 (map (fun t => ([], t)) (to_absolute cutoff fh)) | Some X2 => X2 end) = Ok Xt2 ->
  hill_data c (Some Xt2) -> covers Xt2 (to_absolute cutoff fh) -> (forall x, In x (f_cols Xt) -> In x (f_cols Xt2)) ->
  ~ In "obs" (latent_of (ft_posterior f)) ->
  (forall m, draws (engine_of c) (ft_posterior f) m <> [] /\
     forall e, In e (draws (engine_of c) (ft_posterior f) m) -> hill_values_positive c e) ->
  exists F, forecast_samples c ob f y X2 fh = (f, Ok F) /\ Permutation (map r_time (f_rows F)) (to_absolute cutoff fh).
Proof. exact (forecast_transformed ns_of order keep tr_fit_transform tr_transform svi_run nuts_run latent_sites guide_draw complete_draw). Qed.
Theorem C78_transformed_methods : forall c ob0 ob y X Xt tf tf' f X2 Xt2 fh cutoff, well_posed ns_of c y (Some Xt) -> clean_config c -> hill_data c (Some Xt) -> o_transformer ob0 = Some tf ->
  tr_fit_transform tf (match X with None => empty_frame (f_levels y) (index_of y) | Some X => X end) = (tf', Ok Xt) -> (forall x, In x (exog_cols X) -> In x (f_cols Xt)) ->
  fit_forecaster c ob0 y X = (ob, Ok f) ->
  max_time (map r_time (f_rows y)) = Ok cutoff -> NoDup (to_absolute cutoff fh) ->
  tr_transform tf' (match X2 with None => empty_frame 0 (map (fun t => ([], t)) (to_absolute cutoff fh)) | Some X2 => X2 end) = Ok Xt2 ->
  hill_data c (Some Xt2) -> covers Xt2 (to_absolute cutoff fh) -> (forall x, In x (f_cols Xt) -> In x (f_cols Xt2)) ->
  ~ In "obs" (latent_of (ft_posterior f)) ->
  (forall m, draws (engine_of c) (ft_posterior f) m <> [] /\
     forall e, In e (draws (engine_of c) (ft_posterior f) m) -> hill_values_positive c e) ->
  (exists F, forecast_point c ob f y X2 fh = (f, Ok F) /\ Permutation (map r_time (f_rows F)) (to_absolute cutoff fh)) /\
  (forall alpha, (forall a, In a alpha -> (0 <= a <= 1)%R) ->
    exists q, forecast_quantiles c ob f y X2 fh alpha = (f, Ok q) /\ Permutation (map r_time (f_rows (q_frame q))) (to_absolute cutoff fh)).
Proof. exact (forecast_transformed_methods ns_of order keep tr_fit_transform tr_transform svi_run nuts_run latent_sites guide_draw complete_draw). Qed.

Theorem C78_transformed_components : forall c ob0 ob y X Xt tf tf' f X2 Xt2 fh cutoff, well_posed ns_of c y (Some Xt) -> clean_config c -> hill_data c (Some Xt) -> o_transformer ob0 = Some tf ->
  tr_fit_transform tf (match X with None => empty_frame (f_levels y) (index_of y) | Some X => X end) = (tf', Ok Xt) -> (forall x, In x (exog_cols X) -> In x (f_cols Xt)) ->
  fit_forecaster c ob0 y X = (ob, Ok f) ->
  (forall ys p m, scale_y (discrete c) (ft_scale f) y = Ok ys -> fit_data c ob0 (ft_scale f) ys X = (ob, Ok (p, m)) -> posterior_sites (latent_sites m) m) ->
  max_time (map r_time (f_rows y)) = Ok cutoff -> NoDup (to_absolute cutoff fh) ->
  tr_transform tf' (match X2 with None => empty_frame 0 (map (fun t => ([], t)) (to_absolute cutoff fh)) | Some X2 => X2 end) = Ok Xt2 ->
  hill_data c (Some Xt2) -> covers Xt2 (to_absolute cutoff fh) -> (forall x, In x (f_cols Xt) -> In x (f_cols Xt2)) ->
  ~ In "obs" (latent_of (ft_posterior f)) ->
  (forall m, draws (engine_of c) (ft_posterior f) m <> [] /\
     forall e, In e (draws (engine_of c) (ft_posterior f) m) -> hill_values_positive c e) ->
  (exists F, forecast_all_sites c ob f y X2 fh = (f, Ok F) /\ Permutation (map r_time (f_rows F)) (to_absolute cutoff fh)) /\
  (exists m cols rows, predict_model c ob f y X2 fh = Ok m /\ forecast_all_sites_samples c ob f y X2 fh = (f, Ok (cols, rows)) /\
    map (fun r => (sr_sample r, sr_time r)) rows = list_prod (seq 0 (List.length (draws (engine_of c) (ft_posterior f) m))) (to_absolute cutoff fh)).
Proof. exact (sites_transformed ns_of order keep tr_fit_transform tr_transform svi_run nuts_run latent_sites guide_draw complete_draw). Qed.

(** * C79 *)
(** Any two runs of the model of a prediction record the same sites, in the same order, with the same
    shapes (both classes, all trends and effects). *)
Theorem C79_runs : forall c ob0 ob y X f ob2 y2 X2 fh m, fit_forecaster c ob0 y X = (ob, Ok f) -> clean_config c ->
  predict_model c ob2 f y2 X2 fh = Ok m ->
  forall e e' o o' tr tr', run e [] m = Ok (o, tr) -> run e' [] m = Ok (o', tr') -> layout tr = layout tr'.
Proof. exact (c79_runs ns_of order keep tr_fit_transform tr_transform svi_run nuts_run latent_sites). Qed.

(** So the draws can always be stacked: the engine returns, for every deterministic or drawn site, an
    array whose first axis counts the draws. *)
Theorem C79_stack : forall c ob0 ob y X f ob2 y2 X2 fh m, fit_forecaster c ob0 y X = (ob, Ok f) -> clean_config c ->
  predict_model c ob2 f y2 X2 fh = Ok m ->
  let ds := draws (engine_of c) (ft_posterior f) m in
  ds <> [] -> (forall e, In e ds -> exists o, yields e m o) ->
  exists d, engine_predict (engine_of c) (ft_posterior f) m = Ok d /\
    forall e o tr, In e ds -> run e [] m = Ok (o, tr) ->
      map (fun x => (fst x, a_shape (snd x))) d = map (fun x => (fst x, List.length ds :: snd x)) (layout (filter (returned (latent_of (ft_posterior f))) tr)).
Proof. exact (c79_stack ns_of order keep tr_fit_transform tr_transform svi_run nuts_run latent_sites guide_draw complete_draw). Qed.
End Any.
Print Assumptions C78_fit.
Print Assumptions C78_forecast.
Print Assumptions C78_methods.
Print Assumptions C78_components.
Print Assumptions C78_transformed_fit.
Print Assumptions C78_transformed_forecast.
Print Assumptions C78_transformed_methods.
Print Assumptions C78_transformed_components.
Print Assumptions C79_runs.
Print Assumptions C79_stack.

(** every built-in trend and likelihood with a Fourier seasonality, a linear and a Hill effect *)
Example C78_nonvacuous_fit : forall trend likelihood method,
  In trend ["linear"; "linear_raw"; "flat"; "logistic"] -> In likelihood ["normal"; "gamma"; "negbinomial"] ->
  well_posed ex_ns (total_config trend likelihood method) ex_y (Some Xu) /\ clean_config (total_config trend likelihood method) /\
  effects_of (total_config trend likelihood method) = [linear_tv; season; hill_web].
Proof. intros t l m Ht Hl. split; [exact (total_posed t l m Ht Hl)|]. split; [exact (total_clean t l m)|reflexivity]. Qed.
Example C78_nonvacuous_forecast : forall trend likelihood,
  In trend ["linear"; "linear_raw"; "flat"; "logistic"] -> In likelihood ["normal"; "gamma"; "negbinomial"] ->
  exists ob f F, total_fit trend likelihood "mcmc" = (ob, Ok f) /\
    forecast_samples ex_ns keep_all ex_transform ex_guide ex_complete (total_config trend likelihood "mcmc") ob f ex_y (Some Xf) (Relative [1; 2]%Z) = (f, Ok F) /\
    Permutation (map r_time (f_rows F)) [8; 9]%Z.
Proof. exact total_example. Qed.
(** ... and the tables of its components *)
Example C78_nonvacuous_components : forall trend likelihood,
  In trend ["linear"; "linear_raw"; "flat"; "logistic"] -> In likelihood ["normal"; "gamma"; "negbinomial"] ->
  exists ob f, sites_fit trend likelihood = (ob, Ok f) /\
    (forall ys p m, scale_y (discrete (total_config trend likelihood "mcmc")) (ft_scale f) ex_y = Ok ys ->
      fit_data ex_ns sorted_sets keep_all ex_fit_transform (total_config trend likelihood "mcmc") (no_objects None) (ft_scale f) ys (Some Xu) = (ob, Ok (p, m)) -> posterior_sites (model_latent m) m) /\
    ~ In "obs" (latent_of (ft_posterior f)) /\
    (exists F, forecast_all_sites ex_ns keep_all ex_transform ex_guide ex_complete (total_config trend likelihood "mcmc") ob f ex_y (Some Xf) (Relative [1; 2]%Z) = (f, Ok F) /\
      Permutation (map r_time (f_rows F)) [8; 9]%Z) /\
    (exists cols rows, forecast_all_sites_samples ex_ns keep_all ex_transform ex_guide ex_complete (total_config trend likelihood "mcmc") ob f ex_y (Some Xf) (Relative [1; 2]%Z) = (f, Ok (cols, rows)) /\
      map (fun r => (sr_sample r, sr_time r)) rows = [(0, 8%Z); (0, 9%Z); (1, 8%Z); (1, 9%Z)]).
Proof.
  intros t l Ht Hl. refine (sites_example t l Xf (Relative [1; 2]%Z) Ht Hl _ _ _ _).
  - apply total_hill. cbn. intros r v [<-|[<-|[]]] [<-|[<-|[]]]; lra.
  - repeat constructor; simpl; intuition discriminate.
  - split; [intros r [<-|[<-|[]]]; split; reflexivity|]. split; [reflexivity|]. split; [|cbn; tauto]. repeat constructor; simpl; intuition discriminate.
  - cbn. tauto.
Qed.
(** a transformer that adds the column web to data with the column tv *)
Example C78_nonvacuous_transformed : forall trend likelihood,
  In trend ["linear"; "linear_raw"; "flat"; "logistic"] -> In likelihood ["normal"; "gamma"; "negbinomial"] ->
  well_posed ex_ns (total_config trend likelihood "mcmc") ex_y (Some (widen 6 Xtv)) /\ hill_data (total_config trend likelihood "mcmc") (Some (widen 6 Xtv)) /\
  widen_fit 6 Xtv = (6%R, Ok (widen 6 Xtv)) /\ f_cols Xtv = ["tv"] /\ f_cols (widen 6 Xtv) = ["tv"; "web"] /\
  exists ob f F, wide_fit trend likelihood = (ob, Ok f) /\
    forecast_samples ex_ns keep_all widen_transform ex_guide ex_complete (total_config trend likelihood "mcmc") ob f ex_y (Some Xtv2) (Relative [1; 2]%Z) = (f, Ok F) /\
    Permutation (map r_time (f_rows F)) [8; 9]%Z.
Proof. intros t l Ht Hl. destruct (wide_posed t l Ht Hl) as [W HD]. split; [exact W|]. split; [exact HD|]. do 3 (split; [reflexivity|]). exact (wide_example t l Ht Hl). Qed.
Example C78_nonvacuous_transformed_components : forall trend likelihood,
  In trend ["linear"; "linear_raw"; "flat"; "logistic"] -> In likelihood ["normal"; "gamma"; "negbinomial"] ->
  exists ob f, wide_sites trend likelihood = (ob, Ok f) /\
    (forall ys p m, scale_y (discrete (total_config trend likelihood "mcmc")) (ft_scale f) ex_y = Ok ys ->
      fit_data ex_ns sorted_sets keep_all widen_fit (total_config trend likelihood "mcmc") wide_objects (ft_scale f) ys (Some Xtv) = (ob, Ok (p, m)) -> posterior_sites (model_latent m) m) /\
    ~ In "obs" (latent_of (ft_posterior f)) /\
    (exists F, forecast_all_sites ex_ns keep_all widen_transform ex_guide ex_complete (total_config trend likelihood "mcmc") ob f ex_y (Some Xtv2) (Relative [1; 2]%Z) = (f, Ok F) /\
      Permutation (map r_time (f_rows F)) [8; 9]%Z) /\
    (exists cols rows, forecast_all_sites_samples ex_ns keep_all widen_transform ex_guide ex_complete (total_config trend likelihood "mcmc") ob f ex_y (Some Xtv2) (Relative [1; 2]%Z) = (f, Ok (cols, rows)) /\
      map (fun r => (sr_sample r, sr_time r)) rows = [(0, 8%Z); (0, 9%Z); (1, 8%Z); (1, 9%Z)]).
Proof. exact wide_sites_example. Qed.
(** six draws for a panel of two series *)
Example C79_nonvacuous : clean_config hier_config /\ exists ob f m, panel_fit = (ob, Ok f) /\
  predict_model ex_ns keep_all ex_transform hier_config ob f ex_yh (Some ex_X2) (Relative [1; 2]%Z) = Ok m /\
  List.length (draws ex_guide ex_complete (engine_of hier_config) (ft_posterior f) m) = 6 /\
  forall e, In e (draws ex_guide ex_complete (engine_of hier_config) (ft_posterior f) m) -> exists o, yields e m o.
Proof. split; [exact panel_clean|exact panel_runs]. Qed.
