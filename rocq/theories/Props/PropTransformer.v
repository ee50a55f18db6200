(** Property C92 (a feature transformer acts only through the table it returns).  The section variables stand
    for pandas, the feature transformer and the inference engine; [order] is the order in which Python
    enumerates a set of strings. *)
From Coq Require Import Reals String Bool ZArith List Permutation.
From Verif.Model Require Import Base Num XFloat Frame Arr Aggregate Scale Prog Likelihood Effect TrendProg Engine Predict Forecaster.
From Verif.Spec Require Import FrameSpec ScaleSpec TrendSpec ProgSpec ForecasterSpec SiteSpec TotalSpec PosteriorSpec PanelSpec TransformerSpec.
From Verif.Facts Require Import EffectExamples ForecasterExamples EngineExamples HistoryExamples ComponentExamples TotalExamples PanelTotalExamples
  TransformerFacts TransformerTotal TotalSitesExamples TransformerPanel TransformerPanelExamples TransformerBare TransformerBareExamples TransformerIdentity TransformerIdentityExamples TransformerRaises.
Import ListNotations.
Local Open Scope string_scope.

Section Any.
Variable ns_of : Z -> Z.
Variable order : list string -> list string.
Hypothesis Order : forall l, Permutation (order l) l.
Variable keep : path -> bool.
Context {TS : Type}.
Variable tr_fit_transform : TS -> frame R -> TS * res (frame R).
Variable tr_transform : TS -> frame R -> res (frame R).
Context {P : Type}.
Variable svi_run : Z -> nat -> nat -> prog arr -> res (list xr * P).
Variable nuts_run : Z -> nat -> nat -> nat -> prog arr -> res (nat -> nat -> env).
Variable latent_sites : prog arr -> list string.
Variable guide_draw : P -> Z -> nat -> prog arr -> env.
Variable complete_draw : env -> Z -> nat -> prog arr -> env.
Notation fit_forecaster := (fit_forecaster ns_of order keep tr_fit_transform svi_run nuts_run latent_sites).
Notation infer := (infer svi_run nuts_run latent_sites).
Notation forecast_samples := (forecast_samples ns_of keep tr_transform guide_draw complete_draw).
Notation forecast_point := (forecast_point ns_of keep tr_transform guide_draw complete_draw).
Notation forecast_quantiles := (forecast_quantiles ns_of keep tr_transform guide_draw complete_draw).
Notation forecast_all_sites := (forecast_all_sites ns_of keep tr_transform guide_draw complete_draw).
Notation forecast_all_sites_samples := (forecast_all_sites_samples ns_of keep tr_transform guide_draw complete_draw).
Notation draws := (draws guide_draw complete_draw).
Notation objects := (objects (TS := TS)).
Notation fit_transformed := (fit_transformed keep tr_fit_transform).
Notation future_transformed := (future_transformed keep tr_transform).

(** * C92 *)
(** The fit has the outcome (the fitted forecaster or the error) of a fit without transformer on the table
    which the transformer returned, and the same trend up to the recorded names of columns; the transformer
    is kept in its new state. *)
Theorem C92_fit : forall c (ob : objects) y X tr' X1, fit_transformed c ob y X tr' X1 ->
  snd (fit_forecaster c ob y X) = snd (fit_forecaster c (without_transformer ob) y (Some X1)) /\
  forall f, snd (fit_forecaster c ob y X) = Ok f -> o_transformer (fst (fit_forecaster c ob y X)) = Some tr' /\
    forget_columns (o_trend (fst (fit_forecaster c ob y X))) = forget_columns (o_trend (fst (fit_forecaster c (without_transformer ob) y (Some X1)))).
Proof. exact (transformer_same_fit ns_of order keep tr_fit_transform svi_run nuts_run latent_sites). Qed.

(** So do all kinds of forecasts: they are those without transformer on the table which it returned. *)
Theorem C92_forecast : forall c (ob0 : objects) y X tr X1 ob f ob' X2 fh X21, fit_transformed c ob0 y X tr X1 ->
  fit_forecaster c ob0 y X = (ob, Ok f) -> fst (fit_forecaster c (without_transformer ob0) y (Some X1)) = ob' ->
  future_transformed c f y X X1 tr X2 fh X21 ->
  forecast_samples c ob f y X2 fh = forecast_samples c ob' f y (Some X21) fh /\
  forecast_point c ob f y X2 fh = forecast_point c ob' f y (Some X21) fh /\
  (forall alpha, forecast_quantiles c ob f y X2 fh alpha = forecast_quantiles c ob' f y (Some X21) fh alpha) /\
  forecast_all_sites c ob f y X2 fh = forecast_all_sites c ob' f y (Some X21) fh /\
  forecast_all_sites_samples c ob f y X2 fh = forecast_all_sites_samples c ob' f y (Some X21) fh.
Proof. exact (transformer_same_forecasts ns_of order keep tr_fit_transform tr_transform svi_run nuts_run latent_sites guide_draw complete_draw). Qed.

(** If the transformer raises, so does the fit. *)
Theorem C92_raises : forall c (ob : objects) y X tr tr' X0 e, o_transformer ob = Some tr ->
  transformer_input c (given_table keep c y X) = Ok X0 -> tr_fit_transform tr X0 = (tr', Err e) ->
  exists e', snd (fit_forecaster c ob y X) = Err e'.
Proof. exact (transformer_raises ns_of order keep tr_fit_transform svi_run nuts_run latent_sites). Qed.

(** If the problem with the returned table is well posed (C78, C91), the fit reaches the inference engine ... *)
Theorem C92_total_fit : forall c (ob : objects) y X tr X1, fit_transformed c ob y X tr X1 ->
  (well_posed ns_of c y (Some X1) /\ hill_data c (Some X1) \/ exists ids times, well_posed_panel ns_of c ids times y (Some X1)) -> clean_config c ->
  exists ob' s p m, fit_forecaster c ob y X = (ob', post <- infer (engine_of c) m ;; Ok (mkFitted s p post)) /\
    forall env, hill_values_positive c env -> exists o tr, run env [] m = Ok (o, tr).
Proof. exact (transformed_fit_total ns_of order Order keep tr_fit_transform svi_run nuts_run latent_sites). Qed.

(** ... and every horizon without repeated dates can be forecast, for a single series ... *)
Theorem C92_total_forecast : forall c (ob0 ob : objects) y X tr X1 f X2 fh X21 cutoff, fit_transformed c ob0 y X tr X1 ->
  well_posed ns_of c y (Some X1) -> clean_config c -> hill_data c (Some X1) ->
  fit_forecaster c ob0 y X = (ob, Ok f) -> future_transformed c f y X X1 tr X2 fh X21 ->
  max_time (map r_time (f_rows y)) = Ok cutoff -> NoDup (to_absolute cutoff fh) -> hill_data c (Some X21) ->
  covers X21 (to_absolute cutoff fh) ->
  ~ In "obs" (latent_of (ft_posterior f)) ->
  (forall m, draws (engine_of c) (ft_posterior f) m <> [] /\
     forall e, In e (draws (engine_of c) (ft_posterior f) m) -> hill_values_positive c e) ->
  exists F, forecast_samples c ob f y X2 fh = (f, Ok F) /\ Permutation (map r_time (f_rows F)) (to_absolute cutoff fh).
Proof. exact (transformed_forecast_total ns_of order keep tr_fit_transform tr_transform svi_run nuts_run latent_sites guide_draw complete_draw). Qed.

(** ... and for a panel. *)
Theorem C92_total_panel : forall c (ob0 ob : objects) ids times y X tr X1 f X2 fh X21 cutoff, fit_transformed c ob0 y X tr X1 ->
  well_posed_panel ns_of c ids times y (Some X1) -> clean_config c ->
  fit_forecaster c ob0 y X = (ob, Ok f) -> future_transformed c f y X X1 tr X2 fh X21 ->
  max_time times = Ok cutoff -> NoDup (to_absolute cutoff fh) -> to_absolute cutoff fh <> [] ->
  panel_future ids (f_cols X1) y (to_absolute cutoff fh) (Some X21) ->
  ~ In "obs" (latent_of (ft_posterior f)) ->
  (forall m, draws (engine_of c) (ft_posterior f) m <> []) ->
  exists f' F, forecast_samples c ob f y X2 fh = (f', Ok F) /\ full_panel keep ids (to_absolute cutoff fh) F.
Proof. exact (transformed_panel_total ns_of order Order keep tr_fit_transform tr_transform svi_run nuts_run latent_sites guide_draw complete_draw). Qed.
(** Point forecasts, quantiles and component tables of a panel.  (The latter for targets without totals, and an engine whose
    posterior names the sample sites of the trained model, as in C91.) *)
Theorem C92_total_panel_methods : forall c (ob0 ob : objects) ids times y X tr X1 f X2 fh X21 cutoff, fit_transformed c ob0 y X tr X1 ->
  well_posed_panel ns_of c ids times y (Some X1) -> clean_config c ->
  fit_forecaster c ob0 y X = (ob, Ok f) -> future_transformed c f y X X1 tr X2 fh X21 ->
  max_time times = Ok cutoff -> NoDup (to_absolute cutoff fh) -> to_absolute cutoff fh <> [] ->
  panel_future ids (f_cols X1) y (to_absolute cutoff fh) (Some X21) ->
  ~ In "obs" (latent_of (ft_posterior f)) ->
  (forall m, draws (engine_of c) (ft_posterior f) m <> []) ->
  (exists f' F, forecast_point c ob f y X2 fh = (f', Ok F) /\ full_panel keep ids (to_absolute cutoff fh) F) /\
  (forall alpha, (forall a, In a alpha -> (0 <= a <= 1)%R) ->
    exists f' q, forecast_quantiles c ob f y X2 fh alpha = (f', Ok q) /\ full_panel keep ids (to_absolute cutoff fh) (q_frame q)).
Proof. exact (transformed_panel_methods ns_of order Order keep tr_fit_transform tr_transform svi_run nuts_run latent_sites guide_draw complete_draw). Qed.
Theorem C92_total_panel_components : forall c (ob0 ob : objects) ids times y X tr X1 f X2 fh X21 cutoff, fit_transformed c ob0 y X tr X1 ->
  well_posed_panel ns_of c ids times y (Some X1) -> clean_config c ->
  fit_forecaster c ob0 y X = (ob, Ok f) -> future_transformed c f y X X1 tr X2 fh X21 ->
  max_time times = Ok cutoff -> NoDup (to_absolute cutoff fh) -> to_absolute cutoff fh <> [] ->
  panel_future ids (f_cols X1) y (to_absolute cutoff fh) (Some X21) ->
  ~ In "obs" (latent_of (ft_posterior f)) ->
  (forall m, draws (engine_of c) (ft_posterior f) m <> []) ->
  (forall r, In r (f_rows y) -> ~ In "__total" (r_path r)) ->
  (forall ob' ys p m, scale_y (discrete c) (ft_scale f) y = Ok ys ->
    fit_data ns_of order keep tr_fit_transform c (without_transformer ob0) (ft_scale f) ys (Some X1) = (ob', Ok (p, m)) -> posterior_sites (latent_sites m) m) ->
  (exists f' F, forecast_all_sites c ob f y X2 fh = (f', Ok F) /\
    NoDup (labels F) /\ forall q t, In (q, t) (labels F) <-> In q ids /\ In t (to_absolute cutoff fh)) /\
  (exists f' m cols rows pids, predict_model ns_of keep tr_transform c (fst (fit_forecaster c (without_transformer ob0) y (Some X1))) f y (Some X21) fh = Ok m /\
    forecast_all_sites_samples c ob f y X2 fh = (f', Ok (cols, rows)) /\ Permutation pids ids /\
    map (fun r => (sr_sample r, (sr_path r, sr_time r))) rows = list_prod (seq 0 (List.length (draws (engine_of c) (ft_posterior f) m))) (list_prod pids (to_absolute cutoff fh))).
Proof. exact (transformed_panel_components ns_of order Order keep tr_fit_transform tr_transform svi_run nuts_run latent_sites guide_draw complete_draw). Qed.
(** HierarchicalProphet without exogenous columns: a transformer that keeps the rows and adds no column leaves
    the fit, and every later forecast with whatever data, as they are without transformer; forecasting
    never asks it, though it has been fitted. *)
Theorem C92_bare : forall c (ob : objects) y X tr tr' X0 X1, c_hier c = true -> o_transformer ob = Some tr ->
  f_cols (given_table keep c y X) = [] -> frame_wf (given_table keep c y X) -> transformer_input c (given_table keep c y X) = Ok X0 ->
  tr_fit_transform tr X0 = (tr', Ok X1) -> keeps_rows X0 X1 -> f_cols X1 = [] ->
  snd (fit_forecaster c ob y X) = snd (fit_forecaster c (without_transformer ob) y X) /\
  forall ob1 ob2 f, fit_forecaster c ob y X = (ob1, Ok f) -> fst (fit_forecaster c (without_transformer ob) y X) = ob2 ->
    o_transformer ob1 = Some tr' /\
    forall X2 fh,
      forecast_samples c ob1 f y X2 fh = forecast_samples c ob2 f y X2 fh /\
      forecast_point c ob1 f y X2 fh = forecast_point c ob2 f y X2 fh /\
      (forall alphas, forecast_quantiles c ob1 f y X2 fh alphas = forecast_quantiles c ob2 f y X2 fh alphas) /\
      forecast_all_sites c ob1 f y X2 fh = forecast_all_sites c ob2 f y X2 fh /\
      forecast_all_sites_samples c ob1 f y X2 fh = forecast_all_sites_samples c ob2 f y X2 fh.
Proof. exact (bare_transformer ns_of order keep tr_fit_transform tr_transform svi_run nuts_run latent_sites guide_draw complete_draw). Qed.
(** Both classes, whatever the trend, the data and the outcome: a transformer that returns the data it is given
    leaves the outcome of the fit (also the error), the trend and every later forecast as they are without
    transformer. *)
Theorem C92_identity : forall c (ob : objects) y X tr, o_transformer ob = Some tr ->
  (forall X0, exists tr', tr_fit_transform tr X0 = (tr', Ok X0) /\ forall X', tr_transform tr' X' = Ok X') ->
  snd (fit_forecaster c ob y X) = snd (fit_forecaster c (without_transformer ob) y X) /\
  o_trend (fst (fit_forecaster c ob y X)) = o_trend (fst (fit_forecaster c (without_transformer ob) y X)) /\
  forall ob1 ob2 f, fit_forecaster c ob y X = (ob1, Ok f) -> fst (fit_forecaster c (without_transformer ob) y X) = ob2 ->
    forall X2 fh,
      forecast_samples c ob1 f y X2 fh = forecast_samples c ob2 f y X2 fh /\
      forecast_point c ob1 f y X2 fh = forecast_point c ob2 f y X2 fh /\
      (forall alphas, forecast_quantiles c ob1 f y X2 fh alphas = forecast_quantiles c ob2 f y X2 fh alphas) /\
      forecast_all_sites c ob1 f y X2 fh = forecast_all_sites c ob2 f y X2 fh /\
      forecast_all_sites_samples c ob1 f y X2 fh = forecast_all_sites_samples c ob2 f y X2 fh.
Proof. exact (identity_transformer ns_of order keep tr_fit_transform tr_transform svi_run nuts_run latent_sites guide_draw complete_draw). Qed.
(** While forecasting, the exception of the transformer is what the caller sees, from all five methods, and the
    fitted forecaster is left as it was.  (HierarchicalProphet asks the transformer only if the fit had
    exogenous columns and the data cover the horizon.) *)
Theorem C92_raises_forecast : forall c (ob : objects) (f : fitted (P := P)) y X2 fh tr times X20 e, o_transformer ob = Some tr -> f_rows y <> [] ->
  (c_hier c = true -> p_has_exogenous (ft_prepared f) = true /\ forall t, In t times -> In t (map r_time (f_rows X20))) ->
  asked c f y fh = Ok times -> transformer_input c (given_future keep c y times X2) = Ok X20 -> tr_transform tr X20 = Err e ->
  forecast_samples c ob f y X2 fh = (f, Err e) /\ forecast_point c ob f y X2 fh = (f, Err e) /\
  (forall alphas, forecast_quantiles c ob f y X2 fh alphas = (f, Err e)) /\
  forecast_all_sites c ob f y X2 fh = (f, Err e) /\ forecast_all_sites_samples c ob f y X2 fh = (f, Err e).
Proof. exact (transformer_raises_forecast ns_of keep tr_transform guide_draw complete_draw). Qed.
End Any.
Print Assumptions C92_fit.
Print Assumptions C92_forecast.
Print Assumptions C92_raises.
Print Assumptions C92_total_fit.
Print Assumptions C92_total_forecast.
Print Assumptions C92_total_panel.
Print Assumptions C92_total_panel_methods.
Print Assumptions C92_total_panel_components.
Print Assumptions C92_bare.
Print Assumptions C92_identity.
Print Assumptions C92_raises_forecast.

(** A transformer which doubles the values of both columns (single series), and one which adds a column with
    the date to a table without columns (panel). *)
Example C92_nonvacuous_fit trend likelihood :
  fit_transformed keep_all tool_fit (total_config trend likelihood "mcmc") (with_tool true) ex_y (Some Xu) (true, true) (doubled Xu) /\
  fit_transformed keep_all tool_fit (posed_config trend likelihood "mcmc") (with_tool false) ex_yh None (false, true) clock_table /\
  doubled Xu <> Xu.
Proof.
  split; [exact (doubled_transformed trend likelihood)|]. split; [exact (clocked_transformed trend likelihood)|].
  intros E. apply (f_equal (fun X => r_vals (hd (mkRow [] 0 []) (f_rows X)))) in E. cbn in E. injection E as E _.
  assert (H : (2 * 1 = 1 -> False)%R) by (intros H; apply (f_equal (fun x => x - 1)%R) in H; ring_simplify in H; exact (R1_neq_R0 H)). exact (H E).
Qed.
Example C92_nonvacuous_posed trend likelihood : In trend ["linear"; "linear_raw"; "logistic"] -> In likelihood ["normal"; "gamma"; "negbinomial"] ->
  well_posed ex_ns (total_config trend likelihood "mcmc") ex_y (Some (doubled Xu)) /\
  well_posed_panel ex_ns (posed_config trend likelihood "mcmc") [["a"]; ["b"]] [0; 1]%Z ex_yh (Some clock_table).
Proof. intros HT HL. split; [apply doubled_posed; [simpl in *; intuition|exact HL]|exact (clocked_posed trend likelihood HT)]. Qed.
Example C92_nonvacuous_forecast trend likelihood : In trend ["linear"; "linear_raw"; "flat"; "logistic"] -> In likelihood ["normal"; "gamma"; "negbinomial"] ->
  exists ob f F, doubled_fit trend likelihood = (ob, Ok f) /\
    future_transformed keep_all tool_apply (total_config trend likelihood "mcmc") f ex_y (Some Xu) (doubled Xu) (true, true) (Some Xf) (Relative [1; 2]%Z) (doubled Xf) /\
    forecast_samples ex_ns keep_all tool_apply ex_guide ex_complete (total_config trend likelihood "mcmc") ob f ex_y (Some Xf) (Relative [1; 2]%Z) = (f, Ok F) /\
    Permutation (map r_time (f_rows F)) [8; 9]%Z.
Proof. exact (doubled_example trend likelihood). Qed.
Example C92_nonvacuous_panel trend likelihood : In trend ["linear"; "linear_raw"; "logistic"] ->
  exists ob f f' F, clocked_fit trend likelihood = (ob, Ok f) /\
    future_transformed keep_all tool_apply (posed_config trend likelihood "mcmc") f ex_yh None clock_table (false, true) None (Relative [1; 2]%Z) clock_future /\
    forecast_samples ex_ns keep_all tool_apply ex_guide ex_complete (posed_config trend likelihood "mcmc") ob f ex_yh None (Relative [1; 2]%Z) = (f', Ok F) /\
    full_panel keep_all [["a"]; ["b"]] [2; 3]%Z F.
Proof. exact (clocked_example trend likelihood). Qed.
Example C92_nonvacuous_panel_components trend likelihood : In trend ["linear"; "linear_raw"; "logistic"] ->
  exists ob f, clocked_sites trend likelihood = (ob, Ok f) /\
    future_transformed keep_all tool_apply (posed_config trend likelihood "mcmc") f ex_yh None clock_table (false, true) None (Relative [1; 2]%Z) clock_future /\
    (forall ob' ys p m, scale_y (discrete (posed_config trend likelihood "mcmc")) (ft_scale f) ex_yh = Ok ys ->
      fit_data ex_ns sorted_sets keep_all tool_fit (posed_config trend likelihood "mcmc") (without_transformer (with_tool false)) (ft_scale f) ys (Some clock_table) = (ob', Ok (p, m)) ->
      posterior_sites (model_latent m) m) /\
    ~ In "obs" (latent_of (ft_posterior f)) /\
    (exists f' F, forecast_all_sites ex_ns keep_all tool_apply ex_guide ex_complete (posed_config trend likelihood "mcmc") ob f ex_yh None (Relative [1; 2]%Z) = (f', Ok F) /\
      NoDup (labels F) /\ forall q t, In (q, t) (labels F) <-> In q [["a"]; ["b"]] /\ In t [2; 3]%Z) /\
    (exists f' cols rows pids, forecast_all_sites_samples ex_ns keep_all tool_apply ex_guide ex_complete (posed_config trend likelihood "mcmc") ob f ex_yh None (Relative [1; 2]%Z) = (f', Ok (cols, rows)) /\
      Permutation pids [["a"]; ["b"]] /\ map (fun r => (sr_sample r, (sr_path r, sr_time r))) rows = list_prod [0; 1] (list_prod pids [2; 3]%Z)).
Proof. exact (clocked_sites_example trend likelihood). Qed.
(** a transformer that cannot be applied *)
Example C92_nonvacuous_raises : exists e', snd (fit_forecaster ex_ns sorted_sets keep_all (fun (s : bool * bool) (_ : frame R) => (s, Err ValueError)) ex_svi ex_nuts comp_latent
  (total_config "linear" "normal" "mcmc") (with_tool true) ex_y (Some Xu)) = Err e'.
Proof. apply (C92_raises ex_ns sorted_sets keep_all _ ex_svi ex_nuts comp_latent _ _ _ _ (true, false) (true, false) Xu ValueError); reflexivity. Qed.
(** the doubling transformer, fitted on a panel without exogenous data; the fit succeeds *)
Example C92_nonvacuous_bare trend likelihood : In trend ["linear"; "linear_raw"; "logistic"] ->
  let bare := mkFrame 1 [] [mkRow ["a"] 0 []; mkRow ["a"] 1 []; mkRow ["b"] 0 []; mkRow ["b"] 1 []] in
  transformer_input (posed_config trend likelihood "mcmc") (given_table keep_all (posed_config trend likelihood "mcmc") ex_yh None) = Ok bare /\
  frame_wf (given_table keep_all (posed_config trend likelihood "mcmc") ex_yh None) /\
  f_cols (given_table keep_all (posed_config trend likelihood "mcmc") ex_yh None) = [] /\
  tool_fit (true, false) bare = ((true, true), Ok bare) /\ keeps_rows bare bare /\
  exists ob f, fit_forecaster ex_ns sorted_sets keep_all tool_fit ex_svi ex_nuts comp_latent (posed_config trend likelihood "mcmc") (with_tool true) ex_yh None = (ob, Ok f) /\
    o_transformer ob = Some (true, true).
Proof. exact (bare_example trend likelihood). Qed.
(** a transformer that has to be fitted and then returns its data, on a panel with two exogenous columns *)
Example C92_nonvacuous_identity trend likelihood : In trend ["linear"; "linear_raw"; "logistic"] ->
  (forall X0, exists tr', same_fit false X0 = (tr', Ok X0) /\ forall X', same_apply tr' X' = Ok X') /\
  exists ob f, fit_forecaster ex_ns sorted_sets keep_all same_fit ex_svi ex_nuts comp_latent (posed_config trend likelihood "mcmc") with_same ex_yh (Some ex_Xh) = (ob, Ok f).
Proof. exact (same_example trend likelihood). Qed.
(** after a fit with two columns, a transformer that rejects tables without columns is asked to forecast without data *)
Example C92_nonvacuous_raises_forecast trend likelihood : In trend ["linear"; "linear_raw"; "flat"; "logistic"] -> In likelihood ["normal"; "gamma"; "negbinomial"] ->
  exists ob f, doubled_fit trend likelihood = (ob, Ok f) /\ o_transformer ob = Some (true, true) /\
    asked (total_config trend likelihood "mcmc") f ex_y (Relative [1; 2]%Z) = Ok [8; 9]%Z /\
    transformer_input (total_config trend likelihood "mcmc") (given_future keep_all (total_config trend likelihood "mcmc") ex_y [8; 9]%Z None) = Ok (mkFrame 0 [] [mkRow [] 8 []; mkRow [] 9 []]%Z) /\
    forecast_point ex_ns keep_all picky_apply ex_guide ex_complete (total_config trend likelihood "mcmc") ob f ex_y None (Relative [1; 2]%Z) = (f, Err ValueError).
Proof. exact (picky_example trend likelihood). Qed.
