(** C103, continued: the trend during training, and the priors of its parameters. *)
From Coq Require Import Reals Lra String Bool ZArith List Sorted.
From Verif.Model Require Import Base Num XFloat Frame Arr Expand Aggregate Scale Prog Likelihood Effect Trend TrendProg Engine Forecaster.
From Verif.Spec Require Import FrameSpec TrendSpec ScaleSpec LineSpec ProgSpec ForecasterSpec SiteSpec ShapeSpec AlignSpec DocsSpec DocsPriorSpec.
From Verif.Facts Require Import EffectExamples ForecasterExamples EngineExamples HistoryExamples AlignExamples ComponentExamples CounterExamples OverlapExamples TotalExamples DocsTrend DocsForecaster DocsFormula DocsExamples
  DocsPriors DocsOffset DocsTrained ObservedExamples.
Import ListNotations.
Local Open Scope string_scope.

Section Any.
Variable ns_of : Z -> Z.
Variable order : list string -> list string.
Variable keep : path -> bool.
Context {TS : Type}.
Variable tr_fit_transform : TS -> frame R -> TS * res (frame R).
Variable tr_transform : TS -> frame R -> res (frame R).
Context {P : Type}.
Variable svi_run : Z -> nat -> nat -> prog arr -> res (list xr * P).
Variable nuts_run : Z -> nat -> nat -> nat -> prog arr -> res (nat -> nat -> env).
Variable latent_sites : prog arr -> list string.
Notation fit_data := (fit_data ns_of order keep tr_fit_transform).
Notation infer := (infer svi_run nuts_run latent_sites).
Notation fit_forecaster := (fit_forecaster ns_of order keep tr_fit_transform svi_run nuts_run latent_sites).
Notation predict_model := (predict_model ns_of keep tr_transform).
Notation day := (fun t => day (ns_of t)).

(** * Training *)
(** The program which the inference of the fit gets: the trend component at the training dates is the same function as in
    forecasts (C103_univariate), and the parameters have the same priors: Laplace rate changes, normal offsets around the
    locations stored by the fit, and the configured capacity. *)
Theorem C103_training : forall c ob y X ob' (f : fitted (P := P)) iv rg lg K, fit_forecaster c ob y X = (ob', Ok f) -> c_hier c = false -> f_levels y = 0 -> clean_config c ->
  piecewise_options (o_trend ob') iv rg lg -> (0 < iv)%R ->
  forall ds, map r_time (f_rows y) = ds -> increasing (map day ds) -> changepoint_count (List.length ds) iv rg K ->
  exists ys m, scale_y (discrete c) (ft_scale f) y = Ok ys /\ fit_data c ob (ft_scale f) ys X = (ob', Ok (ft_prepared f, m)) /\ infer (engine_of c) m = Ok (ft_posterior f) /\
  forall e o tr, run e [] m = Ok (o, tr) ->
  (exists tv, dict_get tr "trend" = Some (SDet tv) /\ forall j t, nth_error ds j = Some t -> nth_error (a_flat tv) j = Some (trend_at e lg K iv 0 (steps (map day ds) (day t)))) /\
  (forall sg, prior_scale_option (o_trend ob') sg -> laplace_prior tr K sg) /\
  (forall locs sg, offset_options (o_trend ob') locs sg -> List.length locs = 1 /\ offset_prior e tr locs sg) /\ (forall d, capacity_option (o_trend ob') d -> capacity_prior e tr 1 d).
Proof. exact (c103_training ns_of order keep tr_fit_transform svi_run nuts_run latent_sites). Qed.

(** Panels whose dates appear in order. *)
Theorem C103_panel_training : forall c ob y X ob' (f : fitted (P := P)) iv rg lg K, fit_forecaster c ob y X = (ob', Ok f) -> c_hier c = true ->
  f_levels y <> 0 -> frame_wf y -> (forall r, In r (f_rows y) -> ~ In "__total" (r_path r)) -> balanced y -> clean_config c ->
  piecewise_options (o_trend ob') iv rg lg -> (0 < iv)%R ->
  forall ds n, StronglySorted Z.lt ds -> time_ids y = ds -> increasing (map day ds) -> changepoint_count (List.length ds) iv rg K -> List.length (series_ids y) = n ->
  exists ys m, scale_y (discrete c) (ft_scale f) y = Ok ys /\ fit_data c ob (ft_scale f) ys X = (ob', Ok (ft_prepared f, m)) /\ infer (engine_of c) m = Ok (ft_posterior f) /\
  forall e o tr, run e [] m = Ok (o, tr) ->
  (exists tv, dict_get tr "trend" = Some (SDet tv) /\ forall i j t, i < n -> nth_error ds j = Some t ->
    nth_error (a_flat tv) (i * List.length ds + j) = Some (trend_at e lg K iv i (steps (map day ds) (day t)))) /\
  (forall sg, prior_scale_option (o_trend ob') sg -> laplace_prior tr (n * K) sg) /\
  (forall locs sg, offset_options (o_trend ob') locs sg -> List.length locs = n /\ offset_prior e tr locs sg) /\ (forall d, capacity_option (o_trend ob') d -> capacity_prior e tr n d).
Proof. exact (c103_panel_training ns_of order keep tr_fit_transform svi_run nuts_run latent_sites). Qed.

(** * Forecasts *)
(** Offsets and capacities have the same priors in every forecast. *)
Theorem C103_priors : forall c ob y X ob' (f : fitted (P := P)), fit_forecaster c ob y X = (ob', Ok f) -> clean_config c ->
  (c_hier c = false -> f_levels y = 0) -> (c_hier c = true -> f_levels y <> 0 /\ frame_wf y /\ forall r, In r (f_rows y) -> ~ In "__total" (r_path r)) ->
  forall n, n = (if c_hier c then List.length (series_ids y) else 1) ->
  forall y2 X2 fh m e o tr, predict_model c ob' f y2 X2 fh = Ok m -> run e [] m = Ok (o, tr) ->
  (forall locs sg, offset_options (o_trend ob') locs sg -> List.length locs = n /\ offset_prior e tr locs sg) /\ (forall d, capacity_option (o_trend ob') d -> capacity_prior e tr n d).
Proof. exact (c103_priors ns_of order keep tr_fit_transform tr_transform svi_run nuts_run latent_sites). Qed.

(** * Where the offset is expected *)
(** One series: with "linear_raw" at the first value of the target, with "linear" at the value of its least squares line on
    the first date; both in units of the scale. *)
Theorem C103_offset_raw : forall c ob y X ob' (f : fitted (P := P)), fit_forecaster c ob y X = (ob', Ok f) -> c_hier c = false -> f_levels y = 0 -> one_column y ->
  2 <= List.length (f_rows y) -> increasing (map day (map r_time (f_rows y))) ->
  forall r rest x, c_trend c = TrendName "linear_raw" -> f_rows y = r :: rest -> r_vals r = [x] -> offset_options (o_trend ob') [(x / scale_number (ft_scale f))%R] (c_offset_scale c).
Proof. exact (raw_location ns_of order keep tr_fit_transform svi_run nuts_run latent_sites). Qed.
Theorem C103_offset_line : forall c ob y X ob' (f : fitted (P := P)), fit_forecaster c ob y X = (ob', Ok f) -> c_hier c = false -> f_levels y = 0 -> one_column y ->
  2 <= List.length (f_rows y) -> increasing (map day (map r_time (f_rows y))) ->
  forall a b r rest, c_trend c = TrendName "linear" -> (0 < scale_number (ft_scale f))%R -> least_squares a b (series_points y []) -> f_rows y = r :: rest ->
  offset_options (o_trend ob') [((a + b * IZR (r_time r)) / scale_number (ft_scale f))%R] (c_offset_scale c).
Proof. exact (line_location ns_of order keep tr_fit_transform svi_run nuts_run latent_sites). Qed.

(** The capacity of "logistic" is half-normal, shifted by the configured location. *)
Theorem C103_capacity : forall c ob y X ob' (f : fitted (P := P)), fit_forecaster c ob y X = (ob', Ok f) -> c_trend c = TrendName "logistic" ->
  capacity_option (o_trend ob') (DShifted (DHalfNormal (scalar (c_capacity_scale c))) (c_capacity_loc c)).
Proof. exact (named_capacity ns_of order keep tr_fit_transform svi_run nuts_run latent_sites). Qed.
End Any.

Print Assumptions C103_training.
Print Assumptions C103_panel_training.
Print Assumptions C103_priors.
Print Assumptions C103_offset_raw.
Print Assumptions C103_offset_line.
Print Assumptions C103_capacity.

(** linear, raw linear and logistic trends with two changepoints, training dates 0, 1 and 7, values 3, 4 and 8; the line
    through them is 135/43 + 30/43 t *)
Example C103_training_nonvacuous : one_column ex_y /\ 2 <= List.length (f_rows ex_y) /\ least_squares (135 / 43) (30 / 43) (series_points ex_y []) /\
  increasing (map (fun t => DocsSpec.day (ex_ns t)) (map r_time (f_rows ex_y))) /\ changepoint_count 3 1 (4 / 5) 2 /\
  forall trend, In trend ["linear"; "linear_raw"; "logistic"] -> exists ob f ys m o tr, total_fit trend "normal" "mcmc" = (ob, Ok f) /\ clean_config (docs_config trend) /\
  piecewise_options (o_trend ob) 1 (4 / 5) (String.eqb trend "logistic") /\ (0 < scale_number (ft_scale f))%R /\ scale_y false (ft_scale f) ex_y = Ok ys /\
  fit_data ex_ns sorted_sets keep_all ex_fit_transform (docs_config trend) (no_objects None) (ft_scale f) ys (Some Xu) = (ob, Ok (ft_prepared f, m)) /\ run one [] m = Ok (o, tr).
Proof.
  split; [apply ex_y_one|]. split; [apply ex_y_one|]. split; [exact ex_y_line|]. split; [exact docs_days|]. split; [exact docs_count|]. intros trend HT.
  destruct (docs_trained trend HT) as (ob & f & ys & m & o & tr & HF & Ps & HY & HD & RU). exists ob, f, ys, m, o, tr.
  destruct (named_options ex_ns sorted_sets keep_all ex_fit_transform ex_svi ex_nuts comp_latent _ _ _ _ _ _ trend HF eq_refl HT) as [H1 _].
  split; [exact HF|]. split; [apply total_clean|]. auto 10.
Qed.
(** with the offsets: the raw trend expects 3 over the scale, in the forecast for the days 0, 7 and 14 too *)
Example C103_priors_nonvacuous : exists ob f m o tr, total_fit "linear_raw" "normal" "mcmc" = (ob, Ok f) /\ predict_model ex_ns keep_all ex_transform (docs_config "linear_raw") ob f ex_y (Some Xd) hd3 = Ok m /\
  run one [] m = Ok (o, tr) /\ offset_options (o_trend ob) [(3 / scale_number (ft_scale f))%R] (1 / 10) /\ offset_prior one tr [(3 / scale_number (ft_scale f))%R] (1 / 10).
Proof.
  destruct (docs_example "linear_raw") as (ob & f & m & o & tr & HF & HM & RU); [simpl; auto|]. exists ob, f, m, o, tr. do 3 (split; [assumption|]).
  assert (O : offset_options (o_trend ob) [(3 / scale_number (ft_scale f))%R] (1 / 10)).
  { refine (C103_offset_raw ex_ns sorted_sets keep_all ex_fit_transform ex_svi ex_nuts comp_latent _ _ _ _ _ _ HF eq_refl eq_refl (proj1 ex_y_one) (proj2 ex_y_one) docs_days _ _ 3%R eq_refl eq_refl eq_refl). }
  split; [exact O|]. refine (proj2 (proj1 (C103_priors ex_ns sorted_sets keep_all ex_fit_transform ex_transform ex_svi ex_nuts comp_latent _ _ _ _ _ _ HF (total_clean _ _ _) (fun _ => eq_refl) _ 1 eq_refl _ _ _ _ _ _ _ HM RU) _ _ O)).
  discriminate.
Qed.
(** two series, two days *)
Example C103_panel_training_nonvacuous : frame_wf ex_yh /\ balanced ex_yh /\ (forall r, In r (f_rows ex_yh) -> ~ In "__total" (r_path r)) /\ clean_config two_config /\
  StronglySorted Z.lt [0; 1]%Z /\ time_ids ex_yh = [0; 1]%Z /\ increasing (map (fun t => DocsSpec.day (ex_ns t)) [0; 1]%Z) /\ changepoint_count 2 25 (4 / 5) 1 /\ List.length (series_ids ex_yh) = 2 /\
  exists ob f ys m o tr, two_fit = (ob, Ok f) /\ piecewise_options (o_trend ob) 25 (4 / 5) false /\ scale_y (discrete two_config) (ft_scale f) ex_yh = Ok ys /\
  fit_data ex_ns sorted_sets keep_all ex_fit_transform two_config (no_objects None) (ft_scale f) ys (Some ex_Xh) = (ob, Ok (ft_prepared f, m)) /\ run one [] m = Ok (o, tr).
Proof.
  split; [exact yh_wf|]. split; [exact yh_balanced|]. split; [exact yh_no_total|]. split; [exact two_clean|]. split; [repeat constructor|]. split; [reflexivity|]. split; [exact docs_days2|]. split; [exact docs_count2|]. split; [reflexivity|].
  destruct two_trained as (ob & f & k1 & k2 & ys & m & o & tr & HF & _ & _ & _ & HY & HD & RU & _). exists ob, f, ys, m, o, tr.
  destruct (named_options ex_ns sorted_sets keep_all ex_fit_transform ex_svi ex_nuts two_latent _ _ _ _ _ _ "linear_raw" HF eq_refl ltac:(simpl; auto)) as [H1 _]. auto 10.
Qed.
