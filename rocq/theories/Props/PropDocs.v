(** C103: the recorded trend, against the formulas of the documentation (docs/the-theory.md). *)
From Coq Require Import Reals Lra String Bool ZArith List Sorted.
From Verif.Model Require Import Base Num XFloat Frame Arr Expand Aggregate Scale Prog Likelihood Effect Trend TrendProg Engine Forecaster.
From Verif.Spec Require Import FrameSpec TrendSpec ProgSpec ForecasterSpec SiteSpec ShapeSpec DocsSpec.
From Verif.Facts Require Import EffectExamples ForecasterExamples EngineExamples HistoryExamples AlignExamples ComponentExamples CounterExamples OverlapExamples TotalExamples DocsTrend DocsForecaster DocsFormula DocsExamples.
Import ListNotations.
Local Open Scope string_scope.

Section Any.
Variable ns_of : Z -> Z.
Variable order : list string -> list string.
Variable keep : path -> bool.
Context {TS : Type}.
Variable tr_fit_transform : TS -> frame R -> TS * res (frame R).
Variable tr_transform : TS -> frame R -> res (frame R).
Context {P : Type}.
Variable svi_run : Z -> nat -> nat -> prog arr -> res (list xr * P).
Variable nuts_run : Z -> nat -> nat -> nat -> prog arr -> res (nat -> nat -> env).
Variable latent_sites : prog arr -> list string.
Notation fit_forecaster := (fit_forecaster ns_of order keep tr_fit_transform svi_run nuts_run latent_sites).
Notation predict_model := (predict_model ns_of keep tr_transform).
Notation day := (fun t => day (ns_of t)).

(** * C103 *)
(** A fitted forecaster with a piecewise trend, training dates [ds], a forecast for the dates [ts], any values [e] of the
    parameters: the component "trend" at every date is the piecewise linear function [line_at] of the number of (average)
    steps since the first training date - or the logistic function of it, times the capacity -, with one bend at every
    multiple of the changepoint interval inside the changepoint range; the rate changes have independent Laplace priors
    around zero with the configured scale. *)
Theorem C103_univariate : forall c ob y X ob' (f : fitted (P := P)) iv rg lg K, fit_forecaster c ob y X = (ob', Ok f) -> c_hier c = false -> f_levels y = 0 -> clean_config c ->
  piecewise_options (o_trend ob') iv rg lg -> (0 < iv)%R ->
  forall ds, map r_time (f_rows y) = ds -> increasing (map day ds) -> changepoint_count (List.length ds) iv rg K ->
  forall y2 X2 fh m cutoff ts, predict_model c ob' f y2 X2 fh = Ok m -> max_time (map r_time (f_rows y2)) = Ok cutoff -> to_absolute cutoff fh = ts ->
  forall e o tr, run e [] m = Ok (o, tr) ->
  exists tv, dict_get tr "trend" = Some (SDet tv) /\ (forall j t, nth_error ts j = Some t -> nth_error (a_flat tv) j = Some (trend_at e lg K iv 0 (steps (map day ds) (day t)))) /\
    forall sg, prior_scale_option (o_trend ob') sg -> laplace_prior tr K sg.
Proof. exact (c103_univariate ns_of order keep tr_fit_transform tr_transform svi_run nuts_run latent_sites). Qed.

(** Panels with one row for every series and date: the same for every series, with its own parameters. *)
Theorem C103_hierarchical : forall c ob y X ob' (f : fitted (P := P)) iv rg lg K, fit_forecaster c ob y X = (ob', Ok f) -> c_hier c = true ->
  f_levels y <> 0 -> frame_wf y -> (forall r, In r (f_rows y) -> ~ In "__total" (r_path r)) -> balanced y -> clean_config c ->
  piecewise_options (o_trend ob') iv rg lg -> (0 < iv)%R ->
  forall ds, StronglySorted Z.lt ds -> (forall t, In t ds <-> In t (map r_time (f_rows y))) -> increasing (map day ds) -> changepoint_count (List.length ds) iv rg K ->
  forall y2 X2 fh m cutoff ts, predict_model c ob' f y2 X2 fh = Ok m -> max_time (map snd (p_index (ft_prepared f))) = Ok cutoff -> to_absolute cutoff fh = ts -> NoDup ts ->
  forall e o tr, run e [] m = Ok (o, tr) ->
  exists tv, dict_get tr "trend" = Some (SDet tv) /\ (forall i j t, i < List.length (series_ids y) -> nth_error ts j = Some t ->
    nth_error (a_flat tv) (i * List.length ts + j) = Some (trend_at e lg K iv i (steps (map day ds) (day t)))) /\
    forall sg, prior_scale_option (o_trend ob') sg -> laplace_prior tr (List.length (series_ids y) * K) sg.
Proof. exact (c103_hierarchical ns_of order keep tr_fit_transform tr_transform svi_run nuts_run latent_sites). Qed.

(** With a trend given by name, interval, range and prior scale are those of the forecaster; only "logistic" is logistic. *)
Theorem C103_named : forall c ob y X ob' (f : fitted (P := P)) name, fit_forecaster c ob y X = (ob', Ok f) -> c_trend c = TrendName name -> In name ["linear"; "linear_raw"; "logistic"] ->
  piecewise_options (o_trend ob') (c_interval c) (c_range c) (String.eqb name "logistic") /\ prior_scale_option (o_trend ob') (c_changepoint_scale c).
Proof. exact (named_options ns_of order keep tr_fit_transform svi_run nuts_run latent_sites). Qed.
End Any.

(** The number of changepoints is determined. *)
Theorem C103_count : forall n iv rg, (0 < iv)%R -> exists K, changepoint_count n iv rg K /\ forall K', changepoint_count n iv rg K' -> K' = K.
Proof. intros n iv rg H. eexists. split; [exact (count_exists _ n iv rg H eq_refl)|]. intros K' H'. exact (count_unique _ _ _ _ _ H' (count_exists _ n iv rg H eq_refl)). Qed.

(** ** The documented formulas
    Full statement, "Original formulation" (lines 93-103): with the changepoints, the rate changes and some global rate [k] and
    offset [m], the trend is (k + a(t) delta) t + (m + a(t) gamma), where a(t) is 1 for the changepoints *greater* than t
    and gamma = kappa delta.  It holds with a(t) = 1 for the changepoints which are *not* greater than t, gamma = - (kappa - 1) delta,
    k = 0, for intervals of at least one step, after the first training date. *)
Theorem C103_original_partial : forall e K iv i t, (1 <= iv)%R -> (0 <= t)%R ->
  line_at e K iv i t = original after (fun c d => - (c - 1) * d)%R K (fun k => INR k * iv)%R (fun k => e "changepoint_coefficients" (i * K + k)%nat) 0%R (e "offset" i) t.
Proof. exact original_holds. Qed.

(** Full statement, "Prophetverse's equivalent formulation" (lines 108-): b(t) delta + k t + m with b(t)_i = (t - kappa_i)_+.  It holds
    at whole steps, for intervals of whole steps, if the changepoints are taken one step earlier, with k = 0. *)
Theorem C103_spline_partial : forall e K iv i t, 1 <= iv ->
  line_at e K (INR iv) i (INR t) = spline K (fun k => INR k * INR iv - 1)%R (fun k => e "changepoint_coefficients" (i * K + k)%nat) 0%R (e "offset" i) (INR t).
Proof. exact spline_holds. Qed.

(** Two changepoints, at steps 0 and 1, all parameters one: at the steps 0, 2 and 4 the recorded trend is 2, 6, 10.  Neither
    documented formula gives these values, whatever [k] and [m] are. *)
Theorem C103_refuted : exists ob f m o tr tv, total_fit "linear" "normal" "mcmc" = (ob, Ok f) /\
  predict_model ex_ns keep_all ex_transform (docs_config "linear") ob f ex_y (Some Xd) hd3 = Ok m /\ run one [] m = Ok (o, tr) /\ dict_get tr "trend" = Some (SDet tv) /\
  (forall k m, ~ forall j t, nth_error [0; 7; 14]%Z j = Some t -> nth_error (a_flat tv) j = Some (spline 2 docs_knots docs_deltas k m (IZR t * 2 / 7))) /\
  (forall k m, ~ forall j t, nth_error [0; 7; 14]%Z j = Some t -> nth_error (a_flat tv) j = Some (original printed_indicator printed_gamma 2 docs_knots docs_deltas k m (IZR t * 2 / 7))).
Proof.
  destruct (docs_example "linear") as (ob & f & m & o & tr & HF & HM & RU); [simpl; auto|]. destruct (docs_values "linear" ltac:(simpl; auto) _ _ _ _ _ HF HM RU) as (tv & G & V0 & V1 & V2).
  exists ob, f, m, o, tr, tv. do 4 (split; [assumption|]).
  assert (S : forall g : R -> R, (forall j t, nth_error [0; 7; 14]%Z j = Some t -> nth_error (a_flat tv) j = Some (g (IZR t * 2 / 7))%R) -> (g 0 = 2 /\ g 2 = 6 /\ g 4 = 10)%R).
  { intros g H. pose proof (H 0 0%Z eq_refl) as H0. pose proof (H 1 7%Z eq_refl) as H1. pose proof (H 2 14%Z eq_refl) as H2. rewrite V0 in H0. rewrite V1 in H1. rewrite V2 in H2.
    replace (0 * 2 / 7)%R with 0%R in H0 by lra. replace (7 * 2 / 7)%R with 2%R in H1 by lra. replace (14 * 2 / 7)%R with 4%R in H2 by lra. repeat split; congruence. }
  split; intros k m0 H.
  - apply (spline_differs k m0). now apply (S (spline 2 docs_knots docs_deltas k m0)).
  - apply (original_differs k m0). now apply (S (original printed_indicator printed_gamma 2 docs_knots docs_deltas k m0)).
Qed.

Print Assumptions C103_univariate.
Print Assumptions C103_hierarchical.
Print Assumptions C103_named.
Print Assumptions C103_count.
Print Assumptions C103_original_partial.
Print Assumptions C103_spline_partial.
Print Assumptions C103_refuted.

(** linear, raw linear and logistic trends with changepoints at the steps 0 and 1, beside a linear effect, a seasonality and
    a Hill effect; irregular training dates 0, 1 and 7, forecasts for the days 0, 7 and 14 *)
Example C103_nonvacuous : forall trend, In trend ["linear"; "linear_raw"; "logistic"] -> exists ob f m o tr, total_fit trend "normal" "mcmc" = (ob, Ok f) /\ clean_config (docs_config trend) /\
  piecewise_options (o_trend ob) 1 (4 / 5) (String.eqb trend "logistic") /\ prior_scale_option (o_trend ob) (1 / 1000) /\ map r_time (f_rows ex_y) = [0; 1; 7]%Z /\
  increasing (map (fun t => DocsSpec.day (ex_ns t)) [0; 1; 7]%Z) /\ changepoint_count 3 1 (4 / 5) 2 /\
  predict_model ex_ns keep_all ex_transform (docs_config trend) ob f ex_y (Some Xd) hd3 = Ok m /\ run one [] m = Ok (o, tr).
Proof.
  intros trend HT. destruct (docs_example trend HT) as (ob & f & m & o & tr & HF & HM & RU). exists ob, f, m, o, tr.
  destruct (C103_named ex_ns sorted_sets keep_all ex_fit_transform ex_svi ex_nuts comp_latent _ _ _ _ _ _ trend HF eq_refl HT) as [H1 H2].
  split; [exact HF|]. split; [apply total_clean|]. split; [exact H1|]. split; [exact H2|]. split; [reflexivity|]. split; [exact docs_days|]. split; [exact docs_count|]. auto.
Qed.

(** two series, days 0 and 1, forecasts for the days 2 and 3 *)
Example C103_hierarchical_nonvacuous : exists ob f m o tr, two_fit = (ob, Ok f) /\ frame_wf ex_yh /\ balanced ex_yh /\ (forall r, In r (f_rows ex_yh) -> ~ In "__total" (r_path r)) /\ clean_config two_config /\
  piecewise_options (o_trend ob) 25 (4 / 5) false /\ StronglySorted Z.lt [0; 1]%Z /\ (forall t, In t [0; 1]%Z <-> In t (map r_time (f_rows ex_yh))) /\
  increasing (map (fun t => DocsSpec.day (ex_ns t)) [0; 1]%Z) /\ changepoint_count 2 25 (4 / 5) 1 /\ List.length (series_ids ex_yh) = 2 /\
  predict_model ex_ns keep_all ex_transform two_config ob f ex_yh (Some ex_X2) (Relative [1; 2]%Z) = Ok m /\ max_time (map snd (p_index (ft_prepared f))) = Ok 1%Z /\ run one [] m = Ok (o, tr).
Proof.
  destruct steps_hierarchical as (ob & f & m1 & m2 & o1 & tr1 & o2 & tr2 & HF & _ & _ & MT & HM & _ & RU & _). exists ob, f, m1, o1, tr1.
  destruct (C103_named ex_ns sorted_sets keep_all ex_fit_transform ex_svi ex_nuts two_latent _ _ _ _ _ _ "linear_raw" HF eq_refl ltac:(simpl; auto)) as [H1 _].
  split; [exact HF|]. split; [exact yh_wf|]. split; [exact yh_balanced|]. split; [exact yh_no_total|]. split; [exact two_clean|]. split; [exact H1|]. split; [repeat constructor|].
  split; [intros t; cbn; tauto|]. split; [exact docs_days2|]. split; [exact docs_count2|]. split; [reflexivity|]. auto.
Qed.
