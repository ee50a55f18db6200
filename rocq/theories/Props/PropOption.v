(** C109: options act only where they are documented to act. *)
From Coq Require Import Reals Lra String Bool ZArith List.
From Verif.Model Require Import Base Num XFloat Frame Arr Expand Aggregate Scale Predict Prog Effect TrendProg Engine Forecaster.
From Verif.Spec Require Import ForecasterSpec OptionSpec.
From Verif.Facts Require Import EffectExamples ForecasterExamples EngineExamples HistoryExamples AlignExamples ComponentExamples OverlapExamples CounterExamples ObservedExamples SharedExamples TotalExamples DocsExamples OptionFacts OptionFit OptionExamples.
Import ListNotations.
Local Open Scope string_scope.

Section Any.
Variable ns_of : Z -> Z.
Variable order : list string -> list string.
Variable keep : path -> bool.
Context {TS P : Type}.
Variable tr_fit_transform : TS -> frame R -> TS * res (frame R).
Variable tr_transform : TS -> frame R -> res (frame R).
Variable svi_run : Z -> nat -> nat -> prog arr -> res (list xr * P).
Variable nuts_run : Z -> nat -> nat -> nat -> prog arr -> res (nat -> nat -> env).
Variable latent_sites : prog arr -> list string.
Variable guide_draw : P -> Z -> nat -> prog arr -> env.
Variable complete_draw : env -> Z -> nat -> prog arr -> env.
Notation fit_data := (fit_data ns_of order keep tr_fit_transform).
Notation fit_forecaster := (fit_forecaster ns_of order keep tr_fit_transform svi_run nuts_run latent_sites).
Notation predict_model := (predict_model ns_of keep tr_transform).
Notation forecast_samples := (forecast_samples ns_of keep tr_transform guide_draw complete_draw).
Notation forecast_point := (forecast_point ns_of keep tr_transform guide_draw complete_draw).
Notation forecast_quantiles := (forecast_quantiles ns_of keep tr_transform guide_draw complete_draw).
Notation forecast_all_sites := (forecast_all_sites ns_of keep tr_transform guide_draw complete_draw).
Notation forecast_all_sites_samples := (forecast_all_sites_samples ns_of keep tr_transform guide_draw complete_draw).

(** Forecasters that differ in the hyperparameters of priors and in options of the inference prepare the same data or fail alike.
    The programs which they give to the inference return and record the same for all parameter values, apart from the
    distributions of the parameters to which a hyperparameter that differs belongs ([touched]). *)
Theorem C109_fit : forall c c', same_structure c c' -> forall ob s y X,
  match snd (fit_data c ob s y X), snd (fit_data c' ob s y X) with
  | Ok (p, m), Ok (p', m') => p = p' /\ like_runs (touched c c') m m'
  | Err x, Err x' => x = x'
  | _, _ => False
  end.
Proof. exact (c109_fit ns_of order keep tr_fit_transform). Qed.

(** The same for the programs which forecasts run, after fits of both. *)
Theorem C109_forecast : forall c c', same_structure c c' -> forall ob y X ob1 f ob1' f',
  fit_forecaster c ob y X = (ob1, Ok f) -> fit_forecaster c' ob y X = (ob1', Ok f') ->
  ft_scale f = ft_scale f' /\ ft_prepared f = ft_prepared f' /\
  forall y2 X2 fh, match predict_model c ob1 f y2 X2 fh, predict_model c' ob1' f' y2 X2 fh with
                   | Ok m, Ok m' => like_runs (touched c c') m m' | Err x, Err x' => x = x' | _, _ => False end.
Proof. exact (c109_forecast ns_of order keep tr_fit_transform tr_transform svi_run nuts_run latent_sites). Qed.

(** If no parameter is touched the programs are equal, whatever the options of the inference. *)
Theorem C109_programs : forall c c', same_structure c c' -> (forall n, ~ touched c c' n) -> forall ob s y X,
  snd (fit_data c ob s y X) = snd (fit_data c' ob s y X).
Proof. exact (c109_programs ns_of order keep tr_fit_transform). Qed.

(** If moreover the options of the chosen inference method agree, fits and all kinds of forecasts are equal. *)
Theorem C109_unused : forall c c', same_structure c c' -> (forall n, ~ touched c c' n) -> same_inference c c' -> forall ob y X,
  let r := fit_forecaster c ob y X in let r' := fit_forecaster c' ob y X in
  snd r = snd r' /\
  forall f, snd r = Ok f -> forall y2 X2 fh,
    forecast_samples c (fst r) f y2 X2 fh = forecast_samples c' (fst r') f y2 X2 fh /\ forecast_point c (fst r) f y2 X2 fh = forecast_point c' (fst r') f y2 X2 fh /\
    (forall alpha, forecast_quantiles c (fst r) f y2 X2 fh alpha = forecast_quantiles c' (fst r') f y2 X2 fh alpha) /\
    forecast_all_sites c (fst r) f y2 X2 fh = forecast_all_sites c' (fst r') f y2 X2 fh /\
    forecast_all_sites_samples c (fst r) f y2 X2 fh = forecast_all_sites_samples c' (fst r') f y2 X2 fh.
Proof. exact (c109_unused ns_of order keep tr_fit_transform tr_transform svi_run nuts_run latent_sites guide_draw complete_draw). Qed.

(** A forecaster given a trend object ignores its own options for the trend. *)
Theorem C109_object : forall c a b d e, c_trend c = TrendObject -> let c' := with_trend_options c a b d e in forall ob y X,
  let r := fit_forecaster c ob y X in let r' := fit_forecaster c' ob y X in
  snd r = snd r' /\ forall f, snd r = Ok f -> forall y2 X2 fh, forecast_samples c (fst r) f y2 X2 fh = forecast_samples c' (fst r') f y2 X2 fh.
Proof.
  intros c a b d e H c' ob y X r r'. destruct (untouched_object c a b d e H) as (H1 & H2 & H3). destruct (C109_unused c c' H1 H3 H2 ob y X) as [Q1 Q2].
  split; [exact Q1|]. intros f F y2 X2 fh. apply (Q2 f F y2 X2 fh).
Qed.
End Any.

Print Assumptions C109_fit.
Print Assumptions C109_forecast.
Print Assumptions C109_programs.
Print Assumptions C109_unused.
Print Assumptions C109_object.

(** a linear trend; every hyperparameter differs, and exactly three parameters are touched *)
Example C109_forecast_nonvacuous : same_structure (docs_config "linear") other_priors /\
  (forall n, touched (docs_config "linear") other_priors n <-> In n ["changepoint_coefficients"; "offset"; "noise_scale"]) /\
  exists ob f m o tr ob' f' m' tr', total_fit "linear" "normal" "mcmc" = (ob, Ok f) /\ other_fit = (ob', Ok f') /\
  predict_model ex_ns keep_all ex_transform (docs_config "linear") ob f ex_y (Some Xd) hd3 = Ok m /\ predict_model ex_ns keep_all ex_transform other_priors ob' f' ex_y (Some Xd) hd3 = Ok m' /\
  run one [] m = Ok (o, tr) /\ run one [] m' = Ok (o, tr').
Proof. split; [apply other_structure|]. split; [exact other_touched|exact other_forecasts]. Qed.
(** the options of the capacity, the correlation, and the optimiser with "mcmc" are unused, and the default key is 24 *)
Example C109_unused_nonvacuous : same_structure (docs_config "linear") other_unused /\ (forall n, ~ touched (docs_config "linear") other_unused n) /\
  same_inference (docs_config "linear") other_unused /\ docs_config "linear" <> other_unused /\
  exists ob f, fit_forecaster ex_ns sorted_sets keep_all ex_fit_transform ex_svi ex_nuts comp_latent (docs_config "linear") (no_objects None) ex_y (Some Xu) = (ob, Ok f).
Proof.
  split; [apply other_structure|]. split; [exact other_untouched|]. split; [exact other_inference|]. split; [intros E; apply (f_equal c_steps) in E; discriminate|].
  destruct (docs_example "linear") as (ob & f & _ & _ & _ & HF & _); [simpl; auto|]. exists ob, f. exact HF.
Qed.
(** a flat trend object with level scale 1, in a forecaster whose own scale is 1/1000 or 9 *)
Example C109_object_nonvacuous : c_trend obj_config = TrendObject /\ c_changepoint_scale (with_trend_options obj_config 9 8 7 6) = 9%R /\
  ok_of (snd (fit_forecaster ex_ns sorted_sets keep_all ex_fit_transform ex_svi ex_nuts comp_latent obj_config (no_objects None) ex_y (Some X_tv))) = true.
Proof. split; [reflexivity|]. split; [reflexivity|]. vm_compute. reflexivity. Qed.
