(** C117: results of lift experiments only inform the posterior. *)
From Coq Require Import Reals String Bool ZArith List.
From Verif.Model Require Import Base Num XFloat Regex Frame Arr Prog Likelihood Effect Trend TrendProg Aggregate Scale Engine Predict Forecaster.
From Verif.Spec Require Import ProgSpec ForecasterSpec SiteSpec ShiftSpec RelistSpec RenameSpec LiftSpec.
From Verif.Facts Require Import EffectExamples ForecasterExamples EngineExamples LiftFacts LiftForecaster LiftExamples.
Import ListNotations.
Local Open Scope string_scope.

Section Any.
Variable ns_of : Z -> Z.
Variable order : list string -> list string.
Variable keep : path -> bool.
Context {TS P : Type}.
Variable tr_fit_transform : TS -> frame R -> TS * res (frame R).
Variable tr_transform : TS -> frame R -> res (frame R).
Variable svi_run : Z -> nat -> nat -> prog arr -> res (list xr * P).
Variable nuts_run : Z -> nat -> nat -> nat -> prog arr -> res (nat -> nat -> env).
Variable latent_sites : prog arr -> list string.
Variable guide_draw : P -> Z -> nat -> prog arr -> env.
Variable complete_draw : env -> Z -> nat -> prog arr -> env.
Variable logpdf : distr -> arr -> R.
Notation fit_data := (fit_data (TS := TS) ns_of order keep tr_fit_transform).
Notation fit_forecaster := (fit_forecaster ns_of order keep tr_fit_transform svi_run nuts_run latent_sites).
Notation predict_model := (predict_model ns_of keep tr_transform).
Notation predictive_samples_dict := (predictive_samples_dict ns_of keep tr_transform guide_draw complete_draw).
Notation forecast_samples := (forecast_samples ns_of keep tr_transform guide_draw complete_draw).
Notation forecast_point := (forecast_point ns_of keep tr_transform guide_draw complete_draw).
Notation forecast_quantiles := (forecast_quantiles ns_of keep tr_transform guide_draw complete_draw).

(** A forecaster with experiments that can be fitted can be fitted without them.  It then has the same effects without
    experiments, and the program given to the inference engine is the same but for the observations of experiments: the
    same value, and the same values at all other sites, for any values of the latent sites.  The joint log density
    differs by the log densities of the experiments' results. *)
Theorem C117_fit : forall c ob s y X ob' p m, (forall l, In l (effects_of c) -> no_slash (l_name l) = true) -> plain_default (c_default c) ->
  fit_data c ob s y X = (ob', Ok (p, m)) -> in_use (p_fitted p) ->
  fit_data (unlift_config c) ob s y X = (ob', Ok (unlift_prepared p, forget lift_site m)) /\
  forall e v tr, run e [] m = Ok (v, tr) ->
    run e [] (forget lift_site m) = Ok (v, but_lifts tr) /\ log_joint logpdf tr = (log_joint logpdf (but_lifts tr) + log_joint logpdf (only_lifts tr))%R.
Proof.
  intros c ob s y X ob' p m NS PD H U. destruct (c117_fit ns_of order keep tr_fit_transform c ob s y X ob' p m NS PD H U) as (E & _ & SP). split; [exact E|].
  intros e v tr R. split; [exact (forget_run m e SP [] v tr R)|exact (density_split logpdf tr)].
Qed.

(** The program of a forecast, likewise.  [f'] is fitted without the experiments. *)
Theorem C117_predict : forall c ob y X ob' (f f' : fitted (P := P)), fit_forecaster c ob y X = (ob', Ok f) -> (forall l, In l (effects_of c) -> no_slash (l_name l) = true) -> plain_default (c_default c) -> in_use (p_fitted (ft_prepared f)) ->
  ft_scale f' = ft_scale f -> ft_prepared f' = unlift_prepared (ft_prepared f) ->
  forall ob2 y2 X2 fh m, predict_model c ob2 f y2 X2 fh = Ok m ->
  predict_model (unlift_config c) ob2 f' y2 X2 fh = Ok (forget lift_site m) /\
  forall e v tr, run e [] m = Ok (v, tr) -> run e [] (forget lift_site m) = Ok (v, but_lifts tr).
Proof.
  intros c ob y X ob' f f' H NS PD U E1 E2 ob2 y2 X2 fh m HM.
  destruct (c117_model ns_of keep tr_transform c ob2 f f' y2 X2 fh m (fit_ready ns_of order keep tr_fit_transform svi_run nuts_run latent_sites c ob y X ob' f H NS PD U) E1 E2 HM) as [E SP]. split; [exact E|].
  intros e v tr R. exact (forget_run m e SP [] v tr R).
Qed.

(** Forecasts.  If the two posteriors have the same draws, the forecasts are the same, and so are the draws of all sites
    except the results of experiments: these inform forecasts through the posterior only. *)
Theorem C117_forecast : forall c ob y X ob' (f f' : fitted (P := P)), fit_forecaster c ob y X = (ob', Ok f) -> (forall l, In l (effects_of c) -> no_slash (l_name l) = true) -> plain_default (c_default c) -> in_use (p_fitted (ft_prepared f)) ->
  ft_scale f' = ft_scale f -> ft_prepared f' = unlift_prepared (ft_prepared f) ->
  forall ob2 y2 X2 fh, (forall m, predict_model c ob2 f y2 X2 fh = Ok m -> same_draws guide_draw complete_draw (engine_of c) (ft_posterior f) (ft_posterior f') m) ->
  forall t, snd (forecast_samples c ob2 f y2 X2 fh) = Ok t ->
  snd (forecast_samples (unlift_config c) ob2 f' y2 X2 fh) = Ok t /\
  snd (forecast_point (unlift_config c) ob2 f' y2 X2 fh) = snd (forecast_point c ob2 f y2 X2 fh) /\
  (forall alpha, snd (forecast_quantiles (unlift_config c) ob2 f' y2 X2 fh alpha) = snd (forecast_quantiles c ob2 f y2 X2 fh alpha)).
Proof. exact (c117_forecast ns_of order keep tr_fit_transform tr_transform svi_run nuts_run latent_sites guide_draw complete_draw). Qed.
Theorem C117_sites : forall c ob y X ob' (f f' : fitted (P := P)), fit_forecaster c ob y X = (ob', Ok f) -> (forall l, In l (effects_of c) -> no_slash (l_name l) = true) -> plain_default (c_default c) -> in_use (p_fitted (ft_prepared f)) ->
  ft_scale f' = ft_scale f -> ft_prepared f' = unlift_prepared (ft_prepared f) ->
  forall ob2 y2 X2 fh, (forall m, predict_model c ob2 f y2 X2 fh = Ok m -> same_draws guide_draw complete_draw (engine_of c) (ft_posterior f) (ft_posterior f') m) ->
  forall ds, snd (predictive_samples_dict c ob2 f y2 X2 fh) = Ok ds -> snd (predictive_samples_dict (unlift_config c) ob2 f' y2 X2 fh) = Ok (but_lifts ds).
Proof.
  intros c ob y X ob' f f' H NS PD U E1 E2 ob2 y2 X2 fh D ds HD.
  exact (c117_sites ns_of keep tr_transform guide_draw complete_draw c ob2 f f' y2 X2 fh ds (fit_ready ns_of order keep tr_fit_transform svi_run nuts_run latent_sites c ob y X ob' f H NS PD U) E1 E2 D HD).
Qed.
End Any.

Print Assumptions C117_fit.
Print Assumptions C117_predict.
Print Assumptions C117_forecast.
Print Assumptions C117_sites.

(** "tv" with an experiment: a lift of 5 on day 1 *)
Example C117_nonvacuous : unlift_config lifted_config = run_config "mcmc" /\ (forall l, In l (effects_of lifted_config) -> no_slash (l_name l) = true) /\ plain_default (c_default lifted_config) /\
  exists ob f f', lifted_fit = (ob, Ok f) /\ run_fit "mcmc" (Some Xu) = (ob, Ok f') /\ in_use (p_fitted (ft_prepared f)) /\ ft_scale f' = ft_scale f /\ ft_prepared f' = unlift_prepared (ft_prepared f) /\
  (forall m, same_draws ex_guide ex_complete (engine_of lifted_config) (ft_posterior f) (ft_posterior f') m) /\
  (exists i, dict_get (p_effects (ft_prepared f)) "tv" = Some (Lift i [(1%Z, Some 5%R)] 1 (mkBase (Some ["tv"]) (Some true)) (Some 2%R)) /\ dict_get (p_effects (ft_prepared f')) "tv" = Some i) /\
  exists t, snd (forecast_samples ex_ns keep_all ex_transform ex_guide ex_complete lifted_config ob f ex_y (Some Xf) (Relative [1%Z; 2%Z])) = Ok t.
Proof. split; [reflexivity|]. split; [intros l [<-|[]]; reflexivity|]. split; [intros e H; discriminate|exact lift_example]. Qed.
