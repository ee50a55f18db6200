(** C115: names of effects are labels. *)
From Coq Require Import Reals String Bool ZArith List.
From Verif.Model Require Import Base Num XFloat Regex Frame Arr Prog Likelihood Effect Trend TrendProg Aggregate Scale Engine Predict Forecaster.
From Verif.Spec Require Import ProgSpec ForecasterSpec SiteSpec ShiftSpec RelistSpec RenameSpec.
From Verif.Facts Require Import EffectExamples ForecasterExamples EngineExamples RenameFacts RenameModel RenameForecaster RenameExamples.
Import ListNotations.
Local Open Scope string_scope.

Section Any.
Variable ns_of : Z -> Z.
Variable order : list string -> list string.
Variable keep : path -> bool.
Context {TS P : Type}.
Variable tr_fit_transform : TS -> frame R -> TS * res (frame R).
Variable tr_transform : TS -> frame R -> res (frame R).
Variable svi_run : Z -> nat -> nat -> prog arr -> res (list xr * P).
Variable nuts_run : Z -> nat -> nat -> nat -> prog arr -> res (nat -> nat -> env).
Variable latent_sites : prog arr -> list string.
Variable guide_draw : P -> Z -> nat -> prog arr -> env.
Variable complete_draw : env -> Z -> nat -> prog arr -> env.
Variable logpdf : distr -> arr -> R.
Notation fit_data := (fit_data (TS := TS) ns_of order keep tr_fit_transform).
Notation fit_forecaster := (fit_forecaster ns_of order keep tr_fit_transform svi_run nuts_run latent_sites).
Notation predict_model := (predict_model ns_of keep tr_transform).
Notation forecast_samples := (forecast_samples ns_of keep tr_transform guide_draw complete_draw).
Notation forecast_point := (forecast_point ns_of keep tr_transform guide_draw complete_draw).
Notation forecast_quantiles := (forecast_quantiles ns_of keep tr_transform guide_draw complete_draw).
Notation forecast_all_sites := (forecast_all_sites ns_of keep tr_transform guide_draw complete_draw).
Notation forecast_all_sites_samples := (forecast_all_sites_samples ns_of keep tr_transform guide_draw complete_draw).
Notation renamed rho c := (with_effects c (map (rename_listed rho) (effects_of c))).

(** Fitting with other names (without slashes): the same outcome, the same fitted effects under the new names, and the
    program given to the inference engine differs only in the names of the sites. *)
Theorem C115_fit : forall rho, renaming rho -> forall c ob s y X, (forall l, In l (effects_of c) -> no_slash (l_name l) = true) ->
  fit_data (renamed rho c) ob s y X =
    (fst (fit_data c ob s y X), rmap (fun pm => (rename_prepared rho (fst pm), rename_sites (site_name rho) (snd pm))) (snd (fit_data c ob s y X))).
Proof. exact (c115_fit ns_of order keep tr_fit_transform). Qed.

(** the program of a forecast *)
Theorem C115_predict : forall rho, renaming rho -> forall c ob y X ob' (f f' : fitted (P := P)), fit_forecaster c ob y X = (ob', Ok f) -> (forall l, In l (effects_of c) -> no_slash (l_name l) = true) ->
  ft_scale f' = ft_scale f -> ft_prepared f' = rename_prepared rho (ft_prepared f) ->
  forall ob2 y2 X2 fh, predict_model (renamed rho c) ob2 f' y2 X2 fh = rmap (rename_sites (site_name rho)) (predict_model c ob2 f y2 X2 fh).
Proof. exact (fun rho REN c ob y X ob' f f' H NS E1 E2 ob2 y2 X2 fh => c115_model ns_of keep tr_transform rho REN c _ ob2 f f' y2 X2 fh (prepared_plain ns_of order keep tr_fit_transform svi_run nuts_run latent_sites c ob y X ob' f H NS) E1 E2). Qed.

(** Such a program, run with the same values under the new names, returns and records the same under the new names; in
    particular its joint density is the same. *)
Theorem C115_run : forall rho, renaming rho -> forall (m : prog arr) e e', same_values (site_name rho) e e' ->
  run e' [] (rename_sites (site_name rho) m) = rmap (fun at_ => (fst at_, rename_keys (site_name rho) (snd at_))) (run e [] m) /\
  forall v tr, run e [] m = Ok (v, tr) -> log_joint logpdf (rename_keys (site_name rho) tr) = log_joint logpdf tr.
Proof.
  intros rho REN m e e' SV. split; [exact (ren_run rho REN m e e' SV [])|]. intros v tr _. unfold log_joint, rename_keys. now rewrite map_map.
Qed.

(** Forecasts: the same, with columns of components under the new names.  [f'] is fitted with the new names; its posterior
    has the same draws under the new names. *)
Theorem C115_forecast : forall rho, renaming rho -> forall c ob y X ob' (f f' : fitted (P := P)), fit_forecaster c ob y X = (ob', Ok f) -> (forall l, In l (effects_of c) -> no_slash (l_name l) = true) ->
  ft_scale f' = ft_scale f -> ft_prepared f' = rename_prepared rho (ft_prepared f) ->
  forall ob2 y2 X2 fh, (forall m, predict_model c ob2 f y2 X2 fh = Ok m -> draws_match guide_draw complete_draw (site_name rho) (engine_of c) (ft_posterior f) (ft_posterior f') m) ->
  snd (forecast_samples (renamed rho c) ob2 f' y2 X2 fh) = snd (forecast_samples c ob2 f y2 X2 fh) /\
  snd (forecast_point (renamed rho c) ob2 f' y2 X2 fh) = snd (forecast_point c ob2 f y2 X2 fh) /\
  (forall alpha, snd (forecast_quantiles (renamed rho c) ob2 f' y2 X2 fh alpha) = snd (forecast_quantiles c ob2 f y2 X2 fh alpha)) /\
  snd (forecast_all_sites (renamed rho c) ob2 f' y2 X2 fh) = rmap (rename_columns (site_name rho)) (snd (forecast_all_sites c ob2 f y2 X2 fh)) /\
  snd (forecast_all_sites_samples (renamed rho c) ob2 f' y2 X2 fh) = rmap (fun cr => (map (site_name rho) (fst cr), snd cr)) (snd (forecast_all_sites_samples c ob2 f y2 X2 fh)).
Proof. exact (c115_forecast ns_of order keep tr_fit_transform tr_transform svi_run nuts_run latent_sites guide_draw complete_draw). Qed.
End Any.

(** what the new names of sites are *)
Theorem C115_names : forall rho, renaming rho ->
  (forall n, no_slash n = true -> site_name rho n = rho n /\ forall x, site_name rho (n ++ "/" ++ x) = rho n ++ "/" ++ x) /\
  (forall n, In n (reserved ++ trend_sites)%list -> site_name rho n = n) /\ (forall a b, site_name rho a = site_name rho b -> a = b).
Proof.
  intros rho REN. split; [intros n H; split; [exact (sigma_plain rho n H)|intros x; exact (sigma_scoped rho n x H)]|]. split; [|exact (sigma_inj rho REN)].
  intros n H. apply (kept rho REN). rewrite app_assoc. apply in_or_app. now left.
Qed.

Print Assumptions C115_fit.
Print Assumptions C115_predict.
Print Assumptions C115_run.
Print Assumptions C115_forecast.
Print Assumptions C115_names.

(** "tv" called "television" *)
Example C115_nonvacuous : renaming swap /\ swap "tv" = "television" /\ exists ob f f', run_fit "mcmc" (Some Xu) = (ob, Ok f) /\ renamed_fit = (ob, Ok f') /\ ft_scale f' = ft_scale f /\ ft_prepared f' = rename_prepared swap (ft_prepared f) /\
  map fe_name (p_fitted (ft_prepared f)) = ["tv"; "exogenous_variables_effect"] /\ map fe_name (p_fitted (ft_prepared f')) = ["television"; "exogenous_variables_effect"] /\
  forall m, draws_match ex_guide ex_complete (site_name swap) (engine_of (run_config "mcmc")) (ft_posterior f) (ft_posterior f') m.
Proof. split; [exact swap_renaming|]. split; [reflexivity|exact rename_example]. Qed.
