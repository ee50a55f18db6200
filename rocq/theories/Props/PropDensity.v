(** C100: the joint density which inference works on is the product of the documented parts. *)
From Coq Require Import Reals String Bool ZArith List.
From Verif.Model Require Import Base Num XFloat Frame Arr Expand Aggregate Scale Prog Likelihood Effect Trend TrendProg Engine Forecaster.
From Verif.Spec Require Import FrameSpec ProgSpec ForecasterSpec SiteSpec ComponentSpec CounterSpec DensitySpec.
From Verif.Facts Require Import EffectExamples ForecasterExamples EngineExamples HistoryExamples AlignExamples ComponentExamples CounterExamples DensitySilent DensityForecaster DensityExamples.
Import ListNotations.
Local Open Scope string_scope.

Section Any.
Variable ns_of : Z -> Z.
Variable order : list string -> list string.
Variable keep : path -> bool.
Context {TS : Type}.
Variable tr_fit_transform : TS -> frame R -> TS * res (frame R).
Variable tr_transform : TS -> frame R -> res (frame R).
Context {P : Type}.
Variable svi_run : Z -> nat -> nat -> prog arr -> res (list xr * P).
Variable nuts_run : Z -> nat -> nat -> nat -> prog arr -> res (nat -> nat -> env).
Variable latent_sites : prog arr -> list string.
Notation fit_data := (fit_data ns_of order keep tr_fit_transform).
Notation fit_forecaster := (fit_forecaster ns_of order keep tr_fit_transform svi_run nuts_run latent_sites).
Notation predict_model := (predict_model ns_of keep tr_transform).
(** log densities of the distributions: any function *)
Variable logpdf : distr -> arr -> R.
Notation log_joint := (log_joint logpdf).
Notation has_density := (has_density logpdf).

(** * C100 *)
(** Both classes, any trend, any likelihood.  Whatever values the parameters take, the log density of the
    program to fit is the sum of: the trend run alone; every effect run alone with its own data, its own
    parameters and the value of the trend; the priors of the noise; the likelihood of the observations. *)
Theorem C100_fit : forall c ob s y X ob' p m, fit_data c ob s y X = (ob', Ok (p, m)) -> clean_config c ->
  exists Xe td data, transform_effects (p_fitted p) Xe (time_ids y) = Ok data /\ trend_transform ns_of (o_trend ob') Xe (time_ids y) = Ok td /\
    forall e o tr, run e [] m = Ok (o, tr) -> decomposes logpdf c p (o_trend ob') td data e tr.
Proof. exact (fun c ob s y X ob' p m => c100_fit ns_of order keep tr_fit_transform logpdf c ob s y X ob' p m). Qed.

(** The same for the program of a forecast. *)
Theorem C100_predict : forall c ob y X ob' (f : fitted (P := P)), fit_forecaster c ob y X = (ob', Ok f) -> clean_config c ->
  forall ob2 y2 X2 fh m, predict_model c ob2 f y2 X2 fh = Ok m ->
  exists Xe td times data, transform_effects (p_fitted (ft_prepared f)) Xe times = Ok data /\ trend_transform ns_of (o_trend ob2) Xe times = Ok td /\
    forall e o tr, run e [] m = Ok (o, tr) -> decomposes logpdf c (ft_prepared f) (o_trend ob2) td data e tr.
Proof. exact (c100_predict ns_of order keep tr_fit_transform tr_transform svi_run nuts_run latent_sites logpdf). Qed.

(** A lift experiment adds to the effect inside exactly one factor: a normal density around the effect,
    of which only the dates with a result count. *)
Theorem C100_lift : forall e inner table ps b s d lift pe v r, unnested (Lift inner table ps b s) ->
  (has_density e (predict (Lift inner table ps b s) (ELift d lift) pe) v r <->
   exists ri, has_density e (predict inner d pe) v ri /\
     r = (ri + logpdf (DMasked (map is_some lift) (DNormal v (const_arr (a_shape v) ps))) (mkArr [List.length lift; 1%nat] (map opt_or_0 lift)))%R).
Proof. exact (lift_density logpdf). Qed.

(** Two values of the parameters of one effect for which the effect is the same: the likelihood and all
    other priors cancel, so the posterior odds are the prior odds (including lift experiments) of the effect. *)
Theorem C100_parameters : forall c ob s y X ob' p m, fit_data c ob s y X = (ob', Ok (p, m)) -> clean_config c ->
  exists Xe data, transform_effects (p_fitted p) Xe (time_ids y) = Ok data /\
  forall name ef e e' o tr o' tr', In (name, ef) (p_effects p) -> agree_outside name e e' ->
  run e [] m = Ok (o, tr) -> run e' [] m = Ok (o', tr') -> dict_get tr name = dict_get tr' name ->
  exists x tv w r r', dict_get data name = Some x /\ dict_get tr "trend" = Some (SDet tv) /\ dict_get tr name = Some (SDet w) /\
    has_density (own_env e name) (predict ef x [("trend", tv)]) w r /\ has_density (own_env e' name) (predict ef x [("trend", tv)]) w r' /\
    (log_joint tr - log_joint tr' = r - r')%R.
Proof. exact (fun c ob s y X ob' p m => c100_parameters ns_of order keep tr_fit_transform logpdf c ob s y X ob' p m). Qed.

(** In particular a linear or logarithmic effect (additive or multiplicative) whose columns are zero
    throughout the training data keeps its prior: the data say nothing about its parameters. *)
Theorem C100_silent : forall c ob s y X ob' p m, fit_data c ob s y (Some X) = (ob', Ok (p, m)) -> clean_config c ->
  c_hier c = false -> o_transformer ob = None -> f_levels X = 0%nat -> rectangular X ->
  forall name ef cols e e' o tr o' tr', In (name, ef) (p_effects p) -> plain_effect ef -> input_feature_column_names ef = Ok cols ->
  (forall ef' cols', In (name, ef', cols') (p_fitted p) -> ef' = ef /\ zero_columns cols' X) -> agree_outside name e e' ->
  run e [] m = Ok (o, tr) -> run e' [] m = Ok (o', tr') ->
  (log_joint tr - log_joint tr' = own_prior logpdf ef (List.length cols) (own_env e name) - own_prior logpdf ef (List.length cols) (own_env e' name))%R.
Proof. exact (fun c ob s y X ob' p m => c100_silent ns_of order keep tr_fit_transform logpdf c ob s y X ob' p m). Qed.
End Any.

Print Assumptions C100_fit.
Print Assumptions C100_predict.
Print Assumptions C100_lift.
Print Assumptions C100_parameters.
Print Assumptions C100_silent.

(** three likelihoods, two effects, no advertising in the training data, and two coefficients for it *)
Example C100_nonvacuous : rectangular X_quiet /\ agree_outside "tv" one other /\ one "tv/coefs" 0%nat <> other "tv/coefs" 0%nat /\
  forall likelihood, In likelihood ["normal"; "gamma"; "negbinomial"] -> clean_config (comp_config likelihood) /\
  exists ob p m ef o tr o' tr',
    quiet_data likelihood = (ob, Ok (p, m)) /\ In ("tv", ef) (p_effects p) /\ plain_effect ef /\ input_feature_column_names ef = Ok ["tv"] /\
    (forall ef' cols', In ("tv", ef', cols') (p_fitted p) -> ef' = ef /\ zero_columns cols' X_quiet) /\ run one [] m = Ok (o, tr) /\ run other [] m = Ok (o', tr') /\
    List.length (p_effects p) = 2%nat /\ List.length tr = 11%nat.
Proof.
  split; [repeat constructor|]. split; [exact other_agrees|]. split; [exact other_differs|]. intros l H. split; [exact (comp_clean l)|exact (quiet_example l H)].
Qed.
(** with the sum of the values as "density": the runs differ by the coefficients alone, 1 - 5 *)
Example C100_value : forall likelihood, In likelihood ["normal"; "gamma"; "negbinomial"] -> forall ob p m o tr o' tr',
  quiet_data likelihood = (ob, Ok (p, m)) -> run one [] m = Ok (o, tr) -> run other [] m = Ok (o', tr') ->
  (log_joint total_value tr - log_joint total_value tr' = - 4)%R.
Proof. exact quiet_value. Qed.
(** two series with a piecewise trend, forecast *)
Example C100_nonvacuous_hierarchical : clean_config two_config /\ exists ob f m o tr, two_fit = (ob, Ok f) /\
  predict_model ex_ns keep_all ex_transform two_config ob f ex_yh (Some ex_X2) (Relative [1; 2]%Z) = Ok m /\ run one [] m = Ok (o, tr) /\
  map fst (p_effects (ft_prepared f)) = ["tv"; "web"].
Proof.
  split; [exact two_clean|]. destruct scenario_hierarchical as (ob & f & m1 & m2 & o1 & tr1 & o2 & tr2 & H1 & H2 & H3 & H4 & H5 & H6 & H7 & H8 & H9).
  exists ob, f, m1, o1, tr1. repeat (split; [assumption|]). rewrite <- H9 at 1. reflexivity.
Qed.
(** a lift experiment with results on one of two dates *)
Example C100_nonvacuous_lift : unnested lifted /\ exists v tr, run one [] (predict lifted lifted_data [("trend", mkArr [2; 1] [1; 1]%R)]) = Ok (v, tr) /\
  map fst tr = ["features_plate"; "coefs"; "lift_experiment"] /\ a_shape v = [2; 1]%nat.
Proof. split; [exact I|exact lifted_runs]. Qed.
