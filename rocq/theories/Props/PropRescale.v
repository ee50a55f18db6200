(** C101: the unit in which an exogenous column is measured can be absorbed by the parameters of its effect. *)
From Coq Require Import Reals String Bool ZArith List.
From Verif.Model Require Import Base Num XFloat Frame Arr Expand Aggregate Scale Prog Likelihood Effect Trend TrendProg Engine Forecaster.
From Verif.Spec Require Import FrameSpec ProgSpec ForecasterSpec SiteSpec CounterSpec RescaleSpec.
From Verif.Facts Require Import EffectExamples ForecasterExamples EngineExamples HistoryExamples AlignExamples ComponentExamples CounterExamples RescaleForecaster RescaleExamples.
Import ListNotations.
Local Open Scope string_scope.

Section Any.
Variable ns_of : Z -> Z.
Variable order : list string -> list string.
Variable keep : path -> bool.
Context {TS : Type}.
Variable tr_fit_transform : TS -> frame R -> TS * res (frame R).
Variable tr_transform : TS -> frame R -> res (frame R).
Context {P : Type}.
Variable svi_run : Z -> nat -> nat -> prog arr -> res (list xr * P).
Variable nuts_run : Z -> nat -> nat -> nat -> prog arr -> res (nat -> nat -> env).
Variable latent_sites : prog arr -> list string.
Notation fit_data := (fit_data ns_of order keep tr_fit_transform).
Notation fit_forecaster := (fit_forecaster ns_of order keep tr_fit_transform svi_run nuts_run latent_sites).
Notation predict_model := (predict_model ns_of keep tr_transform).

(** * C101 *)
(** Both classes, any trend, any likelihood, any effects of the library, no feature transformer.  Column [c] is given in
    other units: every value times [k c], which is not 0.  The logarithmic effect and the Hill effect have one parameter
    with a unit for all their columns, which then have the same factor; in the hierarchical class the copies of a column
    have its factor.  Then preparing succeeds as before with the same effects, trend and scale, and the new program with
    converted parameters - coefficients and rates divided, [half_max] multiplied - does what the old one does: same
    values of all sites, same priors, same likelihood. *)
Theorem C101_fit : forall k c ob s y X ob' p m, fit_data c ob s y (Some X) = (ob', Ok (p, m)) -> clean_config c -> o_transformer ob = None ->
  rectangular X -> units_fit k (p_effects p) -> (c_hier c = true -> copies_alike k) ->
  exists m', fit_data c ob s y (Some (in_units k X)) = (ob', Ok (p, m')) /\ same_programs k (p_effects p) m m'.
Proof. exact (fit_units ns_of order keep tr_fit_transform). Qed.

(** Forecasts, after fitting in the same units. *)
Theorem C101_predict : forall k c ob y X0 ob' (f : fitted (P := P)) ob'' f', fit_forecaster c ob y X0 = (ob', Ok f) ->
  fit_forecaster c ob y (option_map (in_units k) X0) = (ob'', Ok f') -> clean_config c -> o_transformer ob = None ->
  (forall X, X0 = Some X -> rectangular X) -> units_fit k (p_effects (ft_prepared f)) -> (c_hier c = true -> copies_alike k) ->
  forall y2 X fh m, predict_model c ob' f y2 (Some X) fh = Ok m -> rectangular X ->
  exists m', predict_model c ob'' f' y2 (Some (in_units k X)) fh = Ok m' /\ same_programs k (p_effects (ft_prepared f)) m m'.
Proof. exact (c101_predict ns_of order keep tr_fit_transform tr_transform svi_run nuts_run latent_sites). Qed.

(** What the conversion does: the one parameter of each effect which has a unit is converted, nothing else. *)
Theorem C101_convert : forall k effs e, NoDup (map fst effs) -> (forall n g, In (n, g) effs -> no_slash n = true) -> converts k effs e (convert k effs e).
Proof. exact convert_converts. Qed.

(** It has an inverse, so that every value of the parameters in the new units comes from one in the old units. *)
Theorem C101_back : forall k effs e X, (forall c, k c <> 0%R) -> rectangular X ->
  in_units (fun c => / k c)%R (in_units k X) = X /\ forall n j, convert (fun c => / k c)%R effs (convert k effs e) n j = e n j.
Proof. intros k effs e X K W. split; [now apply in_units_back|]. intros n j. now apply convert_back. Qed.
End Any.

Print Assumptions C101_fit.
Print Assumptions C101_predict.
Print Assumptions C101_convert.
Print Assumptions C101_back.

(** money in thousands for a linear effect (coefficient 1 becomes 1000), visits counted twice for a logarithmic one (rate 1
    becomes 1/2, scale stays 1), under three likelihoods *)
Example C101_nonvacuous : rectangular Xu /\ forall likelihood, In likelihood ["normal"; "gamma"; "negbinomial"] -> clean_config (mix_config likelihood) /\
  exists ob p m o tr, mix_data likelihood Xu = (ob, Ok (p, m)) /\ units_fit units (p_effects p) /\
    has_unit (p_effects p) "tv/coefs" /\ has_unit (p_effects p) "web/log_rate" /\ run one [] m = Ok (o, tr) /\
    convert units (p_effects p) one "tv/coefs" 0 = 1000%R /\ convert units (p_effects p) one "web/log_rate" 0 = (1 / 2)%R /\ convert units (p_effects p) one "web/log_scale" 0 = 1%R.
Proof. split; [repeat constructor|]. intros l H. split; [exact (mix_clean l)|exact (mix_example l H)]. Qed.
(** two series with a piecewise trend and copied columns, fitted in both units and forecast *)
Example C101_nonvacuous_hierarchical : clean_config two_config /\ copies_alike units /\ rectangular ex_Xh /\ rectangular ex_X2 /\
  exists ob f ob' f' m o tr, two_fit = (ob, Ok f) /\ two_fit_in_units = (ob', Ok f') /\ units_fit units (p_effects (ft_prepared f)) /\
  predict_model ex_ns keep_all ex_transform two_config ob f ex_yh (Some ex_X2) (Relative [1; 2]%Z) = Ok m /\ run one [] m = Ok (o, tr) /\
  map fst (p_effects (ft_prepared f)) = ["tv"; "web"] /\ has_unit (p_effects (ft_prepared f)) "tv/coefs".
Proof. split; [exact two_clean|]. split; [exact units_copies|]. split; [exact Xh_rectangular|]. split; [exact X2_rectangular|exact two_example]. Qed.
