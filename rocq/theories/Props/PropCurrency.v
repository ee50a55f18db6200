(** Property C113 (every series of a panel has units of its own).  The section variables stand for pandas, the
    feature transformer and the inference engine. *)
From Coq Require Import Reals String Bool ZArith List Lra.
From Verif.Model Require Import Base Num XFloat Frame Arr Aggregate Scale Predict Prog Effect TrendProg Engine Forecaster History Vectorized.
From Verif.Spec Require Import FrameSpec ForecasterSpec HistorySpec UnitsSpec CurrencySpec.
From Verif.Facts Require Import EffectExamples ForecasterExamples EngineExamples HistoryExamples UnitsFacts UnitsHistory UnitsExamples AlignExamples PanelRuns ComponentExamples VectorizedExamples
  CurrencyFacts CurrencyForecaster CurrencyVectorized CurrencyExamples.
Import ListNotations.
Local Open Scope string_scope.

Section Any.
Variable ns_of : Z -> Z.
Variable order : list string -> list string.
Variable keep : path -> bool.
Context {TS : Type}.
Variable tr_clone : TS -> TS.
Variable tr_fit_transform : TS -> frame R -> TS * res (frame R).
Variable tr_transform : TS -> frame R -> res (frame R).
Context {P : Type}.
Variable svi_run : Z -> nat -> nat -> prog arr -> res (list xr * P).
Variable nuts_run : Z -> nat -> nat -> nat -> prog arr -> res (nat -> nat -> env).
Variable latent_sites : prog arr -> list string.
Variable guide_draw : P -> Z -> nat -> prog arr -> env.
Variable complete_draw : env -> Z -> nat -> prog arr -> env.
Notation fit_forecaster := (fit_forecaster ns_of order keep tr_fit_transform svi_run nuts_run latent_sites).
Notation call_method := (call_method ns_of keep tr_transform guide_draw complete_draw).
Notation panel_fit := (panel_fit ns_of order keep tr_clone tr_fit_transform svi_run nuts_run latent_sites).
Notation panel_point := (panel_point ns_of keep tr_transform guide_draw complete_draw).

(** HierarchicalProphet: after multiplying each series by a factor of its own, the same model is fitted (same
    prepared attributes, same posterior), and in the result of every prediction method the values of a series
    are multiplied by its factor.  No series is zero throughout. *)
Theorem C113_forecast : forall k, (forall p, (0 < k p)%R) -> forall c (ob ob' : objects (TS := TS)) y X f, c_hier c = true -> c_scale c = None -> f_levels y <> 0 -> no_zero_series y ->
  fit_forecaster c ob y X = (ob', Ok f) ->
  exists f', fit_forecaster c ob (own_units k y) X = (ob', Ok f') /\ ft_prepared f' = ft_prepared f /\ ft_posterior f' = ft_posterior f /\
    forall m X2 fh, converted_result k (snd (call_method c ob' f y m X2 fh)) (snd (call_method c ob' f' (own_units k y) m X2 fh)).
Proof. exact (currency_forecast ns_of order keep tr_fit_transform tr_transform svi_run nuts_run latent_sites guide_draw complete_draw). Qed.

(** A fit that fails does so in all units, with the same error. *)
Theorem C113_error : forall k, (forall p, (0 < k p)%R) -> forall c (ob ob' : objects (TS := TS)) y X e, c_hier c = true -> c_scale c = None -> f_levels y <> 0 -> no_zero_series y ->
  fit_forecaster c ob y X = (ob', Err e) -> fit_forecaster c ob (own_units k y) X = (ob', Err e).
Proof.
  intros k kpos c ob ob' y X e H C L Z E.
  rewrite (currency_fit ns_of order keep tr_fit_transform svi_run nuts_run latent_sites k kpos c ob y X H C L Z), E. reflexivity.
Qed.

(** Prophetverse on a panel: the same for the point forecasts, which are labelled with the series. *)
Theorem C113_univariate : forall k, (forall p, (0 < k p)%R) -> forall c (ob : objects (TS := TS)) y X target levels, c_hier c = false -> c_scale c = None -> discrete c = false -> lift_free_config c ->
  match panel_fit c ob y X, panel_fit c ob (own_units k y) X with
  | Ok ms, Ok ms' => forall X2 fh, match panel_point c target levels ms X2 fh, panel_point c target levels ms' X2 fh with
                                   | Ok F, Ok F' => F' = own_units k F | Err e, Err e' => e' = e | _, _ => False end
  | Err e, Err e' => e' = e
  | _, _ => False
  end.
Proof.
  intros k kpos c ob y X target levels H C D LF.
  pose proof (currency_panel ns_of order keep tr_clone tr_fit_transform tr_transform svi_run nuts_run latent_sites guide_draw complete_draw k kpos c ob y X target levels H C D LF) as Q.
  destruct (panel_fit c ob y X), (panel_fit c ob (own_units k y) X); try contradiction; [|exact Q].
  intros X2 fh. rewrite (Q X2 fh). destruct (panel_point c target levels _ X2 fh); reflexivity.
Qed.
End Any.
Print Assumptions C113_forecast.
Print Assumptions C113_error.
Print Assumptions C113_univariate.

(** Series a in cents, series b as before: the forecast of a is multiplied by a hundred, that of b is the same. *)
Example C113_nonvacuous : (forall p, (0 < cents p)%R) /\ no_zero_series ex_yh /\ c_hier pw_config = true /\ c_scale pw_config = None /\
  value_in (fit_and_predict pw_config ex_yh) ["a"] 2 1 = Some 2%R /\ value_in (fit_and_predict pw_config (own_units cents ex_yh)) ["a"] 2 1 = Some 200%R /\
  value_in (fit_and_predict pw_config ex_yh) ["b"] 2 1 = Some 4%R /\ value_in (fit_and_predict pw_config (own_units cents ex_yh)) ["b"] 2 1 = Some 4%R.
Proof. exact (conj cents_pos (conj (proj1 pw_comparable) (conj eq_refl (conj eq_refl cents_a)))). Qed.
Example C113_nonvacuous_univariate : lift_free_config auto_config /\ exists ms f, auto_fit pan_y = Ok ms /\ auto_point ms = Ok f /\
  map (fun r => (r_path r, r_time r)) (f_rows f) = [(["a"], 8%Z); (["a"], 9%Z); (["b"], 6%Z); (["b"], 7%Z)].
Proof. exact (conj auto_lift_free auto_runs). Qed.
