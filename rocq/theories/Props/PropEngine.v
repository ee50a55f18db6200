(** Properties C63, C66, C67: inference engines.  All theorems hold for every optimiser, sampler and
    random generator (the section variables). *)
From Coq Require Import Reals String Bool ZArith List.
From Verif.Model Require Import Base Num XFloat Regex Frame Arr Expand Aggregate Scale Predict Prog Likelihood Trend Effect
  TrendProg Engine Forecaster.
From Verif.Spec Require Import FrameSpec ForecasterSpec.
From Verif.Facts Require Import EffectExamples ForecasterExamples EngineFacts EngineExamples PanelRuns.
Import ListNotations.
Local Open Scope string_scope.

Section Any.
Variable ns_of : Z -> Z.
Variable order : list string -> list string.
Variable keep : path -> bool.
Context {TS : Type}.
Variable tr_fit_transform : TS -> frame R -> TS * res (frame R).
Variable tr_transform : TS -> frame R -> res (frame R).
Context {P : Type}.
Variable svi_run : Z -> nat -> nat -> prog arr -> res (list xr * P).
Variable nuts_run : Z -> nat -> nat -> nat -> prog arr -> res (nat -> nat -> env).
Variable latent_sites : prog arr -> list string.
Variable guide_draw : P -> Z -> nat -> prog arr -> env.
Variable complete_draw : env -> Z -> nat -> prog arr -> env.

Notation infer := (infer svi_run nuts_run latent_sites).
Notation fit_forecaster := (fit_forecaster ns_of order keep tr_fit_transform svi_run nuts_run latent_sites).
Notation forecast_samples := (forecast_samples ns_of keep tr_transform guide_draw complete_draw).

(** * C63 Full statement: equal parameters and data give equal forecasts when rng_key is None.  The key
    is 24 (all other state is an argument of the functions below).  The iteration order of Python's
    sets, which differs between processes, is irrelevant for Prophetverse on single series. *)
Theorem C63_key : forall c ob y X, c_key c = None ->
  fit_forecaster c ob y X = fit_forecaster (with_key c (Some 24%Z)) ob y X /\
  forall ob2 f y2 X2 fh, forecast_samples c ob2 f y2 X2 fh = forecast_samples (with_key c (Some 24%Z)) ob2 f y2 X2 fh.
Proof. exact (c63_key ns_of order keep tr_fit_transform tr_transform svi_run nuts_run latent_sites guide_draw complete_draw). Qed.

Theorem C63_processes_partial : forall o1 o2 c ob y X, c_hier c = false -> f_levels y = 0 -> (forall X', X = Some X' -> f_levels X' = 0) ->
  (forall tr X0 tr' X1, o_transformer ob = Some tr -> f_levels X0 = 0 -> tr_fit_transform tr X0 = (tr', Ok X1) -> f_levels X1 = 0) ->
  Forecaster.fit_forecaster ns_of o1 keep tr_fit_transform svi_run nuts_run latent_sites c ob y X =
  Forecaster.fit_forecaster ns_of o2 keep tr_fit_transform svi_run nuts_run latent_sites c ob y X.
Proof. exact (c63_order ns_of keep tr_fit_transform svi_run nuts_run latent_sites). Qed.

(** * C66 *)
Theorem C66_map : forall a m ls l params, en_method a = "map" ->
  svi_run (en_key a) (en_optimizer a) (en_steps a) m = Ok ((ls ++ [l])%list, params) ->
  infer a m = if xisnan l then Err InferenceError else Ok (IMap params (latent_sites m)).
Proof. exact (infer_map svi_run nuts_run latent_sites). Qed.

(** an unknown method is a ValueError *)
Theorem C66_unknown : forall a m, en_method a <> "mcmc" -> en_method a <> "map" -> infer a m = Err ValueError.
Proof. exact (infer_unknown svi_run nuts_run latent_sites). Qed.

(** * C67 *)
Theorem C67_map : forall c ob y X ob' f, c_method c = "map" -> fit_forecaster c ob y X = (ob', Ok f) ->
  forall ob2 y2 X2 fh f2 out, forecast_samples c ob2 f y2 X2 fh = (f2, Ok out) ->
  f_cols out = map sample_name (seq 0 (Z.to_nat 1000)).
Proof.
  intros c ob y X ob' f M H ob2 y2 X2 fh f2 out Ho.
  rewrite (c67 ns_of order keep tr_fit_transform tr_transform svi_run nuts_run latent_sites guide_draw complete_draw _ _ _ _ _ _ H _ _ _ _ _ _ Ho).
  unfold n_draws, engine_of, en_method. rewrite M. reflexivity.
Qed.

Theorem C67_mcmc : forall c ob y X ob' f, c_method c = "mcmc" -> fit_forecaster c ob y X = (ob', Ok f) ->
  forall ob2 y2 X2 fh f2 out, forecast_samples c ob2 f y2 X2 fh = (f2, Ok out) ->
  f_cols out = map sample_name (seq 0 (c_samples c * c_chains c)).
Proof.
  intros c ob y X ob' f M H ob2 y2 X2 fh f2 out Ho.
  rewrite (c67 ns_of order keep tr_fit_transform tr_transform svi_run nuts_run latent_sites guide_draw complete_draw _ _ _ _ _ _ H _ _ _ _ _ _ Ho).
  unfold n_draws, engine_of, en_method. rewrite M. reflexivity.
Qed.
End Any.
Print Assumptions C63_key.
Print Assumptions C63_processes_partial.
Print Assumptions C66_map.
Print Assumptions C66_unknown.
Print Assumptions C67_map.
Print Assumptions C67_mcmc.

(** Two iteration orders of the set of matched columns give different models: with the same values of
    the latent sites the effect of the first row is 20 in one process and 2 in another. *)
Theorem C63_hierarchical_refuted :
  succeeds (fit_pw (fun l => l) (Some ex_Xh)) = true /\ succeeds (fit_pw (@rev string) (Some ex_Xh)) = true /\
  value_of by_position (program (fit_pw (fun l => l) (Some ex_Xh))) "all" 0 = Some 20%R /\
  value_of by_position (program (fit_pw (@rev string) (Some ex_Xh))) "all" 0 = Some 2%R.
Proof. exact pw_order_matters. Qed.
Print Assumptions C63_hierarchical_refuted.

Example C66_nonvacuous :
  infer (P := unit) (fun _ _ _ _ => Ok ([XNaN; XF 1], tt)) (fun _ _ _ _ _ => Err ValueError) (fun _ => []) (mkEngine "map" 24 2 0 0 0 0) (Raise ValueError) = Ok (IMap tt []) /\
  infer (P := unit) (fun _ _ _ _ => Ok ([XF 1; XNaN], tt)) (fun _ _ _ _ _ => Err ValueError) (fun _ => []) (mkEngine "map" 24 2 0 0 0 0) (Raise ValueError) = Err InferenceError.
Proof. split; reflexivity. Qed.

(** A complete run with two chains of three samples. *)
Example C63_C67_nonvacuous : match run_samples "mcmc" (Some Xu) (Some Xf) (Relative [1; 2]%Z) with
  | Ok out => f_cols out = ["0"; "1"; "2"; "3"; "4"; "5"] /\ map r_time (f_rows out) = [8; 9]%Z
  | Err _ => False end.
Proof. exact ex_run. Qed.
