(** C111: an effect that finds no columns changes nothing. *)
From Coq Require Import Reals Lra String Bool ZArith List.
From Verif.Model Require Import Base Num XFloat Regex Frame Arr Prog Likelihood Effect TrendProg Aggregate Scale Engine Predict Forecaster.
From Verif.Spec Require Import ForecasterSpec RelistSpec IdleSpec.
From Verif.Facts Require Import NumFacts CopyFacts EffectExamples ForecasterExamples EngineExamples AlignExamples ComponentExamples IdleFacts.
Import ListNotations.
Local Open Scope string_scope.

Section Any.
Variable ns_of : Z -> Z.
Variable order : list string -> list string.
Variable keep : path -> bool.
Context {TS P : Type}.
Variable tr_fit_transform : TS -> frame R -> TS * res (frame R).
Variable tr_transform : TS -> frame R -> res (frame R).
Variable svi_run : Z -> nat -> nat -> prog arr -> res (list xr * P).
Variable nuts_run : Z -> nat -> nat -> nat -> prog arr -> res (nat -> nat -> env).
Variable latent_sites : prog arr -> list string.
Variable guide_draw : P -> Z -> nat -> prog arr -> env.
Variable complete_draw : env -> Z -> nat -> prog arr -> env.
Notation fit_forecaster := (fit_forecaster ns_of order keep tr_fit_transform svi_run nuts_run latent_sites).
Notation same_forecasts := (same_forecasts ns_of keep tr_transform guide_draw complete_draw).

(** listing it: anywhere in the list, under any name *)
Theorem C111_add : forall c l1 l l2 ob y X ob' f, effects_of c = (l1 ++ l2)%list -> idle c ob X l -> fit_forecaster c ob y X = (ob', Ok f) ->
  exists f', fit_forecaster (with_effects c (l1 ++ l :: l2)) ob y X = (ob', Ok f') /\ ft_scale f' = ft_scale f /\ ft_posterior f' = ft_posterior f /\ same_forecasts c (with_effects c (l1 ++ l :: l2)) f f'.
Proof. exact (c111_add ns_of order keep tr_fit_transform tr_transform svi_run nuts_run latent_sites guide_draw complete_draw). Qed.

(** no longer listing it *)
Theorem C111_remove : forall c l1 l l2 ob y X ob' f, effects_of c = (l1 ++ l :: l2)%list -> idle c ob X l -> fit_forecaster c ob y X = (ob', Ok f) ->
  exists f', fit_forecaster (with_effects c (l1 ++ l2)) ob y X = (ob', Ok f') /\ ft_scale f' = ft_scale f /\ ft_posterior f' = ft_posterior f /\ same_forecasts c (with_effects c (l1 ++ l2)) f f'.
Proof. exact (c111_remove ns_of order keep tr_fit_transform tr_transform svi_run nuts_run latent_sites guide_draw complete_draw). Qed.

(** Both classes, with or without a feature transformer: an effect that was fitted without columns can be left out.
    (Which columns an effect gets is C41, C95 and C106.) *)
Theorem C111_unmatched : forall c l1 l l2 ob y X ob' f n e', effects_of c = (l1 ++ l :: l2)%list -> fit_forecaster c ob y X = (ob', Ok f) ->
  nth_error (p_fitted (ft_prepared f)) (List.length l1) = Some (n, e', []) -> skip_if_no_match (l_effect l) = true ->
  exists f', fit_forecaster (with_effects c (l1 ++ l2)) ob y X = (ob', Ok f') /\ ft_scale f' = ft_scale f /\ ft_posterior f' = ft_posterior f /\ same_forecasts c (with_effects c (l1 ++ l2)) f f'.
Proof. exact (c111_drop ns_of order keep tr_fit_transform tr_transform svi_run nuts_run latent_sites guide_draw complete_draw). Qed.
End Any.

Print Assumptions C111_add.
Print Assumptions C111_remove.
Print Assumptions C111_unmatched.

(** a logarithmic effect for radio, of which X has no columns *)
Definition radio : listed := ("radio", Log Additive (DUser 1) (DUser 2) base_init, Some "radio").
Example C111_add_nonvacuous : effects_of (run_config "mcmc") = ([] ++ [linear_tv])%list /\ idle (run_config "mcmc") (no_objects None) (Some Xu) radio /\
  exists ob f, run_fit "mcmc" (Some Xu) = (ob, Ok f).
Proof.
  split; [reflexivity|]. split.
  - split; [reflexivity|]. split.
    + intros p [= <-]. vm_compute. eauto.
    + right. exists Xu. do 3 (split; [reflexivity|]). split; [right; reflexivity|]. intros x [<-|[<-|[]]] M; apply matched_col in M; vm_compute in M; discriminate.
  - pose proof ex_run as K. unfold run_samples in K. destruct (run_fit "mcmc" (Some Xu)) as [ob [f|]]; [eauto|contradiction].
Qed.
(** a linear effect without a pattern, in a panel *)
Example C111_add_nonvacuous_panel : idle pw_config (no_objects None) (Some ex_Xh) ("nothing", default_linear, None) /\ c_hier pw_config = true /\ exists ob f, parts_fit = (ob, Ok f).
Proof.
  split; [|split; [reflexivity|destruct parts_runs as (ob & f & _ & _ & H & _); eauto]]. split; [reflexivity|]. split; [discriminate|]. left. split; [reflexivity|]. intros x (p & r & s & E & _). discriminate.
Qed.
(** the fit of [radio] and a linear effect *)
Example C111_unmatched_nonvacuous : effects_of (with_effects (run_config "mcmc") [linear_tv; radio]) = ([linear_tv] ++ [radio])%list /\ skip_if_no_match (l_effect radio) = true /\
  exists ob f n e', fit_forecaster ex_ns sorted_sets keep_all ex_fit_transform ex_svi ex_nuts ex_latent (with_effects (run_config "mcmc") [linear_tv; radio]) (no_objects None) ex_y (Some Xu) = (ob, Ok f) /\
    nth_error (p_fitted (ft_prepared f)) 1 = Some (n, e', []).
Proof.
  split; [reflexivity|]. split; [reflexivity|]. unfold fit_forecaster. change (c_scale (with_effects (run_config "mcmc") [linear_tv; radio])) with (Some (SFloat 2)). rewrite ex_scale. vm_compute. do 4 eexists. split; reflexivity.
Qed.
(** effects that take part without columns are not idle *)
Example C111_not_fourier : skip_if_no_match (l_effect season) = false.
Proof. reflexivity. Qed.
