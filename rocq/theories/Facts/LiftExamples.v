(** Results of an experiment in a concrete forecaster. *)
From Coq Require Import Reals String Bool ZArith List.
From Verif.Model Require Import Base Num XFloat Regex Frame Arr Expand Aggregate Scale Prog Likelihood Effect Trend TrendProg Engine Predict Forecaster.
From Verif.Spec Require Import ProgSpec ForecasterSpec SiteSpec ShiftSpec RelistSpec RenameSpec LiftSpec.
From Verif.Facts Require Import BaseFacts EffectExamples ForecasterExamples EngineExamples LiftFacts LiftForecaster.
Import ListNotations.
Local Open Scope string_scope.

(** an experiment for "tv": a lift of 5 on the second day *)
Definition attach (l : listed) : listed := (l_name l, Lift (l_effect l) [(1%Z, Some 5%R)] 1 base_init None, l_regex l).
Definition lifted_config : config := with_effects (run_config "mcmc") (map attach (effects_of (run_config "mcmc"))).
Lemma unlift_lifted : unlift_config lifted_config = run_config "mcmc".
Proof. reflexivity. Qed.
Definition lifted_fit := fit_forecaster ex_ns sorted_sets keep_all ex_fit_transform ex_svi ex_nuts ex_latent lifted_config (no_objects None) ex_y (Some Xu).

Lemma lifted_data s ys : scale_y false (SFloat 2) ex_y = Ok ys -> exists ob p m, fit_data ex_ns sorted_sets keep_all ex_fit_transform lifted_config (no_objects None) s ys (Some Xu) = (ob, Ok (p, m)) /\ in_use (p_fitted p) /\
  exists i, without_lift i = i /\ dict_get (p_effects p) "tv" = Some (Lift i [(1%Z, Some 5%R)] 1 (mkBase (Some ["tv"]) (Some true)) (Some (scale_number s))).
Proof.
  intros ES. injection ES as <-. eexists _, _, _. split; [vm_compute; reflexivity|]. split.
  - intros n e cols I. cbn [p_fitted] in I. destruct I as [I|[I|[]]]; injection I as <- <- <-; [left; discriminate|right; reflexivity].
  - eexists. split; [|reflexivity]. reflexivity.
Qed.

Lemma lifted_samples : match lifted_fit with
  | (ob, Ok f) => match snd (forecast_samples ex_ns keep_all ex_transform ex_guide ex_complete lifted_config ob f ex_y (Some Xf) (Relative [1%Z; 2%Z])) with Ok _ => True | Err _ => False end
  | _ => False end.
Proof. unfold lifted_fit, fit_forecaster. cbn [c_scale lifted_config with_effects run_config]. rewrite ex_scale. vm_compute. exact I. Qed.

Lemma lift_example : exists ob f f', lifted_fit = (ob, Ok f) /\ run_fit "mcmc" (Some Xu) = (ob, Ok f') /\ in_use (p_fitted (ft_prepared f)) /\ ft_scale f' = ft_scale f /\ ft_prepared f' = unlift_prepared (ft_prepared f) /\
  (forall m, same_draws ex_guide ex_complete (engine_of lifted_config) (ft_posterior f) (ft_posterior f') m) /\
  (exists i, dict_get (p_effects (ft_prepared f)) "tv" = Some (Lift i [(1%Z, Some 5%R)] 1 (mkBase (Some ["tv"]) (Some true)) (Some 2%R)) /\ dict_get (p_effects (ft_prepared f')) "tv" = Some i) /\
  exists t, snd (forecast_samples ex_ns keep_all ex_transform ex_guide ex_complete lifted_config ob f ex_y (Some Xf) (Relative [1%Z; 2%Z])) = Ok t.
Proof.
  pose proof lifted_samples as K. unfold lifted_fit, run_fit, fit_forecaster in *. change (c_scale lifted_config) with (Some (SFloat 2)) in *. change (discrete lifted_config) with false in *. change (c_scale (run_config "mcmc")) with (Some (SFloat 2)). change (discrete (run_config "mcmc")) with false. rewrite ex_scale in *. cbn [bind] in *. destruct (scale_y _ _ _) as [ys|] eqn:ES; [|contradiction]. cbn [bind] in *.
  destruct (lifted_data (SFloat 2) ys ES) as (ob & p & m & FD & U & i & W & GT).
  assert (NS : forall l, In l (effects_of lifted_config) -> no_slash (l_name l) = true) by (intros l [<-|[]]; reflexivity). assert (PD : plain_default (c_default lifted_config)) by (intros e H; discriminate).
  destruct (c117_fit ex_ns sorted_sets keep_all ex_fit_transform lifted_config _ _ _ _ _ p m NS PD FD U) as (FU & _ & _). rewrite unlift_lifted in FU. rewrite FD in *. rewrite FU. clear FD FU.
  change (engine_of lifted_config) with (engine_of (run_config "mcmc")) in *. unfold infer in *. cbn [bind engine_of en_method run_config c_method String.eqb Ascii.eqb Bool.eqb] in *. unfold ex_nuts in *. cbn [bind] in *.
  match type of K with match snd (forecast_samples _ _ _ _ _ _ _ ?f _ _ _) with _ => _ end => exists ob, f end. eexists. split; [reflexivity|]. split; [reflexivity|]. cbn [ft_scale ft_prepared ft_posterior]. split; [exact U|]. do 2 (split; [reflexivity|]). split; [intros m'; split; reflexivity|]. split.
  - exists i. split; [exact GT|]. cbn [unlift_prepared p_effects]. unfold unlift_values. revert GT. generalize (p_effects p). induction d as [|[k e] d IH]; [discriminate|]. cbn [map dict_get fst snd]. destruct (String.eqb "tv" k); [intros [= ->]; cbn [without_lift]; now rewrite W|exact IH].
  - destruct (snd _) as [t|]; [eauto|contradiction].
Qed.
