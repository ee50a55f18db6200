(** Forecasters with other options. *)
From Coq Require Import Reals Lra ZArith String Bool List Lia.
From Verif.Model Require Import Base Num XFloat Frame Arr Prog Effect TrendProg Engine Forecaster.
From Verif.Spec Require Import ForecasterSpec OptionSpec.
From Verif.Facts Require Import BaseFacts EffectExamples ForecasterExamples EngineExamples HistoryExamples AlignExamples ComponentExamples OverlapExamples CounterExamples ObservedExamples TotalExamples DocsExamples ForecasterProps OptionFacts OptionFit.
Import ListNotations.
Local Open Scope string_scope.

Lemma untouched_object c a b d e : c_trend c = TrendObject -> same_structure c (with_trend_options c a b d e) /\ same_inference c (with_trend_options c a b d e) /\ forall n, ~ touched c (with_trend_options c a b d e) n.
Proof.
  intros H. split; [|split]; [repeat split..|]. intros n T. inversion T; subst; cbn in *; congruence.
Qed.

(** a linear trend; all hyperparameters of priors differ *)
Definition other_priors : config :=
  mkConfig false (TrendName "linear") 1 (4 / 5) 3 4 5 6 (Some [linear_tv; season; hill_web]) None 7 "normal" None None 8 "mcmc" (Some 5%Z) 11 1 2 6 1.
(** only those which a linear trend does not have, the default key, and the options of the other inference method *)
Definition other_unused : config :=
  mkConfig false (TrendName "linear") 1 (4 / 5) (1 / 1000) (1 / 10) 5 6 (Some [linear_tv; season; hill_web]) None (1 / 20) "normal" None None 8 "mcmc" (Some 24%Z) 11 1 2 5 1.

Lemma other_structure : same_structure (docs_config "linear") other_priors /\ same_structure (docs_config "linear") other_unused.
Proof. repeat split. Qed.
Lemma other_touched n : touched (docs_config "linear") other_priors n <-> In n ["changepoint_coefficients"; "offset"; "noise_scale"].
Proof.
  split.
  - intros T. inversion T; subst; cbn in *; try discriminate; auto.
  - intros [<-|[<-|[<-|[]]]]; [apply (touched_rates _ _ "linear")|apply (touched_offset _ _ "linear")|apply touched_noise]; cbn; auto; lra.
Qed.
Lemma other_untouched n : ~ touched (docs_config "linear") other_unused n.
Proof. intros T. inversion T; subst; cbn in *; try discriminate; lra. Qed.
Lemma other_inference : same_inference (docs_config "linear") other_unused.
Proof. repeat split; discriminate. Qed.

Definition other_fit := fit_forecaster ex_ns sorted_sets keep_all ex_fit_transform ex_svi ex_nuts comp_latent other_priors (no_objects None) ex_y (Some Xu).
Lemma other_forecasts : exists ob f m o tr ob' f' m' tr', total_fit "linear" "normal" "mcmc" = (ob, Ok f) /\ other_fit = (ob', Ok f') /\
  predict_model ex_ns keep_all ex_transform (docs_config "linear") ob f ex_y (Some Xd) hd3 = Ok m /\ predict_model ex_ns keep_all ex_transform other_priors ob' f' ex_y (Some Xd) hd3 = Ok m' /\
  run one [] m = Ok (o, tr) /\ run one [] m' = Ok (o, tr').
Proof.
  destruct (docs_example "linear") as (ob & f & m & o & tr & HF & HM & RU); [simpl; auto|].
  assert (F' : exists ob' f', other_fit = (ob', Ok f')).
  { pose proof HF as H. apply fit_forecaster_inv in H. destruct H as (s & ys & p & mm & post & E1 & E2 & E3 & _ & _).
    pose proof (c109_fit ex_ns sorted_sets keep_all ex_fit_transform _ _ (proj1 other_structure) (no_objects None) s ys (Some Xu)) as Q. fold (docs_config "linear") in E3. rewrite E3 in Q. cbn [snd] in Q.
    unfold other_fit, fit_forecaster. change (c_scale other_priors) with (c_scale (total_config "linear" "normal" "mcmc")). change (discrete other_priors) with (discrete (total_config "linear" "normal" "mcmc")).
    rewrite E1. cbn [bind]. rewrite E2. cbn [bind]. destruct (fit_data _ _ _ _ other_priors _ _ _ _) as [ob' [[p' m']|]]; [|contradiction]. cbn [snd bind] in *.
    unfold infer. change (String.eqb (en_method (engine_of other_priors)) "mcmc") with true. cbv iota. unfold ex_nuts. cbn [bind]. eauto. }
  destruct F' as (ob' & f' & HF'). destruct (c109_forecast ex_ns sorted_sets keep_all ex_fit_transform ex_transform ex_svi ex_nuts comp_latent _ _ (proj1 other_structure) _ _ _ _ _ _ _ HF HF') as (_ & _ & Q).
  specialize (Q ex_y (Some Xd) hd3). rewrite HM in Q. destruct (predict_model ex_ns keep_all ex_transform other_priors ob' f' ex_y (Some Xd) hd3) as [m'|] eqn:HM'; [|contradiction].
  specialize (Q one). rewrite RU in Q. destruct (run one [] m') as [[o' tr']|] eqn:RU'; [|contradiction]. destruct Q as [<- _].
  exists ob, f, m, o, tr, ob', f', m', tr'. auto 10.
Qed.
