(** A transformer that returns its data, on a panel with exogenous columns. *)
From Coq Require Import Reals String Bool ZArith List Permutation.
From Verif.Model Require Import Base Num XFloat Frame Arr Aggregate Scale Prog Likelihood Effect Trend TrendProg Engine Predict Forecaster.
From Verif.Spec Require Import FrameSpec ForecasterSpec TotalSpec PanelSpec TransformerSpec.
From Verif.Facts Require Import EffectExamples ForecasterExamples EngineExamples HistoryExamples ComponentExamples PanelFit PanelForecast PanelTotalExamples
  TransformerIdentity.
Import ListNotations.
Local Open Scope string_scope.

(** the state tells whether it has been fitted *)
Definition same_fit (s : bool) (X : frame R) : bool * res (frame R) := (true, Ok X).
Definition same_apply (s : bool) (X : frame R) : res (frame R) := if s then Ok X else Err AttributeError.
Definition with_same : objects (TS := bool) := mkObjects (TFlat 1 base_init None) (Some false).

Lemma same_example trend likelihood : In trend ["linear"; "linear_raw"; "logistic"] ->
  (forall X0, exists tr', same_fit false X0 = (tr', Ok X0) /\ forall X', same_apply tr' X' = Ok X') /\
  exists ob f, fit_forecaster ex_ns sorted_sets keep_all same_fit ex_svi ex_nuts comp_latent (posed_config trend likelihood "mcmc") with_same ex_yh (Some ex_Xh) = (ob, Ok f).
Proof.
  intros HT. assert (I : forall X0, exists tr', same_fit false X0 = (tr', Ok X0) /\ forall X', same_apply tr' X' = Ok X') by (intros X0; exists true; split; reflexivity).
  split; [exact I|]. assert (Order : forall l, Permutation (sorted_sets l) l) by (intros l; reflexivity).
  pose proof (panel_posed trend likelihood "mcmc" ex_yh (Some ex_Xh) HT (or_introl eq_refl) (or_intror (or_introl eq_refl))) as WP.
  destruct (fit_panel_total ex_ns sorted_sets Order keep_all same_fit ex_svi ex_nuts comp_latent _ (without_transformer with_same) _ _ ex_yh (Some ex_Xh) WP (posed_clean trend likelihood "mcmc") eq_refl) as (ob0 & tab & p & m & cols & E0 & _).
  destruct (identity_transformer ex_ns sorted_sets keep_all same_fit same_apply ex_svi ex_nuts comp_latent ex_guide ex_complete (posed_config trend likelihood "mcmc") with_same ex_yh (Some ex_Xh) false eq_refl I) as [S _].
  rewrite E0 in S. cbn [snd] in S. unfold infer in S. change (String.eqb (en_method (engine_of (posed_config trend likelihood "mcmc"))) "mcmc") with true in S. cbv iota in S. unfold ex_nuts in S. cbn [bind] in S.
  match type of S with snd ?F = Ok ?g => exists (fst F), g; rewrite <- S; apply surjective_pairing end.
Qed.
