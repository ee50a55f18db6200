(** The doubling transformer on a panel without exogenous data. *)
From Coq Require Import Reals String Bool ZArith List Permutation.
From Verif.Model Require Import Base Num XFloat Frame Arr Aggregate Scale Prog Likelihood Effect Trend TrendProg Engine Predict Forecaster.
From Verif.Spec Require Import FrameSpec ForecasterSpec TotalSpec PanelSpec TransformerSpec.
From Verif.Facts Require Import EffectExamples ForecasterExamples EngineExamples HistoryExamples ComponentExamples PanelFit PanelForecast PanelTotalExamples
  TransformerFacts TransformerTotal TransformerBare.
Import ListNotations.
Local Open Scope string_scope.

Lemma bare_example trend likelihood : In trend ["linear"; "linear_raw"; "logistic"] ->
  let bare := mkFrame 1 [] [mkRow ["a"] 0 []; mkRow ["a"] 1 []; mkRow ["b"] 0 []; mkRow ["b"] 1 []] in
  transformer_input (posed_config trend likelihood "mcmc") (given_table keep_all (posed_config trend likelihood "mcmc") ex_yh None) = Ok bare /\
  frame_wf (given_table keep_all (posed_config trend likelihood "mcmc") ex_yh None) /\
  f_cols (given_table keep_all (posed_config trend likelihood "mcmc") ex_yh None) = [] /\
  tool_fit (true, false) bare = ((true, true), Ok bare) /\ keeps_rows bare bare /\
  exists ob f, fit_forecaster ex_ns sorted_sets keep_all tool_fit ex_svi ex_nuts comp_latent (posed_config trend likelihood "mcmc") (with_tool true) ex_yh None = (ob, Ok f) /\
    o_transformer ob = Some (true, true).
Proof.
  intros HT bare.
  assert (A : transformer_input (posed_config trend likelihood "mcmc") (given_table keep_all (posed_config trend likelihood "mcmc") ex_yh None) = Ok bare) by reflexivity.
  assert (W : frame_wf (given_table keep_all (posed_config trend likelihood "mcmc") ex_yh None)) by (intros r Hr; cbn in Hr; repeat destruct Hr as [<-|Hr]; try contradiction; split; reflexivity).
  assert (C : f_cols (given_table keep_all (posed_config trend likelihood "mcmc") ex_yh None) = []) by reflexivity.
  assert (T : tool_fit (true, false) bare = ((true, true), Ok bare)) by reflexivity.
  assert (K : keeps_rows bare bare) by (split; [reflexivity|]; split; [reflexivity|]; intros r Hr; cbn in Hr; repeat destruct Hr as [<-|Hr]; try contradiction; split; reflexivity).
  repeat (split; [assumption|]).
  assert (Order : forall l, Permutation (sorted_sets l) l) by (intros l; reflexivity).
  pose proof (panel_posed trend likelihood "mcmc" ex_yh None HT (or_introl eq_refl) (or_introl eq_refl)) as WP.
  destruct (fit_panel_total ex_ns sorted_sets Order keep_all tool_fit ex_svi ex_nuts comp_latent _ (without_transformer (with_tool true)) _ _ ex_yh None WP (posed_clean trend likelihood "mcmc") eq_refl) as (ob0 & tab & p & m & cols & E0 & _).
  destruct (bare_fit ex_ns sorted_sets keep_all tool_fit ex_svi ex_nuts comp_latent (posed_config trend likelihood "mcmc") (with_tool true) ex_yh None (true, false) (true, true) bare bare eq_refl eq_refl C A T K eq_refl W) as [S B].
  rewrite E0 in S. cbn [snd] in S. unfold infer in S. change (String.eqb (en_method (engine_of (posed_config trend likelihood "mcmc"))) "mcmc") with true in S. cbv iota in S. unfold ex_nuts in S. cbn [bind] in S.
  destruct (B _ S) as (B1 & _). clear B.
  match type of S with snd ?F = Ok ?g => exists (fst F), g; split; [rewrite <- S; apply surjective_pairing|exact B1] end.
Qed.
