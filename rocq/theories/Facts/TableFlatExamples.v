(** Components with a flat trend. *)
From Coq Require Import Reals Lra String Bool ZArith List Sorted Permutation Lia.
From Verif.Model Require Import Base Num XFloat Regex Frame Arr Expand Aggregate Scale Prog Likelihood Effect Trend TrendProg Engine Predict Forecaster.
From Verif.Spec Require Import TotalSpec RegexSpec FrameSpec ScaleSpec PredictSpec TrendSpec ProgSpec EffectSpec ForecasterSpec AlignSpec SiteSpec ShapeSpec ComponentSpec OverlapSpec DocsSpec ResponseSpec DrawSpec TableSpec.
From Verif.Facts Require Import BaseFacts NumFacts ForecasterFacts ForecasterInv ForecasterProps EffectExamples ForecasterExamples EngineExamples HistoryExamples AlignExamples PanelRuns ComponentExamples CounterExamples OverlapExamples TotalExamples
  DocsExamples ModelProps EffectFacts AlignForecaster ResponseForecaster ResponseExamples TableFacts TotalSitesExamples.
From Verif.Spec Require Import OverlapSpec DrawSpec.
Import ListNotations.
From Verif.Facts Require Import SeasonExamples TableFacts TableFlat TableExamples.
From Verif.Spec Require Import ResponseSpec OverlapSpec DrawSpec.
Local Open Scope string_scope.

Lemma flat_example : exists ob f out u,
  sites_fit "flat" "normal" = (ob, Ok f) /\ flat_trend (o_trend ob) /\ ft_scale f = SFloat u /\ factor (docs_config "flat") f u /\
  forecast_all_sites ex_ns keep_all ex_transform ex_guide ex_complete (docs_config "flat") ob f ex_y (Some Xd) hd3 = (f, Ok out) /\ run_transform ex_transform ob (supplied (Some Xd) [0; 7; 14]%Z) = Ok Xd /\
  (forall l, In l [linear_tv; season; hill_web] -> exists ef, In (l_name l, ef) (p_effects (ft_prepared f))) /\
  forall row, In row (f_rows out) -> cell out row "trend" = Some u.
Proof.
  destruct (sites_example "flat" "normal" Xd hd3 ltac:(simpl; auto)) as (ob & f & HF & _ & _ & (out & FA & _) & _).
  { simpl; auto. } { apply total_hill; cbn; intros r v [<-|[<-|[<-|[]]]] [<-|[<-|[]]]; lra. } { cbn. repeat constructor; simpl; intuition discriminate. }
  { split; [exact docs_wf|]. split; [reflexivity|]. split; [|cbn; tauto]. repeat constructor; simpl; intuition discriminate. } { cbn; tauto. }
  assert (SC : exists u, ft_scale f = SFloat u).
  { pose proof HF as H. apply fit_forecaster_inv in H. destruct H as (s & ys & p & m & post & ES & _ & _ & _ & ->). cbn [ft_scale]. change (c_scale (total_config "flat" "normal" "mcmc")) with (@None scale) in ES. unfold set_y_scales in ES. cbn in ES.
    destruct (Reqb _ _) eqn:Q; [|injection ES as <-; eauto]. exfalso. apply Reqb_true in Q. revert Q. unfold Rabs. repeat match goal with |- context[Rcase_abs ?x] => destruct (Rcase_abs x); try lra end; unfold Rmax; repeat match goal with |- context[Rle_dec ?a ?b] => destruct (Rle_dec a b); try lra end. }
  destruct SC as (u & SC). pose proof (table_no_transformer _ _ _ HF) as NT.
  assert (FT : flat_trend (o_trend ob)).
  { pose proof HF as H. apply fit_forecaster_inv in H. destruct H as (s & ys & p & m & post & _ & _ & H & _ & _). unfold fit_data in H. change (c_hier (total_config "flat" "normal" "mcmc")) with false in H. cbv iota in H.
    apply univariate_fit_inv in H. destruct H as (t0 & t & yt & X1 & Xe & td & data & G & _ & TR & _ & _ & <- & _). unfold get_trend_model in G. cbn in G. injection G as <-. cbn in TR. repeat match type of TR with context [match ?q with _ => _ end] => destruct q; try discriminate end; injection TR as TR; rewrite <- TR; exact I. }
  assert (FU : factor (docs_config "flat") f u) by (right; split; [reflexivity|exact SC]).
  assert (HW : forall Z, Some Xu = Some Z -> frame_wf Z) by (intros Z [= <-]; exact docs_x_wf).
  exists ob, f, out, u. split; [exact HF|]. split; [exact FT|]. split; [exact SC|]. split; [exact FU|]. split; [exact FA|]. split; [exact NT|]. split; [intros l Hl; exact (table_used "flat" ob f l HF Hl)|].
  destruct (c112_flat ex_ns sorted_sets keep_all ex_fit_transform ex_transform ex_svi ex_nuts model_latent ex_guide ex_complete _ _ _ _ _ _ u u HF eq_refl eq_refl docs_y_wf (total_clean _ _ _) (table_distinct "flat") FT SC FU HW docs_transformer
    [0; 1; 7]%Z 0%Z eq_refl docs_first ex_y (Some Xd) hd3 f out 7%Z [0; 7; 14]%Z Xd FA eq_refl eq_refl eq_refl NT docs_covers docs_wf eq_refl ltac:(discriminate) docs_order) as (m & es & HM & ES & _ & _ & CELL).
  intros row Hrow. destruct (CELL row Hrow) as [A _]. rewrite A. f_equal. clear CELL A. pose proof (table_two "flat" ob f m HF) as LN. pose proof (fun e n j => table_draws "flat" ob f m e n j HF) as DR. rewrite <- ES in LN. rewrite <- ES in DR.
  destruct es as [|e1 [|e2 [|]]]; try discriminate. cbn [map]. rewrite (DR e1), (DR e2) by (simpl; auto; discriminate). unfold Rmean. cbn. lra.
Qed.
