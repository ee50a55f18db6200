(** Limits: inputs of the examples. *)
From Coq Require Import Reals Lra String Bool ZArith List.
From Verif.Model Require Import Base Num XFloat Frame Arr Prog Effect Trend TrendProg Engine Forecaster.
From Verif.Spec Require Import FrameSpec ForecasterSpec ResponseSpec SeasonSpec LimitSpec.
From Verif.Facts Require Import EffectExamples ForecasterExamples EngineExamples CounterExamples TotalExamples DocsExamples ResponseExamples UpwardExamples SeasonExamples.
Import ListNotations.
Local Open Scope string_scope.

Lemma week_tame trend : forall name ef0 cols x, configured (docs_config trend) name ef0 -> values_at Xd this_week cols x -> tame one name ef0 x.
Proof.
  intros name ef0 cols x CF V. destruct CF as [(effects & regex & [= <-] & HI)|[_ [[=]|[_ ->]]]]; [|exact I]. destruct HI as [HI|[HI|[HI|[]]]]; injection HI as _ <- _; try exact I.
  split; [|unfold parameter, one; lra]. intros u ->. destruct (values_nth _ _ _ _ 0 u V eq_refl) as (col & _ & A). cbn in A. destruct (String.eqb col "tv"); [injection A as <-; lra|]. destruct (String.eqb col "web"); [injection A as <-; lra|discriminate].
Qed.
Lemma two_tame : forall name ef0 x, configured two_config name ef0 -> tame one name ef0 x.
Proof. intros name ef0 x CF. destruct CF as [(effects & regex & [= <-] & HI)|[_ [[=]|[_ ->]]]]; [|exact I]. destruct HI as [HI|[HI|[]]]; injection HI as _ <- _; exact I. Qed.
