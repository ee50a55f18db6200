(** Forecasts after the last changepoint. *)
From Coq Require Import Reals Lra String Bool ZArith List Sorted Permutation Lia.
From Verif.Model Require Import Base Num XFloat Frame Arr Expand Aggregate Scale Prog Likelihood Effect Trend TrendProg Engine Forecaster.
From Verif.Spec Require Import RegexSpec FrameSpec ProgSpec ForecasterSpec AlignSpec SiteSpec ShapeSpec OverlapSpec ComponentSpec TrendSpec DocsSpec ResponseSpec UpwardSpec SeasonSpec OnwardSpec.
From Verif.Facts Require Import EffectExamples ForecasterExamples EngineExamples HistoryExamples ComponentExamples CounterExamples OverlapExamples TotalExamples DocsExamples ResponseExamples CellExamples
  UpwardExamples SeasonExamples.
Import ListNotations.
Local Open Scope string_scope.

Lemma onward_at t : steps (map (fun t => DocsSpec.day (ex_ns t)) [0; 1; 7]%Z) (DocsSpec.day (ex_ns t)) = (IZR t * 2 / 7)%R.
Proof. apply docs_steps. Qed.
Lemma onward_past s : (1 <= s)%R -> past_changepoints 2 1 s.
Proof. intros H k Hk. destruct k as [|[|k]]; [simpl; lra|simpl; lra|lia]. Qed.
Lemma onward_at2 t : steps (map (fun t => DocsSpec.day (ex_ns t)) [0; 1]%Z) (DocsSpec.day (ex_ns t)) = IZR t.
Proof. cbn [map]. rewrite !ex_day. unfold steps. cbn [hd last List.length Nat.sub INR]. field. Qed.
Lemma onward_past2 s : (0 <= s)%R -> past_changepoints 1 25 s.
Proof. intros H k Hk. destruct k as [|k]; [simpl; lra|lia]. Qed.
Lemma one_rate : final_rate one 2 0 = 2%R.
Proof. unfold final_rate, sum_to, one. cbn. lra. Qed.
Lemma one_rate1 : final_rate one 1 1 = 1%R.
Proof. unfold final_rate, sum_to, one. cbn. lra. Qed.
Lemma week_additive trend (f : fitted (P := unit)) name ef0 : In name (map fst (p_effects (ft_prepared f))) -> configured (docs_config trend) name ef0 -> effect_mode ef0 Additive.
Proof.
  intros _ CF. destruct CF as [(effects & regex & [= <-] & HI)|[_ [[=]|[_ ->]]]]; [|reflexivity]. destruct HI as [HI|[HI|[HI|[]]]]; injection HI as _ <- _; reflexivity.
Qed.
Lemma panel_additive (f : fitted (P := unit)) name ef0 : In name (map fst (p_effects (ft_prepared f))) -> configured two_config name ef0 -> effect_mode ef0 Additive.
Proof.
  intros _ CF. destruct CF as [(effects & regex & [= <-] & HI)|[_ [[=]|[_ ->]]]]; [|reflexivity]. destruct HI as [HI|[HI|[]]]; injection HI as _ <- _; reflexivity.
Qed.
