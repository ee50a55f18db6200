(** Training runs of forecasters with piecewise trends. *)
From Coq Require Import Reals Lra String Bool ZArith List Sorted Permutation Lia.
From Verif.Model Require Import Base Num XFloat Regex Frame Arr Expand Aggregate Scale Prog Likelihood Effect Trend TrendProg Engine Predict Forecaster.
From Verif.Spec Require Import FrameSpec ScaleSpec TrendSpec ProgSpec EffectSpec ForecasterSpec AlignSpec SiteSpec ShapeSpec TotalSpec LineSpec DocsSpec.
From Verif.Facts Require Import BaseFacts NumFacts ForecasterFacts ForecasterInv ForecasterProps EffectExamples ForecasterExamples EngineExamples HistoryExamples AlignExamples ComponentExamples CounterExamples OverlapExamples TotalFit TotalForecast TotalExamples DocsExamples.
Import ListNotations.
Local Open Scope string_scope.

Lemma docs_trained trend : In trend ["linear"; "linear_raw"; "logistic"] ->
  exists ob f ys m o tr, total_fit trend "normal" "mcmc" = (ob, Ok f) /\ (0 < scale_number (ft_scale f))%R /\ scale_y false (ft_scale f) ex_y = Ok ys /\
    fit_data ex_ns sorted_sets keep_all ex_fit_transform (docs_config trend) (no_objects None) (ft_scale f) ys (Some Xu) = (ob, Ok (ft_prepared f, m)) /\ run one [] m = Ok (o, tr).
Proof.
  intros HT. assert (HT' : In trend ["linear"; "linear_raw"; "flat"; "logistic"]) by (simpl in *; tauto). assert (HL : In "normal" ["normal"; "gamma"; "negbinomial"]) by (simpl; auto).
  pose proof (total_posed trend "normal" "mcmc" HT' HL) as W. pose proof (total_clean trend "normal" "mcmc") as CL.
  assert (HD : hill_data (docs_config trend) (Some Xu)) by (apply total_hill; cbn; intros r v [<-|[<-|[<-|[]]]] [<-|[<-|[]]]; lra).
  destruct (scale_total ex_ns _ ex_y (Some Xu) W) as (s & Es & Ps & ys & yt & Eys & Eyt & Eyt2 & Eor & _).
  destruct (fit_data_total ex_ns sorted_sets keep_all ex_fit_transform _ (no_objects None) s ex_y ys yt (Some Xu) W CL HD eq_refl Es Ps Eor Eyt Eyt2) as (ob & p & m & F & _ & _ & _ & R1).
  destruct (R1 one) as (o & tr & RU). { split; intros; unfold one; lra. }
  assert (PO : exists post, infer ex_svi ex_nuts comp_latent (engine_of (total_config trend "normal" "mcmc")) m = Ok post).
  { unfold infer. change (String.eqb (en_method (engine_of (total_config trend "normal" "mcmc"))) "mcmc") with true. cbv iota. unfold ex_nuts. cbn [bind]. eauto. }
  destruct PO as (post & PO). exists ob, (mkFitted s p post), ys, m, o, tr. cbn [ft_scale ft_prepared]. split.
  - unfold total_fit, fit_forecaster. rewrite Es. cbn [bind]. rewrite Eys. cbn [bind]. rewrite F. cbn [bind]. rewrite PO. reflexivity.
  - auto.
Qed.

(** the points (0, 3), (1, 4) and (7, 8) *)
Lemma ex_y_line : least_squares (135 / 43) (30 / 43) (series_points ex_y []).
Proof.
  intros a b. cbn. set (p := (a - 135 / 43)%R). set (q := (b - 30 / 43)%R). replace a with (p + 135 / 43)%R by (unfold p; ring). replace b with (q + 30 / 43)%R by (unfold q; ring).
  pose proof (Rle_0_sqr p). pose proof (Rle_0_sqr (p + q)). pose proof (Rle_0_sqr (p + 7 * q)). unfold Rsqr in *. nra.
Qed.
Lemma ex_y_one : one_column ex_y /\ (2 <= List.length (f_rows ex_y))%nat.
Proof. split; [split; [|reflexivity]; intros r [<-|[<-|[<-|[]]]]; split; reflexivity|cbn; lia]. Qed.
