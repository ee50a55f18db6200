(** Concrete forecasts whose columns are draws: two chains of three draws, and a fit with "map". *)
From Coq Require Import Reals Lra String Bool ZArith List Sorted Permutation Lia.
From Verif.Model Require Import Base Num XFloat Regex Frame Arr Expand Aggregate Scale Prog Likelihood Effect Trend TrendProg Engine Predict Forecaster.
From Verif.Spec Require Import FrameSpec ScaleSpec TrendSpec ProgSpec EffectSpec ForecasterSpec AlignSpec SiteSpec ShapeSpec TotalSpec DrawSpec.
From Verif.Facts Require Import NumFacts ForecasterFacts ForecasterProps EffectExamples ForecasterExamples EngineExamples HistoryExamples ComponentExamples TotalForecast TotalExamples.
Import ListNotations.
Local Open Scope string_scope.

(** two chains of three draws of a forecaster whose scale is 2 *)
Lemma draw_mcmc : exists ob f f2 out, run_fit "mcmc" (Some Xu) = (ob, Ok f) /\ factor (run_config "mcmc") f 2 /\
  forecast_samples ex_ns keep_all ex_transform ex_guide ex_complete (run_config "mcmc") ob f ex_y (Some Xf) (Relative [1; 2]%Z) = (f2, Ok out) /\
  c_samples (run_config "mcmc") = 3 /\ c_chains (run_config "mcmc") = 2 /\ f_levels ex_y = 0.
Proof.
  pose proof ex_run as K. unfold run_samples in K. destruct (run_fit "mcmc" (Some Xu)) as [ob [f|]] eqn:EF; [|contradiction].
  destruct (forecast_samples _ _ _ _ _ _ _ _ _ _ _) as [f2 [out|]] eqn:ES; [|contradiction]. exists ob, f, f2, out. split; [reflexivity|]. split; [|split; [exact ES|repeat split]].
  right. split; [reflexivity|]. unfold run_fit in EF. apply fit_forecaster_inv in EF. destruct EF as (s & ys & p & m0 & post & E1 & _ & _ & _ & ->). cbn [ft_scale]. cbn [c_scale run_config] in E1. rewrite ex_scale in E1. congruence.
Qed.

(** a guide whose draws of observations are their numbers *)
Definition count_guide (u : unit) (k : Z) (i : nat) (m : prog arr) : env := fun n _ => if String.eqb n "obs" then INR i else 1%R.

Lemma draw_map : exists ob f out, total_fit "linear" "negbinomial" "map" = (ob, Ok f) /\ factor (total_config "linear" "negbinomial" "map") f 1 /\
  forecast_samples ex_ns keep_all ex_transform count_guide ex_complete (total_config "linear" "negbinomial" "map") ob f ex_y (Some Xf) (Relative [1; 2]%Z) = (f, Ok out).
Proof.
  set (c := total_config "linear" "negbinomial" "map").
  assert (W : well_posed ex_ns c ex_y (Some Xu)) by (apply total_posed; simpl; auto). pose proof (total_clean "linear" "negbinomial" "map") as CL. fold c in CL.
  assert (HD : hill_data c (Some Xu)) by (apply total_hill; cbn; intros r v [<-|[<-|[<-|[]]]] [<-|[<-|[]]]; lra).
  assert (HD2 : hill_data c (Some Xf)) by (apply total_hill; cbn; intros r v [<-|[<-|[]]] [<-|[<-|[]]]; lra).
  destruct (fit_total ex_ns sorted_sets keep_all ex_fit_transform ex_svi ex_nuts comp_latent _ (no_objects None) ex_y (Some Xu) W CL HD eq_refl) as (ob & s & p & m & E & _).
  unfold infer in E. cbn [c total_config engine_of en_method c_method String.eqb Ascii.eqb Bool.eqb] in E. unfold ex_svi in E. cbn [bind] in E. change (nan_loss [XF 1]) with (Ok false) in E. cbn [bind] in E.
  match type of E with _ = (_, Ok ?g) => set (f := g) in E end. exists ob, f.
  destruct (forecast_total ex_ns sorted_sets keep_all ex_fit_transform ex_transform ex_svi ex_nuts comp_latent count_guide ex_complete _ (no_objects None) ob ex_y (Some Xu) f (Some Xf) (Relative [1; 2]%Z) 7
    W CL HD eq_refl E) as (F & HF & PF); auto.
  - repeat constructor; simpl; intuition discriminate.
  - split; [|cbn; tauto]. split; [intros r [<-|[<-|[]]]; split; reflexivity|]. split; [reflexivity|]. split; [|cbn; tauto]. repeat constructor; simpl; intuition discriminate.
  - cbn. intuition discriminate.
  - intros m'. split.
    + unfold draws. cbn [ft_posterior f]. unfold default_predict_num_samples. intros Q. apply (f_equal (@List.length env)) in Q. rewrite map_length, seq_length in Q. cbn [List.length] in Q. change (Z.to_nat 1000 = Z.to_nat 0) in Q. apply Z2Nat.inj in Q; lia.
    + intros e He. unfold draws in He. cbn [ft_posterior f] in He. apply in_map_iff in He as (i & <- & _). split; [intros l _ _|discriminate].
      unfold count_guide. repeat match goal with |- context [if String.eqb ?a "obs" then _ else _] => destruct (String.eqb a "obs") eqn:?Q end; try lra; exfalso;
      match goal with H : String.eqb _ "obs" = true |- _ => apply String.eqb_eq in H; destruct (l_name l) as [|? [|? [|? [|? ?]]]]; discriminate end.
  - exists F. split; [exact E|]. split; [left; split; reflexivity|exact HF].
Qed.
