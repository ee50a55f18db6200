(** The component tables of a well-posed panel. *)
From Coq Require Import Reals Lra String Bool ZArith List Sorted Permutation Lia.
From Verif.Model Require Import Base Num XFloat Regex Frame Arr Expand Aggregate Scale Prog Likelihood Effect Trend TrendProg Engine Predict Forecaster Tensors.
From Verif.Spec Require Import FrameSpec ScaleSpec TrendSpec ProgSpec PredictSpec EffectSpec ForecasterSpec AlignSpec SiteSpec LineSpec ShapeSpec TotalSpec PosteriorSpec PanelSpec.
From Verif.Facts Require Import NumFacts ScaleFacts ForecasterFacts EffectExamples ForecasterExamples EngineExamples HistoryExamples ComponentExamples InsampleExamples PanelScale PanelFit PanelForecast PanelTotalExamples TotalSitesExamples PanelSites.
Import ListNotations.
Local Open Scope string_scope.

Definition panel_sites_fit trend likelihood X :=
  fit_forecaster ex_ns sorted_sets keep_all ex_fit_transform ex_svi ex_nuts model_latent (posed_config trend likelihood "mcmc") (no_objects None) ex_yh X.

Lemma panel_sites_example trend likelihood (X X2 : option (frame R)) : In trend ["linear"; "linear_raw"; "logistic"] -> In (X, X2) [(None, None); (None, Some ex_X2); (Some ex_Xh, Some ex_X2)] ->
  exists ob f, panel_sites_fit trend likelihood X = (ob, Ok f) /\
    (forall ys p m, scale_y (discrete (posed_config trend likelihood "mcmc")) (ft_scale f) ex_yh = Ok ys ->
      fit_data ex_ns sorted_sets keep_all ex_fit_transform (posed_config trend likelihood "mcmc") (no_objects None) (ft_scale f) ys X = (ob, Ok (p, m)) -> posterior_sites (model_latent m) m) /\
    ~ In "obs" (latent_of (ft_posterior f)) /\
    (exists f' F, forecast_all_sites ex_ns keep_all ex_transform ex_guide ex_complete (posed_config trend likelihood "mcmc") ob f ex_yh X2 (Relative [1; 2]%Z) = (f', Ok F) /\
      NoDup (labels F) /\ forall q t, In (q, t) (labels F) <-> In q [["a"]; ["b"]] /\ In t [2; 3]%Z) /\
    (exists f' cols rows pids, forecast_all_sites_samples ex_ns keep_all ex_transform ex_guide ex_complete (posed_config trend likelihood "mcmc") ob f ex_yh X2 (Relative [1; 2]%Z) = (f', Ok (cols, rows)) /\
      Permutation pids [["a"]; ["b"]] /\ map (fun r => (sr_sample r, (sr_path r, sr_time r))) rows = list_prod [0; 1] (list_prod pids [2; 3]%Z)).
Proof.
  intros HT HX. assert (IX : In X [None; Some ex_Xh]) by (destruct HX as [[= <- _]|[[= <- _]|[[= <- _]|[]]]]; simpl; auto).
  pose proof (panel_posed trend likelihood "mcmc" ex_yh X HT (or_introl eq_refl) IX) as W. pose proof (posed_clean trend likelihood "mcmc") as CL.
  assert (Order : forall l, Permutation (sorted_sets l) l) by (intros l; reflexivity).
  destruct (fit_panel_total ex_ns sorted_sets Order keep_all ex_fit_transform ex_svi ex_nuts model_latent _ (no_objects None) _ _ ex_yh X W CL eq_refl) as (ob & tab & p & m & cols & E & _ & _ & TC & _).
  fold (panel_sites_fit trend likelihood X) in E. unfold infer in E. change (String.eqb (en_method (engine_of (posed_config trend likelihood "mcmc"))) "mcmc") with true in E. cbv iota in E. unfold ex_nuts in E. cbn [bind] in E.
  match type of E with _ = (_, Ok ?g) => set (f := g) in E end. exists ob, f. split; [exact E|].
  assert (PS : forall ys p m, scale_y (discrete (posed_config trend likelihood "mcmc")) (ft_scale f) ex_yh = Ok ys ->
      fit_data ex_ns sorted_sets keep_all ex_fit_transform (posed_config trend likelihood "mcmc") (no_objects None) (ft_scale f) ys X = (ob, Ok (p, m)) -> posterior_sites (model_latent m) m).
  { intros ys1 p1 m1 Ey Ef. destruct (fit_data_panel ex_ns sorted_sets Order keep_all ex_fit_transform _ (no_objects None) _ _ ex_yh X tab W CL eq_refl TC) as (ob2 & p2 & m2 & cols2 & EFD & _ & _ & _ & R).
    assert (EY : scale_y (discrete (posed_config trend likelihood "mcmc")) (ft_scale f) ex_yh = Ok (divided_panel tab ex_yh)) by (change (discrete (posed_config trend likelihood "mcmc")) with false; cbn [ft_scale f]; unfold scale_y; rewrite (obs_scale_total Rdiv ex_yh tab ltac:(discriminate) TC); reflexivity).
    rewrite EY in Ey. injection Ey as <-. cbn [ft_scale f] in Ef. rewrite EFD in Ef. injection Ef as -> -> ->. destruct (R (fun _ _ => 1%R)) as (o & tr & RU).
    exists (fun _ _ => 1%R), o, tr. split; [exact RU|]. intros n _. unfold model_latent. rewrite RU. tauto. }
  split; [exact PS|]. assert (NO : ~ In "obs" (latent_of (ft_posterior f))) by (apply model_latent_obs). split; [exact NO|].
  destruct (panel_sites_total ex_ns sorted_sets Order keep_all ex_fit_transform ex_transform ex_svi ex_nuts model_latent ex_guide ex_complete _ (no_objects None) ob _ _ ex_yh X f X2 (Relative [1; 2]%Z) 1
    W CL ltac:(intros r Hr; cbn in Hr; repeat destruct Hr as [<-|Hr]; try contradiction; simpl; intuition discriminate) eq_refl E PS eq_refl) as (FA & f' & m' & cs & rows & pids & _ & FS & PP & MR).
  - repeat constructor; simpl; intuition discriminate.
  - discriminate.
  - destruct HX as [[= <- <-]|[[= <- <-]|[[= <- <-]|[]]]].
    + split; [reflexivity|]. apply ex_yh_panel.
    + split; [exists [2; 3]%Z; split; [exact ex_X2_is_panel|auto]|]. intros c [].
    + split; [exists [2; 3]%Z; split; [exact ex_X2_is_panel|auto]|]. intros c Hc. exact Hc.
  - exact NO.
  - intros m'. cbn. discriminate.
  - split; [exact FA|]. exists f', cs, rows, pids. split; [exact FS|]. split; [exact PP|exact MR].
Qed.
