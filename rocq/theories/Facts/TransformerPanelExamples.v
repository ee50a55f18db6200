(** Component tables of a panel with a feature transformer. *)
From Coq Require Import Reals Lra String Bool ZArith List Sorted Permutation Lia.
From Verif.Model Require Import Base Num XFloat Regex Frame Arr Expand Aggregate Scale Prog Likelihood Effect Trend TrendProg Engine Predict Forecaster Tensors.
From Verif.Spec Require Import FrameSpec ScaleSpec TrendSpec ProgSpec PredictSpec EffectSpec ForecasterSpec AlignSpec SiteSpec LineSpec ShapeSpec TotalSpec PosteriorSpec PanelSpec TransformerSpec.
From Verif.Facts Require Import NumFacts ScaleFacts ForecasterFacts EffectExamples ForecasterExamples EngineExamples HistoryExamples ComponentExamples InsampleExamples PanelScale PanelFit PanelForecast PanelTotalExamples TotalSitesExamples PanelSites
  TransformerFacts TransformerTotal TransformerPanel.
Import ListNotations.
Local Open Scope string_scope.

Definition clocked_sites trend likelihood :=
  fit_forecaster ex_ns sorted_sets keep_all tool_fit ex_svi ex_nuts model_latent (posed_config trend likelihood "mcmc") (with_tool false) ex_yh None.
Lemma clocked_sites_example trend likelihood : In trend ["linear"; "linear_raw"; "logistic"] ->
  exists ob f, clocked_sites trend likelihood = (ob, Ok f) /\
    future_transformed keep_all tool_apply (posed_config trend likelihood "mcmc") f ex_yh None clock_table (false, true) None (Relative [1; 2]%Z) clock_future /\
    (forall ob' ys p m, scale_y (discrete (posed_config trend likelihood "mcmc")) (ft_scale f) ex_yh = Ok ys ->
      fit_data ex_ns sorted_sets keep_all tool_fit (posed_config trend likelihood "mcmc") (without_transformer (with_tool false)) (ft_scale f) ys (Some clock_table) = (ob', Ok (p, m)) ->
      posterior_sites (model_latent m) m) /\
    ~ In "obs" (latent_of (ft_posterior f)) /\
    (exists f' F, forecast_all_sites ex_ns keep_all tool_apply ex_guide ex_complete (posed_config trend likelihood "mcmc") ob f ex_yh None (Relative [1; 2]%Z) = (f', Ok F) /\
      NoDup (labels F) /\ forall q t, In (q, t) (labels F) <-> In q [["a"]; ["b"]] /\ In t [2; 3]%Z) /\
    (exists f' cols rows pids, forecast_all_sites_samples ex_ns keep_all tool_apply ex_guide ex_complete (posed_config trend likelihood "mcmc") ob f ex_yh None (Relative [1; 2]%Z) = (f', Ok (cols, rows)) /\
      Permutation pids [["a"]; ["b"]] /\ map (fun r => (sr_sample r, (sr_path r, sr_time r))) rows = list_prod [0; 1] (list_prod pids [2; 3]%Z)).
Proof.
  intros HT. pose proof (clocked_posed trend likelihood HT) as W. pose proof (posed_clean trend likelihood "mcmc") as CL.
  assert (Order : forall l, Permutation (sorted_sets l) l) by (intros l; reflexivity).
  destruct (fit_panel_total ex_ns sorted_sets Order keep_all tool_fit ex_svi ex_nuts model_latent _ (without_transformer (with_tool false)) _ _ ex_yh (Some clock_table) W CL eq_refl) as (ob0 & tab & p & m & cols & E0 & _ & _ & TC & _ & PI).
  destruct (transformer_same_fit ex_ns sorted_sets keep_all tool_fit ex_svi ex_nuts model_latent _ _ _ _ _ _ (clocked_transformed trend likelihood)) as [ES _].
  assert (E : clocked_sites trend likelihood = (fst (clocked_sites trend likelihood), snd (ob0, post <- infer ex_svi ex_nuts model_latent (engine_of (posed_config trend likelihood "mcmc")) m ;; Ok (mkFitted (STable tab) p post)))).
  { rewrite E0 in ES. rewrite <- ES. apply surjective_pairing. }
  set (ob := fst (clocked_sites trend likelihood)) in E. clearbody ob. cbn [snd] in E.
  unfold infer in E. change (String.eqb (en_method (engine_of (posed_config trend likelihood "mcmc"))) "mcmc") with true in E. cbv iota in E. unfold ex_nuts in E. cbn [bind] in E.
  match type of E with _ = (_, Ok ?g) => set (f := g) in E end. exists ob, f.
  assert (FT : future_transformed keep_all tool_apply (posed_config trend likelihood "mcmc") f ex_yh None clock_table (false, true) None (Relative [1; 2]%Z) clock_future).
  { exists [2; 3]%Z, (mkFrame 1 [] [mkRow ["a"] 2 []; mkRow ["a"] 3 []; mkRow ["b"] 2 []; mkRow ["b"] 3 []]).
    split; [unfold asked; cbn [c_hier posed_config]; change (p_index (ft_prepared f)) with (p_index p); rewrite PI; reflexivity|].
    split; [intros r Hr; cbn in Hr; repeat destruct Hr as [<-|Hr]; try contradiction; split; reflexivity|].
    split; [reflexivity|]. split; [reflexivity|]. split; [|discriminate]. split; [reflexivity|]. split; [reflexivity|].
    intros r Hr; cbn in Hr; repeat destruct Hr as [<-|Hr]; try contradiction; split; reflexivity. }
  assert (PS : forall ob' ys p m, scale_y (discrete (posed_config trend likelihood "mcmc")) (ft_scale f) ex_yh = Ok ys ->
      fit_data ex_ns sorted_sets keep_all tool_fit (posed_config trend likelihood "mcmc") (without_transformer (with_tool false)) (ft_scale f) ys (Some clock_table) = (ob', Ok (p, m)) -> posterior_sites (model_latent m) m).
  { intros ob1 ys1 p1 m1 Ey Ef. destruct (fit_data_panel ex_ns sorted_sets Order keep_all tool_fit _ (without_transformer (with_tool false)) _ _ ex_yh (Some clock_table) tab W CL eq_refl TC) as (ob2 & p2 & m2 & cols2 & EFD & _ & _ & _ & R).
    assert (EY : scale_y (discrete (posed_config trend likelihood "mcmc")) (ft_scale f) ex_yh = Ok (divided_panel tab ex_yh)) by (change (discrete (posed_config trend likelihood "mcmc")) with false; cbn [ft_scale f]; unfold scale_y; rewrite (obs_scale_total Rdiv ex_yh tab ltac:(discriminate) TC); reflexivity).
    rewrite EY in Ey. injection Ey as <-. cbn [ft_scale f] in Ef. rewrite EFD in Ef. injection Ef as -> -> ->. destruct (R (fun _ _ => 1%R)) as (o & tr & RU).
    exists (fun _ _ => 1%R), o, tr. split; [exact RU|]. intros n _. unfold model_latent. rewrite RU. tauto. }
  split; [exact E|]. split; [exact FT|]. split; [exact PS|]. assert (NO : ~ In "obs" (latent_of (ft_posterior f))) by (apply model_latent_obs). split; [exact NO|].
  destruct (transformed_panel_components ex_ns sorted_sets Order keep_all tool_fit tool_apply ex_svi ex_nuts model_latent ex_guide ex_complete _ (with_tool false) ob [["a"]; ["b"]] [0; 1]%Z ex_yh None (false, true) clock_table f None (Relative [1; 2]%Z) clock_future 1
    (clocked_transformed trend likelihood) W CL E FT eq_refl) as (FA & f' & m' & cs & rows & pids & _ & FS & PP & MR).
  - repeat constructor; simpl; intuition discriminate.
  - discriminate.
  - split; [exists [2; 3]%Z; split; [exact clock_future_panel|auto]|]. intros c Hc. exact Hc.
  - exact NO.
  - intros m'. cbn. discriminate.
  - intros r Hr; cbn in Hr; repeat destruct Hr as [<-|Hr]; try contradiction; simpl; intuition discriminate.
  - exact PS.
  - split; [exact FA|]. exists f', cs, rows, pids. split; [exact FS|]. split; [exact PP|exact MR].
Qed.
