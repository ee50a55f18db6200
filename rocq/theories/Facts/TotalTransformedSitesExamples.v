(** All components of a concrete forecast with a feature transformer. *)
From Coq Require Import Reals Lra String Bool ZArith List Permutation Lia.
From Verif.Model Require Import Base Num XFloat Frame Arr Aggregate Scale Prog Likelihood Effect Engine Predict Forecaster.
From Verif.Spec Require Import FrameSpec ScaleSpec TrendSpec ProgSpec ForecasterSpec SiteSpec PosteriorSpec TotalSpec.
From Verif.Facts Require Import EffectExamples ForecasterExamples EngineExamples HistoryExamples ComponentExamples AlikeFacts TotalFit TotalForecast TotalExamples DocsExamples PosteriorFacts TotalSites TotalSitesExamples TotalTransformed TotalTransformedExamples TotalTransformedSites.
Import ListNotations.
Local Open Scope string_scope.

Definition wide_sites trend likelihood :=
  fit_forecaster ex_ns sorted_sets keep_all widen_fit ex_svi ex_nuts model_latent (total_config trend likelihood "mcmc") wide_objects ex_y (Some Xtv).

Lemma wide_sites_example trend likelihood : In trend ["linear"; "linear_raw"; "flat"; "logistic"] -> In likelihood ["normal"; "gamma"; "negbinomial"] ->
  exists ob f, wide_sites trend likelihood = (ob, Ok f) /\
    (forall ys p m, scale_y (discrete (total_config trend likelihood "mcmc")) (ft_scale f) ex_y = Ok ys ->
      fit_data ex_ns sorted_sets keep_all widen_fit (total_config trend likelihood "mcmc") wide_objects (ft_scale f) ys (Some Xtv) = (ob, Ok (p, m)) -> posterior_sites (model_latent m) m) /\
    ~ In "obs" (latent_of (ft_posterior f)) /\
    (exists F, forecast_all_sites ex_ns keep_all widen_transform ex_guide ex_complete (total_config trend likelihood "mcmc") ob f ex_y (Some Xtv2) (Relative [1; 2]%Z) = (f, Ok F) /\
      Permutation (map r_time (f_rows F)) [8; 9]%Z) /\
    (exists cols rows, forecast_all_sites_samples ex_ns keep_all widen_transform ex_guide ex_complete (total_config trend likelihood "mcmc") ob f ex_y (Some Xtv2) (Relative [1; 2]%Z) = (f, Ok (cols, rows)) /\
      map (fun r => (sr_sample r, sr_time r)) rows = list_prod [0; 1] [8; 9]%Z).
Proof.
  intros HT HL. destruct (wide_posed trend likelihood HT HL) as [W HD]. pose proof (total_clean trend likelihood "mcmc") as CL.
  assert (HD2 : hill_data (total_config trend likelihood "mcmc") (Some (widen 6 Xtv2))) by (apply total_hill; cbn; intros r v [<-|[<-|[]]] [<-|[<-|[]]]; lra).
  assert (IC : forall x, In x (exog_cols (Some Xtv)) -> In x (f_cols (widen 6 Xtv))) by (cbn; tauto).
  assert (CV : covers (widen 6 Xtv2) [8; 9]%Z) by (split; [intros r [<-|[<-|[]]]; split; reflexivity|]; split; [reflexivity|]; split; [|cbn; tauto]; repeat constructor; simpl; intuition discriminate).
  assert (ND : NoDup [8; 9]%Z) by (repeat constructor; simpl; intuition discriminate).
  destruct (fit_transformed ex_ns sorted_sets keep_all widen_fit ex_svi ex_nuts model_latent _ wide_objects ex_y (Some Xtv) _ 6%R 6%R W CL HD eq_refl eq_refl IC) as (ob & s & p & m & E & _).
  fold (wide_sites trend likelihood) in E. unfold infer in E. change (String.eqb (en_method (engine_of (total_config trend likelihood "mcmc"))) "mcmc") with true in E. cbv iota in E. unfold ex_nuts in E. cbn [bind] in E.
  match type of E with _ = (_, Ok ?g) => set (f := g) in E end. exists ob, f. split; [exact E|].
  assert (PS : forall ys p m, scale_y (discrete (total_config trend likelihood "mcmc")) (ft_scale f) ex_y = Ok ys ->
      fit_data ex_ns sorted_sets keep_all widen_fit (total_config trend likelihood "mcmc") wide_objects (ft_scale f) ys (Some Xtv) = (ob, Ok (p, m)) -> posterior_sites (model_latent m) m).
  { intros ys1 p1 m1 Ey Ef. destruct (scale_total ex_ns _ ex_y (Some (widen 6 Xtv)) W) as (s1 & Es1 & Ps1 & ys2 & yt & Eys & Eyt & Eyt2 & Eor & ES).
    assert (s1 = ft_scale f).
    { unfold wide_sites, fit_forecaster in E. rewrite Es1 in E. cbn [bind] in E. rewrite Eys in E. cbn [bind] in E. destruct (fit_data _ _ _ _ _ _ _ _ _) as [ob1 [[p2 m2]|]]; [|discriminate]. cbn [bind infer] in E. injection E as _ E. exact E. }
    subst s1. rewrite Eys in Ey. injection Ey as <-.
    destruct (fit_data_transformed ex_ns sorted_sets keep_all widen_fit _ wide_objects _ ex_y ys2 yt (Some Xtv) _ 6%R 6%R W CL HD eq_refl eq_refl IC Es1 Ps1 Eor Eyt Eyt2) as (ob2 & p2 & m2 & EFD & _ & _ & _ & R).
    rewrite EFD in Ef. injection Ef as -> -> ->. destruct (R (fun _ _ => 1%R)) as (o & tr & RU); [split; intros; lra|].
    exists (fun _ _ => 1%R), o, tr. split; [exact RU|]. intros n _. unfold model_latent. rewrite RU. tauto. }
  split; [exact PS|]. assert (NO : ~ In "obs" (latent_of (ft_posterior f))) by (apply model_latent_obs). split; [exact NO|].
  destruct (sites_transformed ex_ns sorted_sets keep_all widen_fit widen_transform ex_svi ex_nuts model_latent ex_guide ex_complete _ wide_objects ob ex_y (Some Xtv) _ 6%R 6%R f (Some Xtv2) (widen 6 Xtv2) (Relative [1; 2]%Z) 7
    W CL HD eq_refl eq_refl IC E PS eq_refl ND eq_refl HD2 CV (fun x h => h) NO) as (FA & m' & cols & rows & _ & FS & MR).
  - intros m'. split; [cbn; discriminate|]. intros e He. cbn in He. split; [intros l _ _|discriminate].
    destruct He as [<-|[<-|[]]]; unfold ex_complete; destruct (String.eqb _ "obs") eqn:Q; try (cbn; lra); exfalso; apply String.eqb_eq in Q; destruct (l_name l) as [|? [|? [|? [|? ?]]]]; discriminate.
  - split; [exact FA|]. exists cols, rows. split; [exact FS|exact MR].
Qed.
