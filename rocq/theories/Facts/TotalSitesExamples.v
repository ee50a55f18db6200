(** All components of concrete forecasts. *)
From Coq Require Import Reals Lra String Bool ZArith List Permutation Lia.
From Verif.Model Require Import Base Num XFloat Frame Arr Aggregate Scale Prog Likelihood Effect Engine Predict Forecaster.
From Verif.Spec Require Import FrameSpec ScaleSpec TrendSpec ProgSpec ForecasterSpec SiteSpec PosteriorSpec TotalSpec.
From Verif.Facts Require Import EffectExamples ForecasterExamples EngineExamples HistoryExamples ComponentExamples AlikeFacts TotalFit TotalForecast TotalExamples DocsExamples PosteriorFacts TotalSites.
Import ListNotations.
Local Open Scope string_scope.

(** the unobserved sample sites of a run with all parameters 1, except the target *)
Definition model_latent (m : prog arr) : list string := match run (fun _ _ => 1%R) [] m with Ok (_, tr) => parameter_names tr | Err _ => [] end.
Lemma model_latent_obs m : ~ In "obs" (model_latent m).
Proof. unfold model_latent. destruct (run _ _ _) as [[o tr]|]; [|exact (fun h => h)]. rewrite parameter_names_In. tauto. Qed.

Definition sites_fit trend likelihood :=
  fit_forecaster ex_ns sorted_sets keep_all ex_fit_transform ex_svi ex_nuts model_latent (total_config trend likelihood "mcmc") (no_objects None) ex_y (Some Xu).

Lemma sites_example trend likelihood X2 fh : In trend ["linear"; "linear_raw"; "flat"; "logistic"] -> In likelihood ["normal"; "gamma"; "negbinomial"] ->
  hill_data (total_config trend likelihood "mcmc") (Some X2) -> NoDup (to_absolute 7 fh) -> covers X2 (to_absolute 7 fh) -> (forall x, In x ["tv"; "web"] -> In x (f_cols X2)) ->
  exists ob f, sites_fit trend likelihood = (ob, Ok f) /\
    (forall ys p m, scale_y (discrete (total_config trend likelihood "mcmc")) (ft_scale f) ex_y = Ok ys ->
      fit_data ex_ns sorted_sets keep_all ex_fit_transform (total_config trend likelihood "mcmc") (no_objects None) (ft_scale f) ys (Some Xu) = (ob, Ok (p, m)) -> posterior_sites (model_latent m) m) /\
    ~ In "obs" (latent_of (ft_posterior f)) /\
    (exists F, forecast_all_sites ex_ns keep_all ex_transform ex_guide ex_complete (total_config trend likelihood "mcmc") ob f ex_y (Some X2) fh = (f, Ok F) /\
      Permutation (map r_time (f_rows F)) (to_absolute 7 fh)) /\
    (exists cols rows, forecast_all_sites_samples ex_ns keep_all ex_transform ex_guide ex_complete (total_config trend likelihood "mcmc") ob f ex_y (Some X2) fh = (f, Ok (cols, rows)) /\
      map (fun r => (sr_sample r, sr_time r)) rows = list_prod [0; 1] (to_absolute 7 fh)).
Proof.
  intros HT HL HD2 ND CV IC. pose proof (total_posed trend likelihood "mcmc" HT HL) as W. pose proof (total_clean trend likelihood "mcmc") as CL.
  assert (HD : hill_data (total_config trend likelihood "mcmc") (Some Xu)) by (apply total_hill; cbn; intros r v [<-|[<-|[<-|[]]]] [<-|[<-|[]]]; lra).
  destruct (fit_total ex_ns sorted_sets keep_all ex_fit_transform ex_svi ex_nuts model_latent _ (no_objects None) ex_y (Some Xu) W CL HD eq_refl) as (ob & s & p & m & E & _).
  fold (sites_fit trend likelihood) in E. unfold infer in E. change (String.eqb (en_method (engine_of (total_config trend likelihood "mcmc"))) "mcmc") with true in E. cbv iota in E. unfold ex_nuts in E. cbn [bind] in E.
  match type of E with _ = (_, Ok ?g) => set (f := g) in E end. exists ob, f. split; [exact E|].
  assert (PS : forall ys p m, scale_y (discrete (total_config trend likelihood "mcmc")) (ft_scale f) ex_y = Ok ys ->
      fit_data ex_ns sorted_sets keep_all ex_fit_transform (total_config trend likelihood "mcmc") (no_objects None) (ft_scale f) ys (Some Xu) = (ob, Ok (p, m)) -> posterior_sites (model_latent m) m).
  { intros ys1 p1 m1 Ey Ef. destruct (scale_total ex_ns _ ex_y (Some Xu) W) as (s1 & Es1 & Ps1 & ys2 & yt & Eys & Eyt & Eyt2 & Eor & ES).
    assert (s1 = ft_scale f).
    { unfold sites_fit, fit_forecaster in E. rewrite Es1 in E. cbn [bind] in E. rewrite Eys in E. cbn [bind] in E. destruct (fit_data _ _ _ _ _ _ _ _ _) as [ob1 [[p2 m2]|]]; [|discriminate]. cbn [bind infer] in E. injection E as _ E. exact E. }
    subst s1. rewrite Eys in Ey. injection Ey as <-.
    destruct (fit_data_total ex_ns sorted_sets keep_all ex_fit_transform _ (no_objects None) _ ex_y ys2 yt (Some Xu) W CL HD eq_refl Es1 Ps1 Eor Eyt Eyt2) as (ob2 & p2 & m2 & EFD & _ & _ & _ & R).
    rewrite EFD in Ef. injection Ef as -> -> ->. destruct (R (fun _ _ => 1%R)) as (o & tr & RU); [split; intros; lra|].
    exists (fun _ _ => 1%R), o, tr. split; [exact RU|]. intros n _. unfold model_latent. rewrite RU. tauto. }
  split; [exact PS|]. assert (NO : ~ In "obs" (latent_of (ft_posterior f))) by (apply model_latent_obs). split; [exact NO|].
  destruct (sites_total ex_ns sorted_sets keep_all ex_fit_transform ex_transform ex_svi ex_nuts model_latent ex_guide ex_complete _ (no_objects None) ob ex_y (Some Xu) f (Some X2) fh 7
    W CL HD eq_refl E PS eq_refl ND HD2 (conj CV IC) NO) as (FA & m' & cols & rows & _ & FS & MR).
  - intros m'. split; [cbn; discriminate|]. intros e He. cbn in He. split; [intros l _ _|discriminate].
    destruct He as [<-|[<-|[]]]; unfold ex_complete; destruct (String.eqb _ "obs") eqn:Q; try (cbn; lra); exfalso; apply String.eqb_eq in Q; destruct (l_name l) as [|? [|? [|? [|? ?]]]]; discriminate.
  - split; [exact FA|]. exists cols, rows. split; [exact FS|exact MR].
Qed.
