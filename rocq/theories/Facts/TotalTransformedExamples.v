(** A well-posed problem with a feature transformer that adds a column. *)
From Coq Require Import Reals Lra String Bool ZArith List Sorted Permutation Lia.
From Verif.Model Require Import Base Num XFloat Regex Frame Arr Expand Aggregate Scale Prog Likelihood Effect Trend TrendProg Engine Predict Forecaster.
From Verif.Spec Require Import FrameSpec ScaleSpec TrendSpec ProgSpec EffectSpec ForecasterSpec AlignSpec SiteSpec ShapeSpec TotalSpec.
From Verif.Facts Require Import NumFacts ForecasterFacts EffectExamples ForecasterExamples EngineExamples HistoryExamples ComponentExamples TotalForecast TotalExamples TotalTransformed.
Import ListNotations.
Local Open Scope string_scope.

(** adds the column web, with [v] in it *)
Definition widen (v : R) (X : frame R) : frame R := mkFrame (f_levels X) (f_cols X ++ ["web"])%list (map (fun r => mkRow (r_path r) (r_time r) (r_vals r ++ [v])%list) (f_rows X)).
Definition widen_fit (v : R) (X : frame R) : R * res (frame R) := (v, Ok (widen v X)).
Definition widen_transform (v : R) (X : frame R) : res (frame R) := Ok (widen v X).
Definition Xtv : frame R := mkFrame 0 ["tv"] [mkRow [] 0 [1]; mkRow [] 1 [2]; mkRow [] 7 [4]]%R.
Definition Xtv2 : frame R := mkFrame 0 ["tv"] [mkRow [] 8 [3]; mkRow [] 9 [5]]%R.
Definition wide_objects : objects (TS := R) := mkObjects (TFlat 1 base_init None) (Some 6%R).
Definition wide_fit trend likelihood := fit_forecaster ex_ns sorted_sets keep_all widen_fit ex_svi ex_nuts comp_latent (total_config trend likelihood "mcmc") wide_objects ex_y (Some Xtv).

Lemma wide_posed trend likelihood : In trend ["linear"; "linear_raw"; "flat"; "logistic"] -> In likelihood ["normal"; "gamma"; "negbinomial"] ->
  well_posed ex_ns (total_config trend likelihood "mcmc") ex_y (Some (widen 6 Xtv)) /\ hill_data (total_config trend likelihood "mcmc") (Some (widen 6 Xtv)).
Proof.
  intros HT HL. split.
  - apply total_posed_with; [|reflexivity|exact HT|exact HL]. split; [intros r [<-|[<-|[<-|[]]]]; split; reflexivity|]. split; [reflexivity|]. split; [|cbn; tauto].
    repeat constructor; simpl; intuition discriminate.
  - apply total_hill; cbn; intros r v [<-|[<-|[<-|[]]]] [<-|[<-|[]]]; lra.
Qed.
Lemma wide_example trend likelihood : In trend ["linear"; "linear_raw"; "flat"; "logistic"] -> In likelihood ["normal"; "gamma"; "negbinomial"] ->
  exists ob f F, wide_fit trend likelihood = (ob, Ok f) /\
    forecast_samples ex_ns keep_all widen_transform ex_guide ex_complete (total_config trend likelihood "mcmc") ob f ex_y (Some Xtv2) (Relative [1; 2]%Z) = (f, Ok F) /\
    Permutation (map r_time (f_rows F)) [8; 9]%Z.
Proof.
  intros HT HL. destruct (wide_posed trend likelihood HT HL) as [W HD]. pose proof (total_clean trend likelihood "mcmc") as CL.
  assert (HD2 : hill_data (total_config trend likelihood "mcmc") (Some (widen 6 Xtv2))) by (apply total_hill; cbn; intros r v [<-|[<-|[]]] [<-|[<-|[]]]; lra).
  assert (IC : forall x, In x (exog_cols (Some Xtv)) -> In x (f_cols (widen 6 Xtv))) by (cbn; tauto).
  destruct (fit_transformed ex_ns sorted_sets keep_all widen_fit ex_svi ex_nuts comp_latent _ wide_objects ex_y (Some Xtv) _ 6%R 6%R W CL HD eq_refl eq_refl IC) as (ob & s & p & m & E & _).
  fold (wide_fit trend likelihood) in E. unfold infer in E. change (String.eqb (en_method (engine_of (total_config trend likelihood "mcmc"))) "mcmc") with true in E. cbv iota in E. unfold ex_nuts in E. cbn [bind] in E.
  match type of E with _ = (_, Ok ?g) => set (f := g) in E end. exists ob, f.
  destruct (forecast_transformed ex_ns sorted_sets keep_all widen_fit widen_transform ex_svi ex_nuts comp_latent ex_guide ex_complete _ wide_objects ob ex_y (Some Xtv) _ 6%R 6%R f (Some Xtv2) (widen 6 Xtv2) (Relative [1; 2]%Z) 7
    W CL HD eq_refl eq_refl IC E) as (F & HF & PF); auto.
  - repeat constructor; simpl; intuition discriminate.
  - split; [intros r [<-|[<-|[]]]; split; reflexivity|]. split; [reflexivity|]. split; [|cbn; tauto]. repeat constructor; simpl; intuition discriminate.
  - cbn. intuition discriminate.
  - intros m'. split; [cbn; discriminate|]. intros e He. cbn in He. split; [intros l _ _|discriminate].
    destruct He as [<-|[<-|[]]]; unfold ex_complete; destruct (String.eqb _ "obs") eqn:Q; try (cbn; lra); exfalso; apply String.eqb_eq in Q; destruct (l_name l) as [|? [|? [|? [|? ?]]]]; discriminate.
  - eauto.
Qed.
