(** Property C86: HierarchicalProphet given one series uses the model of Prophetverse with the normal
    likelihood, apart from the names of the noise and of its plate.  All theorems hold for every
    optimiser, sampler and transformer (the section variables). *)
From Coq Require Import Reals String Bool ZArith List Lra Lia.
From Verif.Model Require Import Base Num XFloat Regex Frame Arr Expand Aggregate Scale Predict Prog Likelihood Trend Effect
  TrendProg Engine Forecaster.
From Verif.Spec Require Import FrameSpec ScaleSpec ForecasterSpec AlignSpec ShapeSpec SiteSpec SingleSpec.
From Verif.Facts Require Import NumFacts LikelihoodFacts EffectExamples ForecasterExamples EngineExamples ComponentExamples SingleFacts.
Import ListNotations.
Local Open Scope string_scope.

Section Any.
Variable ns_of : Z -> Z.
Variable order : list string -> list string.
Variable keep : path -> bool.
Context {TS : Type}.
Variable tr_fit_transform : TS -> frame R -> TS * res (frame R).
Variable tr_transform : TS -> frame R -> res (frame R).
Context {P : Type}.
Variable svi_run : Z -> nat -> nat -> prog arr -> res (list xr * P).
Variable nuts_run : Z -> nat -> nat -> nat -> prog arr -> res (nat -> nat -> env).
Variable latent_sites : prog arr -> list string.
Notation fit_data := (fit_data ns_of order keep tr_fit_transform).
Notation fit_forecaster := (fit_forecaster ns_of order keep tr_fit_transform svi_run nuts_run latent_sites).
Notation predict_model := (predict_model ns_of keep tr_transform).

(** what can be fitted with the hierarchical class can be fitted with the univariate class: same trend,
    same effects, same model *)
Theorem C86_fit : forall c ob ob' s y X p m,
  c_hier c = true -> o_transformer ob = None -> library_trend (o_trend ob') -> clean_config c ->
  one_column y -> f_levels y = 0%nat -> NoDup (map r_time (f_rows y)) ->
  match X with None => True | Some X => frame_wf X /\ f_levels X = 0%nat /\ index_of X = index_of y end ->
  fit_data c ob s y X = (ob', Ok (p, m)) ->
  exists p' m', fit_data (as_univariate c) ob s y X = (ob', Ok (p', m')) /\
    p_index p' = p_index p /\ p_fitted p' = p_fitted p /\ p_effects p' = p_effects p /\ same_but_noise m m'.
Proof.
  intros c ob ob' s y X p m Hc HT HL HC HY Ly ND HX H.
  destruct (single_fit ns_of order keep tr_fit_transform c ob ob' s y X p m Hc HT HL HC HY Ly ND HX H) as (m' & E & S').
  destruct (single_fit_inv ns_of order keep tr_fit_transform c ob ob' s y X p m Hc HT HL HY Ly ND HX H) as (t0 & ex & td & data & _ & _ & _ & _ & _ & I & _).
  exists (univariate_prepared y p), m'. rewrite I. auto.
Qed.

(** and the two fitted forecasters use the same models for forecasts *)
Theorem C86_forecast : forall c ob ob' ob2 y X f f',
  c_hier c = true -> o_transformer ob = None -> library_trend (o_trend ob') -> clean_config c ->
  one_column y -> f_levels y = 0%nat -> NoDup (map r_time (f_rows y)) ->
  match X with None => True | Some X => frame_wf X /\ f_levels X = 0%nat /\ index_of X = index_of y end ->
  fit_forecaster c ob y X = (ob', Ok f) -> fit_forecaster (as_univariate c) ob y X = (ob2, Ok f') ->
  ob2 = ob' /\ ft_scale f' = ft_scale f /\ p_fitted (ft_prepared f') = p_fitted (ft_prepared f) /\
  forall Xp fh m, match Xp with None => True | Some X => f_levels X = 0%nat /\ f_cols X <> [] end ->
    predict_model c ob' f y Xp fh = Ok m ->
    exists m', predict_model (as_univariate c) ob2 f' y Xp fh = Ok m' /\ same_but_noise m m'.
Proof. exact (single_forecast ns_of order keep tr_fit_transform tr_transform svi_run nuts_run latent_sites). Qed.

(** equal draws of the observations give equal forecasts, whatever the other sites are *)
Theorem C86_frame : forall c (f f' : fitted (P := P)) (y : frame R) times ds ds', c_hier c = true -> f_levels y = 0%nat -> ft_scale f' = ft_scale f ->
  dict_get ds "obs" = dict_get ds' "obs" ->
  predict_samples keep (labeller_of c f y) times ds = predict_samples keep (labeller_of (as_univariate c) f' y) times ds'.
Proof. exact (single_labels_frame keep). Qed.
End Any.

Print Assumptions C86_fit.
Print Assumptions C86_forecast.
Print Assumptions C86_frame.

(** * Instances: three days with two columns, the second for the default effect *)
Definition single_config : config :=
  mkConfig true (TrendName "flat") 25 (4 / 5) (1 / 1000) (1 / 10) (1 / 5) (11 / 10) (Some [linear_tv]) None (1 / 20) "normal" (Some (SFloat 2)) None 1
    "mcmc" None 10 0 2 5 1.
Lemma single_univariate : as_univariate single_config = comp_config "normal".
Proof. reflexivity. Qed.
Definition single_run := fit_data ex_ns sorted_sets keep_all ex_fit_transform single_config (no_objects None) (SFloat 2) ex_y (Some Xu).
Lemma single_inputs : one_column ex_y /\ f_levels ex_y = 0%nat /\ NoDup (map r_time (f_rows ex_y)) /\
  (frame_wf Xu /\ f_levels Xu = 0%nat /\ index_of Xu = index_of ex_y).
Proof.
  split; [split; [intros r [<-|[<-|[<-|[]]]]; split; reflexivity|reflexivity]|]. split; [reflexivity|]. split; [repeat constructor; simpl; intuition discriminate|].
  split; [intros r [<-|[<-|[<-|[]]]]; split; reflexivity|]. split; reflexivity.
Qed.
Lemma single_clean : clean_config single_config.
Proof. exact (comp_clean "normal"). Qed.

Example C86_fit_nonvacuous : exists ob p m p' m', single_run = (ob, Ok (p, m)) /\ library_trend (o_trend ob) /\
  fit_data ex_ns sorted_sets keep_all ex_fit_transform (comp_config "normal") (no_objects None) (SFloat 2) ex_y (Some Xu) = (ob, Ok (p', m')) /\
  same_but_noise m m' /\ map fst (p_effects p') = ["tv"; "exogenous_variables_effect"] /\
  sites_of (fun _ _ => 1%R) m = ["trend_flat_coefficient"; "trend"; "tv/features_plate"; "tv/coefs"; "tv"; "exogenous_variables_effect/features_plate";
    "exogenous_variables_effect/coefs"; "exogenous_variables_effect"; "std_observation"; "time"; "obs"].
Proof.
  assert (K : match single_run with
    | (ob, Ok (p, m)) => flat_trend (o_trend ob) /\ map fst (p_effects p) = ["tv"; "exogenous_variables_effect"] /\
       sites_of (fun _ _ => 1%R) m = ["trend_flat_coefficient"; "trend"; "tv/features_plate"; "tv/coefs"; "tv"; "exogenous_variables_effect/features_plate";
    "exogenous_variables_effect/coefs"; "exogenous_variables_effect"; "std_observation"; "time"; "obs"]
    | _ => False end) by (vm_compute; repeat split).
  destruct single_run as [ob [[p m]|]] eqn:E; [|contradiction]. destruct K as (K1 & K2 & K3). exists ob, p, m.
  destruct single_inputs as (I1 & I2 & I3 & I4).
  destruct (C86_fit ex_ns sorted_sets keep_all ex_fit_transform single_config (no_objects None) ob (SFloat 2) ex_y (Some Xu) p m eq_refl eq_refl
    (or_intror K1) single_clean I1 I2 I3 I4 E) as (p' & m' & E' & _ & _ & EE & SB).
  exists p', m'. split; [reflexivity|]. split; [right; exact K1|]. split; [exact E'|]. split; [exact SB|]. rewrite EE. auto.
Qed.

Definition single_fitted :=
  fit_forecaster ex_ns sorted_sets keep_all ex_fit_transform ex_svi ex_nuts comp_latent single_config (no_objects None) ex_y (Some Xu).
Lemma single_forecast_runs : exists ob f m, single_fitted = (ob, Ok f) /\ flat_trend (o_trend ob) /\
  predict_model ex_ns keep_all ex_transform single_config ob f ex_y (Some Xf) (Relative [1; 2]%Z) = Ok m.
Proof.
  unfold single_fitted, fit_forecaster. cbn [c_scale single_config]. rewrite ex_scale. cbn [bind].
  assert (K : match scale_y (discrete single_config) (SFloat 2) ex_y with
    | Ok ys => match fit_data ex_ns sorted_sets keep_all ex_fit_transform single_config (no_objects None) (SFloat 2) ys (Some Xu) with
       | (ob, Ok (p, m)) => flat_trend (o_trend ob) /\ forall q : inferred unit, exists m', predict_model ex_ns keep_all ex_transform single_config ob (mkFitted (SFloat 2) p q) ex_y (Some Xf) (Relative [1; 2]%Z) = Ok m'
       | _ => False end
    | _ => False end).
  { cbv -[IZR Rplus Rmult Rdiv Rminus Ropp Rinv Req_EM_T Rlt_le_dec Rle_dec Rlt_dec]. split; [exact I|]. intros q. eexists. reflexivity. }
  destruct (scale_y _ _ _) as [ys|]; [|contradiction]. cbn [bind]. destruct (fit_data _ _ _ _ _ _ _ ys _) as [ob1 [[p m]|]]; [|contradiction].
  cbn [bind]. destruct K as [K1 K2]. unfold infer. change (String.eqb (en_method (engine_of single_config)) "mcmc") with true. cbv iota. unfold ex_nuts. cbn [bind].
  match goal with |- exists ob f m, (ob1, Ok ?g) = (ob, Ok f) /\ _ => destruct (K2 (ft_posterior g)) as (m' & E); exists ob1, g, m' end. auto.
Qed.

Example C86_forecast_nonvacuous : exists ob f f' m m', single_fitted = (ob, Ok f) /\ comp_fit "normal" = (ob, Ok f') /\
  predict_model ex_ns keep_all ex_transform single_config ob f ex_y (Some Xf) (Relative [1; 2]%Z) = Ok m /\
  predict_model ex_ns keep_all ex_transform (comp_config "normal") ob f' ex_y (Some Xf) (Relative [1; 2]%Z) = Ok m' /\ same_but_noise m m'.
Proof.
  destruct single_forecast_runs as (ob & f & m & E & K & PM). destruct (comp_runs "normal" (or_introl eq_refl)) as (ob2 & f' & _ & _ & E' & _).
  destruct single_inputs as (I1 & I2 & I3 & I4).
  destruct (C86_forecast ex_ns sorted_sets keep_all ex_fit_transform ex_transform ex_svi ex_nuts comp_latent single_config (no_objects None) ob ob2 ex_y (Some Xu) f f' eq_refl eq_refl
    (or_intror K) single_clean I1 I2 I3 I4 E E') as (-> & _ & _ & G).
  destruct (G (Some Xf) (Relative [1; 2]%Z) m) as (m' & PM' & SB); [split; [reflexivity|discriminate]|exact PM|]. exists ob, f, f', m, m'. auto.
Qed.

(** the converse of [C86_fit] fails: only the hierarchical class reads the names of columns as patterns *)
Definition bracket : frame R := mkFrame 0 ["spend("] [mkRow [] 0 [1]; mkRow [] 1 [2]; mkRow [] 7 [3]]%R.
Example C86_pattern_names :
  succeeds (fit_data ex_ns sorted_sets keep_all ex_fit_transform (as_univariate single_config) (no_objects None) (SFloat 2) ex_y (Some bracket)) = true /\
  snd (fit_data ex_ns sorted_sets keep_all ex_fit_transform single_config (no_objects None) (SFloat 2) ex_y (Some bracket)) = Err ValueError.
Proof. split; vm_compute; reflexivity. Qed.
