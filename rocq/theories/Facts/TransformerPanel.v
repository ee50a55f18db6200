(** Point forecasts, quantiles and component tables of well-posed panels with a feature transformer. *)
From Coq Require Import Reals Lra String Bool ZArith List Lia Sorted Permutation.
From Verif.Model Require Import Base Num XFloat Regex Frame Arr Expand Aggregate Scale Predict Prog Likelihood Trend Effect
  TrendProg Engine Forecaster.
From Verif.Spec Require Import FrameSpec ScaleSpec TrendSpec ProgSpec EffectSpec ForecasterSpec AlignSpec SiteSpec PosteriorSpec TotalSpec PanelSpec TransformerSpec.
From Verif.Facts Require Import TransformerFacts TransformerTotal PanelForecast PanelSites.
Import ListNotations.
Local Open Scope string_scope.

Section Any.
Variable ns_of : Z -> Z.
Variable order : list string -> list string.
Hypothesis Order : forall l, Permutation (order l) l.
Variable keep : path -> bool.
Context {TS : Type}.
Variable tr_fit_transform : TS -> frame R -> TS * res (frame R).
Variable tr_transform : TS -> frame R -> res (frame R).
Context {P : Type}.
Variable svi_run : Z -> nat -> nat -> prog arr -> res (list xr * P).
Variable nuts_run : Z -> nat -> nat -> nat -> prog arr -> res (nat -> nat -> env).
Variable latent_sites : prog arr -> list string.
Variable guide_draw : P -> Z -> nat -> prog arr -> env.
Variable complete_draw : env -> Z -> nat -> prog arr -> env.
Notation fit_forecaster := (fit_forecaster ns_of order keep tr_fit_transform svi_run nuts_run latent_sites).
Notation infer := (infer svi_run nuts_run latent_sites).
Notation forecast_samples := (forecast_samples ns_of keep tr_transform guide_draw complete_draw).
Notation forecast_point := (forecast_point ns_of keep tr_transform guide_draw complete_draw).
Notation forecast_quantiles := (forecast_quantiles ns_of keep tr_transform guide_draw complete_draw).
Notation forecast_all_sites := (forecast_all_sites ns_of keep tr_transform guide_draw complete_draw).
Notation forecast_all_sites_samples := (forecast_all_sites_samples ns_of keep tr_transform guide_draw complete_draw).
Notation draws := (draws guide_draw complete_draw).
Notation fit_transformed := (fit_transformed keep tr_fit_transform).
Notation future_transformed := (future_transformed keep tr_transform).
Notation objects := (objects (TS := TS)).

Lemma used_some (X1 : frame R) : used_cols (Some X1) = f_cols X1.
Proof. unfold used_cols, given, no_columns. destruct (f_cols X1) eqn:E; [reflexivity|exact E]. Qed.
Theorem transformed_panel_methods c (ob0 ob : objects) ids times y X tr X1 f X2 fh X21 cutoff : fit_transformed c ob0 y X tr X1 ->
  well_posed_panel ns_of c ids times y (Some X1) -> clean_config c ->
  fit_forecaster c ob0 y X = (ob, Ok f) -> future_transformed c f y X X1 tr X2 fh X21 ->
  max_time times = Ok cutoff -> NoDup (to_absolute cutoff fh) -> to_absolute cutoff fh <> [] ->
  panel_future ids (f_cols X1) y (to_absolute cutoff fh) (Some X21) ->
  ~ In "obs" (latent_of (ft_posterior f)) ->
  (forall m, draws (engine_of c) (ft_posterior f) m <> []) ->
  (exists f' F, forecast_point c ob f y X2 fh = (f', Ok F) /\ full_panel keep ids (to_absolute cutoff fh) F) /\
  (forall alpha, (forall a, In a alpha -> (0 <= a <= 1)%R) ->
    exists f' q, forecast_quantiles c ob f y X2 fh alpha = (f', Ok q) /\ full_panel keep ids (to_absolute cutoff fh) (q_frame q)).
Proof.
  intros HF W CL HO HU HM ND NE PF NO DR. destruct (transformer_same_forecasts ns_of order keep tr_fit_transform tr_transform svi_run nuts_run latent_sites guide_draw complete_draw _ _ _ _ _ _ _ _ _ _ _ _ HF HO eq_refl HU) as (_ & EP & EQ & _).
  destruct (forecast_panel_methods ns_of order Order keep tr_fit_transform tr_transform svi_run nuts_run latent_sites guide_draw complete_draw c (without_transformer ob0) _ ids times y (Some X1) f (Some X21) fh cutoff
    W CL eq_refl (without_fit ns_of order keep tr_fit_transform svi_run nuts_run latent_sites _ _ _ _ _ _ _ _ HF HO) HM ND NE) as [A B]; auto; [now rewrite used_some|]. rewrite EP. split; [exact A|]. intros alpha HA. rewrite EQ. exact (B alpha HA).
Qed.
Theorem transformed_panel_components c (ob0 ob : objects) ids times y X tr X1 f X2 fh X21 cutoff : fit_transformed c ob0 y X tr X1 ->
  well_posed_panel ns_of c ids times y (Some X1) -> clean_config c ->
  fit_forecaster c ob0 y X = (ob, Ok f) -> future_transformed c f y X X1 tr X2 fh X21 ->
  max_time times = Ok cutoff -> NoDup (to_absolute cutoff fh) -> to_absolute cutoff fh <> [] ->
  panel_future ids (f_cols X1) y (to_absolute cutoff fh) (Some X21) ->
  ~ In "obs" (latent_of (ft_posterior f)) ->
  (forall m, draws (engine_of c) (ft_posterior f) m <> []) ->
  (forall r, In r (f_rows y) -> ~ In "__total" (r_path r)) ->
  (forall ob' ys p m, scale_y (discrete c) (ft_scale f) y = Ok ys ->
    fit_data ns_of order keep tr_fit_transform c (without_transformer ob0) (ft_scale f) ys (Some X1) = (ob', Ok (p, m)) -> posterior_sites (latent_sites m) m) ->
  (exists f' F, forecast_all_sites c ob f y X2 fh = (f', Ok F) /\
    NoDup (labels F) /\ forall q t, In (q, t) (labels F) <-> In q ids /\ In t (to_absolute cutoff fh)) /\
  (exists f' m cols rows pids, predict_model ns_of keep tr_transform c (fst (fit_forecaster c (without_transformer ob0) y (Some X1))) f y (Some X21) fh = Ok m /\
    forecast_all_sites_samples c ob f y X2 fh = (f', Ok (cols, rows)) /\ Permutation pids ids /\
    map (fun r => (sr_sample r, (sr_path r, sr_time r))) rows = list_prod (seq 0 (List.length (draws (engine_of c) (ft_posterior f) m))) (list_prod pids (to_absolute cutoff fh))).
Proof.
  intros HF W CL HO HU HM ND NE PF NO DR NT LS. destruct (transformer_same_forecasts ns_of order keep tr_fit_transform tr_transform svi_run nuts_run latent_sites guide_draw complete_draw _ _ _ _ _ _ _ _ _ _ _ _ HF HO eq_refl HU) as (_ & _ & _ & EA & ES).
  rewrite EA, ES. apply (panel_sites_total ns_of order Order keep tr_fit_transform tr_transform svi_run nuts_run latent_sites guide_draw complete_draw c (without_transformer ob0) _ ids times y (Some X1) f (Some X21) fh cutoff
    W CL NT eq_refl (without_fit ns_of order keep tr_fit_transform svi_run nuts_run latent_sites _ _ _ _ _ _ _ _ HF HO)); auto; [intros ys p m E1 E2; exact (LS _ ys p m E1 E2)|now rewrite used_some].
Qed.
End Any.
