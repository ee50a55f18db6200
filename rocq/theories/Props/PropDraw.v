(** C110: every column of predicted samples is one posterior draw. *)
From Coq Require Import Reals Lra String Bool ZArith List Permutation Sorted.
From Verif.Model Require Import Base Num XFloat Frame Arr Prog Likelihood Effect Trend TrendProg Aggregate Scale Expand Engine Predict Forecaster.
From Verif.Spec Require Import FrameSpec ScaleSpec PredictSpec ForecasterSpec SiteSpec AlignSpec OverlapSpec DrawSpec.
From Verif.Facts Require Import DrawFacts DrawPanel EffectExamples ForecasterExamples EngineExamples HistoryExamples AlignExamples OverlapExamples ComponentExamples TotalExamples DrawExamples DrawPanelExamples.
From Verif.Spec Require Import FrameSpec.
Import ListNotations.
Local Open Scope string_scope.

Section Any.
Variable ns_of : Z -> Z.
Variable order : list string -> list string.
Variable keep : path -> bool.
Context {TS P : Type}.
Variable tr_fit_transform : TS -> frame R -> TS * res (frame R).
Variable tr_transform : TS -> frame R -> res (frame R).
Variable svi_run : Z -> nat -> nat -> prog arr -> res (list xr * P).
Variable nuts_run : Z -> nat -> nat -> nat -> prog arr -> res (nat -> nat -> env).
Variable latent_sites : prog arr -> list string.
Variable guide_draw : P -> Z -> nat -> prog arr -> env.
Variable complete_draw : env -> Z -> nat -> prog arr -> env.
Notation fit_data := (fit_data ns_of order keep tr_fit_transform).
Notation fit_forecaster := (fit_forecaster ns_of order keep tr_fit_transform svi_run nuts_run latent_sites).
Notation predict_model := (predict_model ns_of keep tr_transform).
Notation forecast_samples := (forecast_samples ns_of keep tr_transform guide_draw complete_draw).

(** The sampler is run once, on the training model.  Column [k] of every later forecast is the observation of the
    forecast model in draw [k mod samples] of chain [k / samples], times the scale of the target: no draw is lost,
    repeated or moved, and dates are never taken from different draws. *)
Theorem C110_mcmc : forall c ob y X ob' f, fit_forecaster c ob y X = (ob', Ok f) -> c_hier c = false -> c_method c = "mcmc" ->
  exists ys m0 r, scale_y (discrete c) (ft_scale f) y = Ok ys /\ fit_data c ob (ft_scale f) ys X = (ob', Ok (ft_prepared f, m0)) /\
    nuts_run (en_key (engine_of c)) (c_warmup c) (c_samples c) (c_chains c) m0 = Ok r /\
    forall ob2 y2 X2 fh f2 out u, forecast_samples c ob2 f y2 X2 fh = (f2, Ok out) -> f_levels y2 = 0 -> factor c f u ->
    exists m ts, predict_model c ob2 f y2 X2 fh = Ok m /\ fh_to_index y2 fh = Ok ts /\
      samples_of out ts (fun k => complete_draw (chain_draw (c_samples c) r k) (en_key (engine_of c)) k m) (c_samples c * c_chains c) u.
Proof. exact (c110_mcmc ns_of order keep tr_fit_transform tr_transform svi_run nuts_run latent_sites guide_draw complete_draw). Qed.

(** The same for the guide of "map", of which 1000 draws are taken. *)
Theorem C110_map : forall c ob y X ob' f, fit_forecaster c ob y X = (ob', Ok f) -> c_hier c = false -> c_method c = "map" ->
  exists ys m0 losses params, scale_y (discrete c) (ft_scale f) y = Ok ys /\ fit_data c ob (ft_scale f) ys X = (ob', Ok (ft_prepared f, m0)) /\
    svi_run (en_key (engine_of c)) (c_optimizer c) (c_steps c) m0 = Ok (losses, params) /\
    forall ob2 y2 X2 fh f2 out u, forecast_samples c ob2 f y2 X2 fh = (f2, Ok out) -> f_levels y2 = 0 -> factor c f u ->
    exists m ts, predict_model c ob2 f y2 X2 fh = Ok m /\ fh_to_index y2 fh = Ok ts /\
      samples_of out ts (fun k => guide_draw params (en_key (engine_of c)) k m) (Z.to_nat 1000) u.
Proof. exact (c110_map ns_of order keep tr_fit_transform tr_transform svi_run nuts_run latent_sites guide_draw complete_draw). Qed.

(** Panels of a hierarchical forecaster: all series of a column are from the same draw, each in its own unit.  (The
    totals of a column are the sums of its series, C51.) *)
Theorem C110_panel_mcmc : forall c ob y X ob' f, fit_forecaster c ob y X = (ob', Ok f) -> clean_config c -> c_hier c = true -> f_levels y <> 0 -> frame_wf y ->
  (forall r, In r (f_rows y) -> ~ In "__total" (r_path r)) -> scalar_piecewise (o_trend ob') -> List.length (series_ids y) <> 1 -> c_method c = "mcmc" ->
  exists ys m0 r, scale_y (discrete c) (ft_scale f) y = Ok ys /\ fit_data c ob (ft_scale f) ys X = (ob', Ok (ft_prepared f, m0)) /\
    nuts_run (en_key (engine_of c)) (c_warmup c) (c_samples c) (c_chains c) m0 = Ok r /\
    forall X2 fh f2 out ts u, forecast_samples c ob' f y X2 fh = (f2, Ok out) -> fh_to_index y fh = Ok ts -> in_order ts ->
    (forall q, In q (series_ids y) -> unit_of (discrete c) (ft_scale f) q (u q)) ->
    exists m ids, predict_model c ob' f y X2 fh = Ok m /\ ids = index_series (labeller_of c f y) /\ Permutation ids (series_ids y) /\
      panel_samples_of out ids ts (fun k => complete_draw (chain_draw (c_samples c) r k) (en_key (engine_of c)) k m) (c_samples c * c_chains c) u.
Proof. exact (c110_panel_mcmc ns_of order keep tr_fit_transform tr_transform svi_run nuts_run latent_sites guide_draw complete_draw). Qed.

Theorem C110_panel_map : forall c ob y X ob' f, fit_forecaster c ob y X = (ob', Ok f) -> clean_config c -> c_hier c = true -> f_levels y <> 0 -> frame_wf y ->
  (forall r, In r (f_rows y) -> ~ In "__total" (r_path r)) -> scalar_piecewise (o_trend ob') -> List.length (series_ids y) <> 1 -> c_method c = "map" ->
  exists ys m0 losses params, scale_y (discrete c) (ft_scale f) y = Ok ys /\ fit_data c ob (ft_scale f) ys X = (ob', Ok (ft_prepared f, m0)) /\
    svi_run (en_key (engine_of c)) (c_optimizer c) (c_steps c) m0 = Ok (losses, params) /\
    forall X2 fh f2 out ts u, forecast_samples c ob' f y X2 fh = (f2, Ok out) -> fh_to_index y fh = Ok ts -> in_order ts ->
    (forall q, In q (series_ids y) -> unit_of (discrete c) (ft_scale f) q (u q)) ->
    exists m ids, predict_model c ob' f y X2 fh = Ok m /\ ids = index_series (labeller_of c f y) /\ Permutation ids (series_ids y) /\
      panel_samples_of out ids ts (fun k => guide_draw params (en_key (engine_of c)) k m) (Z.to_nat 1000) u.
Proof. exact (c110_panel_map ns_of order keep tr_fit_transform tr_transform svi_run nuts_run latent_sites guide_draw complete_draw). Qed.
End Any.

Print Assumptions C110_mcmc.
Print Assumptions C110_map.
Print Assumptions C110_panel_mcmc.
Print Assumptions C110_panel_map.

(** two chains of three draws, a target scaled by 2 *)
Example C110_mcmc_nonvacuous : exists ob f f2 out, run_fit "mcmc" (Some Xu) = (ob, Ok f) /\ factor (run_config "mcmc") f 2 /\
  forecast_samples ex_ns keep_all ex_transform ex_guide ex_complete (run_config "mcmc") ob f ex_y (Some Xf) (Relative [1; 2]%Z) = (f2, Ok out) /\
  c_samples (run_config "mcmc") = 3 /\ c_chains (run_config "mcmc") = 2 /\ f_levels ex_y = 0.
Proof. exact draw_mcmc. Qed.
(** a fit of counts with "map" *)
Example C110_map_nonvacuous : exists ob f out, total_fit "linear" "negbinomial" "map" = (ob, Ok f) /\ factor (total_config "linear" "negbinomial" "map") f 1 /\
  forecast_samples ex_ns keep_all ex_transform count_guide ex_complete (total_config "linear" "negbinomial" "map") ob f ex_y (Some Xf) (Relative [1; 2]%Z) = (f, Ok out).
Proof. exact draw_map. Qed.
(** two series with different scales *)
Example C110_panel_nonvacuous : clean_config pw_config /\ c_hier pw_config = true /\ c_method pw_config = "mcmc" /\ f_levels ex_yh = 1 /\ frame_wf ex_yh /\ List.length (series_ids ex_yh) = 2 /\
  (forall r, In r (f_rows ex_yh) -> ~ In "__total" (r_path r)) /\ fh_to_index ex_yh (Relative [1; 2]%Z) = Ok [2; 3]%Z /\ in_order [2; 3]%Z /\
  exists ob f f' out u, parts_fit = (ob, Ok f) /\ pair_samples ob f = (f', Ok out) /\ scalar_piecewise (o_trend ob) /\
  (forall q, In q (series_ids ex_yh) -> unit_of (discrete pw_config) (ft_scale f) q (u q)).
Proof.
  split; [exact parts_clean|]. do 3 (split; [reflexivity|]). split; [exact yh_wf|]. split; [reflexivity|]. split; [intros r [<-|[<-|[<-|[<-|[]]]]]; simpl; intuition discriminate|].
  split; [reflexivity|]. split; [repeat constructor|]. exact pair_runs.
Qed.
