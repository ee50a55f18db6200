(** Property C76: predictions for the training dates.  The section variables stand for pandas, the feature
    transformer and the inference engine. *)
From Coq Require Import Reals String Bool ZArith List.
From Verif.Model Require Import Base Num XFloat Frame Arr Aggregate Scale Prog Effect Engine Forecaster.
From Verif.Spec Require Import FrameSpec ForecasterSpec AlignSpec ShapeSpec InsampleSpec.
From Verif.Facts Require Import EffectExamples ForecasterExamples EngineExamples HistoryExamples HorizonExamples PanelExamples InsampleFacts InsampleExamples.
Import ListNotations.
Local Open Scope string_scope.

Section Any.
Variable ns_of : Z -> Z.
Variable order : list string -> list string.
Variable keep : path -> bool.
Context {TS : Type}.
Variable tr_fit_transform : TS -> frame R -> TS * res (frame R).
Variable tr_transform : TS -> frame R -> res (frame R).
Context {P : Type}.
Variable svi_run : Z -> nat -> nat -> prog arr -> res (list xr * P).
Variable nuts_run : Z -> nat -> nat -> nat -> prog arr -> res (nat -> nat -> env).
Variable latent_sites : prog arr -> list string.
Notation fit_forecaster := (fit_forecaster ns_of order keep tr_fit_transform svi_run nuts_run latent_sites).
Notation fit_data := (fit_data ns_of order keep tr_fit_transform).
Notation infer := (infer svi_run nuts_run latent_sites).
Notation predict_model := (predict_model ns_of keep tr_transform).
(** [fit_transform] is [fit] followed by [transform], and rows keep their labels *)
Notation transformers := (forall s X s' X', tr_fit_transform s X = (s', Ok X') -> tr_transform s' X = Ok X' /\ labels X' = labels X).

(** One series: with the exogenous data of the fit and the dates of the fit as horizon, the prediction
    evaluates the model [m] given to the inference engine, with the observations removed. *)
Theorem C76_univariate_partial : transformers -> forall c ob y X ob' f, fit_forecaster c ob y X = (ob', Ok f) -> c_hier c = false ->
  frame_wf y -> f_levels y = 0%nat -> f_rows y <> [] -> ascending (labels y) ->
  match X with None => True | Some X => frame_wf X /\ f_levels X = 0%nat /\ ascending (labels X) end ->
  exists ys m m', scale_y (discrete c) (ft_scale f) y = Ok ys /\ fit_data c ob (ft_scale f) ys X = (ob', Ok (ft_prepared f, m)) /\
    infer (engine_of c) m = Ok (ft_posterior f) /\
    predict_model c ob' f y X (Absolute (time_ids y)) = Ok m' /\
    same_but_observed (mkArr [List.length (flat_map r_vals (f_rows ys)); 1] (flat_map r_vals (f_rows ys))) m m'.
Proof. exact (c76_univariate ns_of order keep tr_fit_transform tr_transform svi_run nuts_run latent_sites). Qed.

(** A panel with exogenous columns, whose rows cover the dates of the target. *)
Theorem C76_hierarchical_partial : transformers -> forall c ob y X ob' f Xb, fit_forecaster c ob y (Some X) = (ob', Ok f) -> c_hier c = true ->
  f_levels y <> 0%nat -> f_cols X <> [] -> (o_transformer ob = None \/ p_has_exogenous (ft_prepared f) = true) ->
  loc_bottom_series X = Ok Xb -> incl (map r_time (f_rows y)) (map r_time (f_rows Xb)) ->
  exists ys m m' yb tensor t, scale_y (discrete c) (ft_scale f) y = Ok ys /\ fit_data c ob (ft_scale f) ys (Some X) = (ob', Ok (ft_prepared f, m)) /\
    infer (engine_of c) m = Ok (ft_posterior f) /\
    predict_model c ob' f y (Some X) (Absolute (time_ids y)) = Ok m' /\
    loc_bottom_series (aggregate keep ys) = Ok yb /\ series_to_tensor yb = Ok tensor /\ squeeze_last (arr_of_data 1 (D3 tensor)) = Ok t /\
    same_but_observed (transpose t) m m'.
Proof. exact (c76_hierarchical ns_of order keep tr_fit_transform tr_transform svi_run nuts_run latent_sites). Qed.

(** A panel without exogenous columns in which every combination of level values is a series. *)
Theorem C76_bare_partial : transformers -> forall c ob y X ob' f, fit_forecaster c ob y X = (ob', Ok f) -> c_hier c = true ->
  match X with None => True | Some X => f_cols X = [] end -> (o_transformer ob = None \/ p_has_exogenous (ft_prepared f) = true) ->
  frame_wf y -> f_levels y <> 0%nat -> f_rows y <> [] -> balanced y -> full_crossing y -> (forall r, In r (f_rows y) -> ~ In total_name (r_path r)) ->
  exists ys m m' yb tensor t, scale_y (discrete c) (ft_scale f) y = Ok ys /\ fit_data c ob (ft_scale f) ys X = (ob', Ok (ft_prepared f, m)) /\
    infer (engine_of c) m = Ok (ft_posterior f) /\
    predict_model c ob' f y X (Absolute (time_ids y)) = Ok m' /\
    loc_bottom_series (aggregate keep ys) = Ok yb /\ series_to_tensor yb = Ok tensor /\ squeeze_last (arr_of_data 1 (D3 tensor)) = Ok t /\
    same_but_observed (transpose t) m m'.
Proof. exact (c76_bare ns_of order keep tr_fit_transform tr_transform svi_run nuts_run latent_sites). Qed.
End Any.
Print Assumptions C76_univariate_partial.
Print Assumptions C76_hierarchical_partial.
Print Assumptions C76_bare_partial.

(** The full statement would drop the conditions on the index.  It is false: in a hierarchy where not every
    combination of level values is a series, the model of the prediction has series that do not exist
    (here two regions and three shops: 6 observations in the fit, 12 rows in the prediction). *)
Theorem C76_crossing_refuted : exists ob f ys ob2 p m m', frame_wf shops /\ balanced shops /\
  panel_fit shops None = (ob, Ok f) /\ scale_y (discrete hier_config) (ft_scale f) shops = Ok ys /\
  Forecaster.fit_data ex_ns sorted_sets keep_all ex_fit_transform hier_config (no_objects None) (ft_scale f) ys None = (ob2, Ok (p, m)) /\
  ForecasterSpec.predict_model ex_ns keep_all ex_transform hier_config ob f shops None (Absolute (time_ids shops)) = Ok m' /\
  forall v, ~ same_but_observed v m m'.
Proof.
  destruct shops_differ as (ob & f & ys & ob2 & p & m & m' & H). exists ob, f, ys, ob2, p, m, m'. split; [exact shops_wf|]. split; [exact shops_balanced|exact H].
Qed.
Print Assumptions C76_crossing_refuted.

Example C76_nonvacuous_transformers : forall s X s' X', ex_fit_transform s X = (s', Ok X') -> ex_transform s' X = Ok X' /\ labels X' = labels X.
Proof. exact ex_transformers. Qed.
Example C76_nonvacuous_univariate : (exists ob f, run_fit "mcmc" (Some Xu) = (ob, Ok f)) /\
  (frame_wf ex_y /\ f_levels ex_y = 0%nat /\ f_rows ex_y <> [] /\ ascending (labels ex_y)) /\ (frame_wf Xu /\ f_levels Xu = 0%nat /\ ascending (labels Xu)).
Proof. split; [exact ex_seen_run|]. split; [exact ex_y_ascending|exact Xu_ascending]. Qed.
Example C76_nonvacuous_hierarchical : (exists ob f, panel_fit ex_yh (Some ex_Xh) = (ob, Ok f)) /\ loc_bottom_series ex_Xh = Ok ex_Xh /\
  incl (map r_time (f_rows ex_yh)) (map r_time (f_rows ex_Xh)) /\ f_cols ex_Xh <> [].
Proof. split; [apply ex_fits|]. split; [exact ex_Xh_bottom|]. split; [intros t H; exact H|discriminate]. Qed.
Example C76_nonvacuous_bare : (exists ob f, panel_fit ex_yh None = (ob, Ok f)) /\ frame_wf ex_yh /\ f_levels ex_yh <> 0%nat /\ f_rows ex_yh <> [] /\
  balanced ex_yh /\ full_crossing ex_yh /\ (forall r, In r (f_rows ex_yh) -> ~ In total_name (r_path r)).
Proof. split; [apply ex_fits|exact ex_yh_panel]. Qed.
