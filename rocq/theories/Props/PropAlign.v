(** Properties C57 and C72: exogenous rows, series and dates in the hierarchical forecaster.  All
    theorems hold for every transformer and inference engine (the section variables). *)
From Coq Require Import Reals String Bool ZArith List Lra Permutation Sorted.
From Verif.Model Require Import Base Num XFloat Frame Arr Expand Aggregate Scale Predict Prog Effect Trend TrendProg Engine Forecaster History.
From Verif.Spec Require Import FrameSpec ScaleSpec ForecasterSpec HistorySpec AlignSpec.
From Verif.Facts Require Import EffectExamples ForecasterExamples EngineExamples HistoryExamples AlignFacts AlignForecaster CompleteFacts AlignExamples PanelRuns.
Import ListNotations.
Local Open Scope string_scope.

Section Any.
Variable ns_of : Z -> Z.
Variable order : list string -> list string.
Variable keep : path -> bool.
Context {TS : Type}.
Variable tr_fit_transform : TS -> frame R -> TS * res (frame R).
Variable tr_transform : TS -> frame R -> res (frame R).
Context {P : Type}.
Variable svi_run : Z -> nat -> nat -> prog arr -> res (list xr * P).
Variable nuts_run : Z -> nat -> nat -> nat -> prog arr -> res (nat -> nat -> env).
Variable latent_sites : prog arr -> list string.
Variable guide_draw : P -> Z -> nat -> prog arr -> env.
Variable complete_draw : env -> Z -> nat -> prog arr -> env.
Notation fit_data := (fit_data ns_of order keep tr_fit_transform).
Notation fit_forecaster := (fit_forecaster ns_of order keep tr_fit_transform svi_run nuts_run latent_sites).
Notation predict_model := (predict_model ns_of keep tr_transform).
Notation predictive_samples_dict := (predictive_samples_dict ns_of keep tr_transform guide_draw complete_draw).

(** Full statement: for every order of the rows of X.  Here the index of X is sorted; the refutation
    below shows that this is needed.  Row i of the data of an effect and observation i have the same
    series and date. *)
Theorem C57_fit_partial : forall c ob s y X ob' p m Xb, c_hier c = true -> o_transformer ob = None ->
  fit_data c ob s y (Some X) = (ob', Ok (p, m)) ->
  f_levels y <> 0 -> frame_wf y -> NoDup (labels y) -> (forall r, In r (f_rows y) -> ~ In "__total" (r_path r)) ->
  frame_wf X -> f_cols X <> [] ->
  loc_bottom_series X = Ok Xb -> sorted_index Xb -> NoDup (labels Xb) ->
  (forall q t, In t (map r_time (f_rows y)) -> (In (q, t) (labels Xb) <-> In (q, t) (labels y))) ->
  exists rows Xe ex td obs data, Permutation (f_rows y) rows /\
    expand_bottom 0%R (fun _ => false) order (match c_shared c with None => [] | Some l => l end) Xb = Ok (Xe, ex) /\
    m = model_call c s p (o_trend ob') td (Some obs) (Some data) /\
    a_flat obs = flat_map r_vals rows /\
    effects_at Xe (map (fun r => (r_path r, r_time r)) rows) p data.
Proof. exact (c57_fit ns_of order keep tr_fit_transform). Qed.

(** Prediction: the rows of the data are the rows of X on the horizon, in ascending order of series and date. *)
Theorem C57_predict_partial : forall c ob y X ob1 f ob2 y2 X2 Xb fh m cutoff L,
  c_hier c = true -> fit_forecaster c ob y X = (ob1, Ok f) ->
  p_has_exogenous (ft_prepared f) = true -> o_transformer ob2 = None ->
  predict_model c ob2 f y2 (Some X2) fh = Ok m ->
  max_time (map snd (p_index (ft_prepared f))) = Ok cutoff ->
  frame_wf X2 -> f_cols X2 <> [] ->
  loc_bottom_series X2 = Ok Xb -> sorted_index Xb -> NoDup (labels Xb) -> ascending L ->
  (forall q t, In (q, t) L <-> In (q, t) (labels Xb) /\ In t (to_absolute cutoff fh)) ->
  exists Xe ex ex' td data, p_expander (ft_prepared f) = Some ex /\
    expand_transform 0%R (fun _ => false) ex Xb = Ok (Xe, ex') /\
    m = model_call c (ft_scale f) (ft_prepared f) (o_trend ob2) td None (Some data) /\
    effects_at Xe L (ft_prepared f) data.
Proof. exact (c57_predict ns_of order keep tr_fit_transform tr_transform svi_run nuts_run latent_sites). Qed.

(** Full statement: if a hierarchical prediction with an exogenous effect succeeds, then every fitted
    series has exactly one row for each date of the horizon.  Here: for piecewise trends (linear,
    linear_raw, logistic) and a linear effect, when X has no repeated labels and, on the horizon, no
    series that was not fitted.  The last condition is necessary, see the refutation below. *)
Theorem C72_complete_partial : forall c ob y X ob1 f y2 X2 fh f' d cutoff Xb n m prior b,
  c_hier c = true -> fit_forecaster c ob y X = (ob1, Ok f) ->
  f_levels y <> 0 -> frame_wf y -> (forall r, In r (f_rows y) -> ~ In "__total" (r_path r)) ->
  scalar_piecewise (o_trend ob1) -> o_transformer ob1 = None -> p_has_exogenous (ft_prepared f) = true ->
  dict_get (p_effects (ft_prepared f)) n = Some (Linear m prior b) -> ~ In "trend" (dict_keys (p_effects (ft_prepared f))) ->
  predictive_samples_dict c ob1 f y2 (Some X2) fh = (f', Ok d) ->
  max_time (map snd (p_index (ft_prepared f))) = Ok cutoff ->
  frame_wf X2 -> f_cols X2 <> [] -> loc_bottom_series X2 = Ok Xb -> NoDup (labels Xb) ->
  (forall q t, In (q, t) (labels Xb) -> In t (to_absolute cutoff fh) -> In q (map r_path (f_rows y))) ->
  forall q t, In q (map r_path (f_rows y)) -> In t (to_absolute cutoff fh) -> In (q, t) (labels Xb).
Proof. exact (c72 ns_of order keep tr_fit_transform tr_transform svi_run nuts_run latent_sites guide_draw complete_draw). Qed.
End Any.
Print Assumptions C57_fit_partial.
Print Assumptions C57_predict_partial.
Print Assumptions C72_complete_partial.

(** The same rows with series b first: the effect on the first observation, which is the one of
    series a at date 0, becomes the effect of the row of series b. *)
Theorem C57_series_order_refuted : Permutation (f_rows ex_Xh) (f_rows ex_Xba) /\
  value_of ones (program (fit_pw sorted_sets (Some ex_Xh))) "all" 0 = Some 11%R /\
  value_of ones (program (fit_pw sorted_sets (Some ex_Xba))) "all" 0 = Some 33%R /\
  value_of ones (program (fit_pw sorted_sets (Some ex_Xh))) "obs" 0 = Some 1%R /\
  value_of ones (program (fit_pw sorted_sets (Some ex_Xba))) "obs" 0 = Some 1%R.
Proof. exact (conj ex_ba_permutation pw_series_order). Qed.
Print Assumptions C57_series_order_refuted.

(** Fitted on series a and b; X has rows of a and b at date 2 only and rows of two unknown series at
    date 3.  The prediction for dates 2 and 3 succeeds. *)
Theorem C72_unknown_series_refuted :
  labels ex_Xcd = [(["a"], 2); (["b"], 2); (["c"], 3); (["d"], 3)]%Z /\
  times_of (snd (ex_step pw_config pw_fitted (Predict Samples (Some ex_Xcd) (Relative [1; 2]%Z)))) = Some [2; 3; 2; 3; 2; 3]%Z.
Proof. exact (conj ex_incomplete_labels pw_incomplete). Qed.
Print Assumptions C72_unknown_series_refuted.

Example C57_nonvacuous : sorted_index ex_Xh /\ NoDup (labels ex_Xh) /\ loc_bottom_series ex_Xh = Ok ex_Xh /\
  succeeds (fit_pw sorted_sets (Some ex_Xh)) = true.
Proof. split; [exact ex_sorted|]. split; [exact ex_nodup|]. split; [reflexivity|]. exact pw_succeeds. Qed.

Example C72_nonvacuous : exists ob f f' d, pw_fit = (ob, Ok f) /\
  scalar_piecewise (o_trend ob) /\ o_transformer ob = None /\ p_has_exogenous (ft_prepared f) = true /\
  (exists b, dict_get (p_effects (ft_prepared f)) "all" = Some (Linear Additive (DUser 0) b)) /\ ~ In "trend" (dict_keys (p_effects (ft_prepared f))) /\
  max_time (map snd (p_index (ft_prepared f))) = Ok 1%Z /\
  predictive_samples_dict ex_ns keep_all ex_transform ex_guide ex_complete pw_config ob f ex_yh (Some ex_X2) (Relative [1; 2]%Z) = (f', Ok d).
Proof. exact ex_pw. Qed.
Example C72_nonvacuous_data : loc_bottom_series ex_X2 = Ok ex_X2 /\ NoDup (labels ex_X2) /\
  (forall q t, In (q, t) (labels ex_X2) -> In t [2; 3]%Z -> In q (map r_path (f_rows ex_yh))).
Proof. exact (conj ex_X2_bottom (conj ex_X2_nodup ex_X2_series)). Qed.
