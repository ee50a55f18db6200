(** The forecasters: src/prophetverse/sktime/base.py (BaseBayesianForecaster._fit, predict_samples and
    BaseProphetForecaster), sktime/univariate.py (Prophetverse) and sktime/multivariate.py
    (HierarchicalProphet).

    Frames hold real numbers and the target has one column.  Parameters given as numbers are reals
    here; see Params.v for their validation. *)
From Coq Require Import Reals String Bool ZArith List.
From Verif.Model Require Import Base Num XFloat Regex Frame Arr Expand Aggregate Scale Predict Prog Likelihood Trend Effect
  TrendProg Engine.
Import ListNotations.
Local Open Scope string_scope.

(** * Effects of a forecaster: sktime/base.py:864-1010, 1088-1115 *)

(** an entry of [exogenous_effects] and of [exogenous_effects_] *)
Definition listed := (string * effect * option string)%type.
Definition fitted_effect := (string * effect * list string)%type.

(** base.py:948-951 *)
Definition default_linear : effect := Linear Additive (DNormal (scalar 0) (scalar 1)) base_init.
Definition default_name : string := "exogenous_variables_effect".

Section Effects.
Variable order : list string -> list string.

(** the body of the loop, base.py:908-936.  The warnings are left out.  Without X the name [columns]
    is never assigned and line 923 fails. *)
Definition fit_one (X : option (frame R)) (scale : R) (l : listed) : res fitted_effect :=
  let '(name, e, regex) := l in
  match X with
  | None => match snd (fit order (clone e) None scale) with Some ex => Err ex | None => Err UnboundLocalError end
  | Some X =>
      cols <- match_columns (f_cols X) regex ;;
      XC <- select_columns 0%R X cols ;;
      let '(e', err) := fit order (clone e) (Some XC) scale in
      match err with Some ex => Err ex | None => Ok (name, e', cols) end
  end.

(** base.py:940-942: columns without an effect, sorted *)
Definition uncovered (cols : list string) (fitted : list fitted_effect) : list string :=
  str_sort (strs_unique (filter (fun c => negb (existsb (fun f => str_in c (snd f)) fitted)) cols)).

(** base.py:891-967 [_fit_effects] *)
Definition fit_effects (default : option effect) (effects : list listed) (X : option (frame R)) (scale : R)
  : res (list fitted_effect) :=
  fitted <- mapM (fit_one X scale) effects ;;
  match X with
  | None => Ok fitted
  | Some X =>
      match uncovered (f_cols X) fitted with
      | [] => Ok fitted
      | features =>
          let e := match default with None => default_linear | Some e => e end in
          XC <- select_columns 0%R X features ;;
          let '(e', err) := fit order (clone e) (Some XC) scale in
          match err with Some ex => Err ex | None => Ok (fitted ++ [(default_name, e', features)])%list end
      end
  end.
End Effects.

(** base.py:969-994 [_transform_effects] *)
Definition transform_effects (fitted : list fitted_effect) (X : frame R) (fh : list Z) : res (dict edata) :=
  foldM (fun out f =>
           let '(name, e, cols) := f in
           skip <- should_skip_predict e ;;
           if (skip : bool) then Ok out
           else XC <- select_columns 0%R X cols ;; d <- transform e (Some XC) fh ;; Ok (dict_set out name d))
        [] fitted.

(** base.py:996-1010 [non_skipped_exogenous_effect] *)
Definition non_skipped (fitted : list fitted_effect) : res (dict effect) :=
  foldM (fun out f =>
           let '(name, e, _) := f in
           skip <- should_skip_predict e ;;
           Ok (if (skip : bool) then out else dict_set out name e))
        [] fitted.

(** effects as the model functions call them *)
Definition effect_fns (effects : dict effect) : dict (effect_fn edata) := map (fun ne => (fst ne, predict (snd ne))) effects.

(** * Parameters *)
Inductive trend_arg := TrendName (s : string) | TrendObject.

(** Constructor parameters.  The objects passed as [trend] and [feature_transformer] are kept apart
    ([objects]), since the forecasters do not copy them. *)
Record config := mkConfig {
  c_hier : bool;                       (* HierarchicalProphet, otherwise Prophetverse *)
  c_trend : trend_arg;
  c_interval : R; c_range : R; c_changepoint_scale : R; c_offset_scale : R;
  c_capacity_scale : R; c_capacity_loc : R;
  c_effects : option (list listed);
  c_default : option effect;
  c_noise : R;
  c_likelihood : string;               (* Prophetverse *)
  c_scale : option scale;              (* Prophetverse *)
  c_shared : option (list string);     (* HierarchicalProphet *)
  c_concentration : R;                 (* HierarchicalProphet *)
  c_method : string; c_key : option Z; c_steps : nat; c_optimizer : nat;
  c_samples : nat; c_warmup : nat; c_chains : nat }.

(** base.py:864-871 reading of [exogenous_effects or []] *)
Definition effects_of (c : config) : list listed := match c_effects c with None => [] | Some l => l end.

(** univariate.py:33, 217-224; the hierarchical class keeps the default (base.py:96-108) *)
Definition discrete (c : config) : bool := if c_hier c then false else String.eqb (c_likelihood c) "negbinomial".

(** base.py:242-246: the default random key *)
Definition default_key : Z := 24.
Definition engine_of (c : config) : engine_args :=
  mkEngine (c_method c) (match c_key c with None => default_key | Some k => k end) (c_steps c) (c_optimizer c)
           (c_samples c) (c_warmup c) (c_chains c).

(** base.py:1026-1062, without the object *)
Definition named_trend (c : config) (s : string) : res trend :=
  let pw detrend logistic := mkPW (Scalar (c_interval c)) (Scalar (c_range c)) (Scalar (c_changepoint_scale c))
                                  (c_offset_scale c) true detrend logistic in
  let capacity := DShifted (DHalfNormal (scalar (c_capacity_scale c))) (c_capacity_loc c) in
  if String.eqb s "linear" then Ok (TPiecewise (pw true None) capacity base_init None)
  else if String.eqb s "linear_raw" then Ok (TPiecewise (pw false None) capacity base_init None)
  else if String.eqb s "logistic" then Ok (TPiecewise (pw true (Some None)) capacity base_init None)
  else if String.eqb s "flat" then Ok (TFlat (c_changepoint_scale c) base_init None)
  else Err ValueError.

(** * Horizons: base.py:645-667, sktime's ForecastingHorizon (sorted, without repetitions) *)
Inductive horizon := Relative (steps : list Z) | Absolute (times : list Z).
Definition to_absolute (cutoff : Z) (fh : horizon) : list Z :=
  match fh with Relative ks => map (fun k => (cutoff + k)%Z) ks | Absolute ts => ts end.
Definition max_time (ts : list Z) : res Z :=
  match ts with [] => Err ValueError | t :: tl => Ok (fold_left Z.max tl t) end.

Definition index_of {V} (f : frame V) : list (path * Z) := map (fun r => (r_path r, r_time r)) (f_rows f).
(** [pd.DataFrame(index=...)] *)
Definition empty_frame (levels : nat) (index : list (path * Z)) : frame R :=
  mkFrame levels [] (map (fun pt => mkRow (fst pt) (snd pt) []) index).
(** [X.loc[index]]: all rows with each label; KeyError if there is none *)
Definition loc_index (X : frame R) (index : list (path * Z)) : res (frame R) :=
  rows <- mapM (fun pt =>
      match filter (fun r => path_eqb (r_path r) (fst pt) && Z.eqb (r_time r) (snd pt)) (f_rows X) with
      | [] => Err KeyError
      | rs => Ok rs
      end) index ;;
  Ok (mkFrame (f_levels X) (f_cols X) (concat rows)).

(** The scale as a number.  With a panel the effects get the table of scales; only LiftExperiment
    reads it, and it rejects panels, so the number given here does not matter. *)
Definition scale_number (s : scale) : R := match s with SFloat c => c | SInt z => IZR z | STable _ | SSeries _ => 1%R end.

(** [y / self._scale] for discrete likelihoods, univariate.py:260-263; dividing by a table aligns
    unrelated indexes and gives NaN *)
Definition divide_target (s : scale) (y : frame R) : res (frame R) :=
  match s with
  | SFloat _ | SInt _ => Ok (map_vals (map (fun v => v / scale_number s)%R) y)
  | STable _ | SSeries _ => Err NotFinite
  end.

(** [~b] of a Python bool is -1 or -2, both of which are true *)
Definition invert (b : bool) : Z := if b then (-2)%Z else (-1)%Z.
Definition truthy (z : Z) : bool := negb (Z.eqb z 0).
Definition no_columns {V} (X : frame V) : bool := match f_cols X with [] => true | _ => false end.

Section Forecaster.
Variable ns_of : Z -> Z.
Variable order : list string -> list string.
Variable keep : path -> bool.
(** feature transformers: state, [fit_transform] and [transform] *)
Context {TS : Type}.
Variable tr_fit_transform : TS -> frame R -> TS * res (frame R).
Variable tr_transform : TS -> frame R -> res (frame R).
(** numpyro, see Engine.v *)
Context {P : Type}.
Variable svi_run : Z -> nat -> nat -> prog arr -> res (list xr * P).
Variable nuts_run : Z -> nat -> nat -> nat -> prog arr -> res (nat -> nat -> env).
Variable latent_sites : prog arr -> list string.
Variable guide_draw : P -> Z -> nat -> prog arr -> env.
Variable complete_draw : env -> Z -> nat -> prog arr -> env.

(** The trend model in use ([trend_model_]; the object given by the user if [trend] is one) and the
    feature transformer. *)
Record objects := mkObjects { o_trend : trend; o_transformer : option TS }.

(** base.py:1012-1066 [_get_trend_model] *)
Definition get_trend_model (c : config) (ob : objects) : res trend :=
  match c_trend c with TrendName s => named_trend c s | TrendObject => Ok (o_trend ob) end.

(** What a fit leaves behind besides the objects. *)
Record prepared := mkPrepared {
  p_index : list (path * Z);           (* internal_y_indexes_ *)
  p_fitted : list fitted_effect;       (* exogenous_effects_ *)
  p_effects : dict effect;             (* fit_and_predict_data_["exogenous_effects"] *)
  p_has_exogenous : bool;              (* _has_exogenous / _has_exogenous_variables, as a truth value *)
  p_expander : option expander;        (* expand_columns_transformer_ *)
  p_single : bool }.                   (* fit_and_predict_data_["is_single_series"] *)

(** univariate.py:206-215 and multivariate.py:204: the model function applied to its keyword
    arguments.  [t] and [td] are trend model and trend data. *)
Definition model_call (c : config) (s : scale) (p : prepared) (t : trend) (td : tdata)
  (y : option arr) (data : option (dict edata)) : prog arr :=
  let effs := Some (effect_fns (p_effects p)) in
  let tp := trend_predict t td in
  if c_hier c then multivariate_model y tp data effs (c_noise c) (c_concentration c) (p_single p)
  else
    let effs := if p_has_exogenous p then effs else None in
    if String.eqb (c_likelihood c) "normal" then univariate_model y tp data effs (c_noise c)
    else if String.eqb (c_likelihood c) "gamma" then univariate_gamma_model y tp data effs (c_noise c)
    else if String.eqb (c_likelihood c) "negbinomial" then
      univariate_negbinomial_model y tp data effs (c_noise c) (scale_number s)
    else Raise KeyError.

(** [fit_transform] of the feature transformer, if there is one *)
Definition run_fit_transform (ob : objects) (X : frame R) : objects * res (frame R) :=
  match o_transformer ob with
  | None => (ob, Ok X)
  | Some tr => let '(tr', r) := tr_fit_transform tr X in (mkObjects (o_trend ob) (Some tr'), r)
  end.

(** univariate.py:239-304 [Prophetverse._get_fit_data]: the objects afterwards, and the prepared
    attributes together with the program to fit. *)
Definition univariate_fit_data (c : config) (ob : objects) (s : scale) (y : frame R) (X : option (frame R))
  : objects * res (prepared * prog arr) :=
  let fh := time_ids y in
  match get_trend_model c ob, (if discrete c then divide_target s y else Ok y) with
  | Err e, _ => (ob, Err e)
  | Ok t, Err e => (mkObjects t (o_transformer ob), Err e)
  | Ok t, Ok yt =>
      let '(t, err) := trend_fit ns_of order t X yt 1 in
      let ob := mkObjects t (o_transformer ob) in
      match err with
      | Some e => (ob, Err e)
      | None =>
          let X := match X with None => empty_frame (f_levels y) (index_of y) | Some X => X end in
          let '(ob, X) := run_fit_transform ob X in
          (ob, X <- X ;;
               let has := truthy (invert (no_columns X)) in
               X <- loc_index X (index_of y) ;;
               td <- trend_transform ns_of t X fh ;;
               fitted <- fit_effects order (c_default c) (effects_of c) (Some X) (scale_number s) ;;
               data <- transform_effects fitted X fh ;;
               effs <- non_skipped fitted ;;
               let p := mkPrepared (index_of y) fitted effs has None false in
               let ya := reshape_col (mkArr [] (flat_map r_vals (f_rows y))) in
               Ok (p, model_call c s p t td (Some ya) (Some data)))
      end
  end.

(** multivariate.py:392-407 [n_series] *)
Definition n_series (levels : nat) (index : list (path * Z)) : nat :=
  match levels with
  | 0 => 1
  | _ => List.length (filter_series_tuples true (paths_unique (map fst index)))
  end.

(** multivariate.py:216-298 [HierarchicalProphet._get_fit_data] *)
Definition hierarchical_fit_data (c : config) (ob : objects) (s : scale) (y : frame R) (X : option (frame R))
  : objects * res (prepared * prog arr) :=
  let fh := time_ids y in
  let y := aggregate keep y in
  match loc_bottom_series y with
  | Err e => (ob, Err e)
  | Ok yb =>
      match series_to_tensor yb with
      | Err e => (ob, Err e)
      | Ok tensor =>
          let X := match X with
                   | None => empty_frame (f_levels y) (index_of y)
                   | Some X => if no_columns X then empty_frame (f_levels y) (index_of y) else X
                   end in
          match loc_bottom_series X with
          | Err e => (ob, Err e)
          | Ok Xb =>
              let '(ob, Xb) := run_fit_transform ob Xb in
              match Xb with
              | Err e => (ob, Err e)
              | Ok Xb =>
                  let has := negb (no_columns Xb) in
                  let expanded :=
                    if has then
                      '(X, ex) <- expand_bottom 0%R (fun _ => false) order
                                    (match c_shared c with None => [] | Some l => l end) Xb ;;
                      Ok (X, Some ex)
                    else Ok (Xb, None) in
                  match expanded, get_trend_model c ob with
                  | Err e, _ | _, Err e => (ob, Err e)
                  | Ok (Xb, ex), Ok t =>
                      let '(t, err) := trend_fit ns_of order t (Some Xb) yb (scale_number s) in
                      let ob := mkObjects t (o_transformer ob) in
                      (ob, match err with
                           | Some e => Err e
                           | None =>
                               td <- trend_transform ns_of t Xb fh ;;
                               fitted <- fit_effects order (c_default c) (effects_of c) (Some Xb) (scale_number s) ;;
                               data <- transform_effects fitted Xb fh ;;
                               effs <- non_skipped fitted ;;
                               let p := mkPrepared (index_of y) fitted effs has ex
                                          (Nat.eqb (n_series (f_levels y) (index_of y)) 1) in
                               Ok (p, model_call c s p t td (Some (arr_of_data 1 (D3 tensor))) (Some data))
                           end)
                  end
              end
          end
      end
  end.

(** [_get_fit_data] of the class in use *)
Definition fit_data (c : config) := (if c_hier c then hierarchical_fit_data else univariate_fit_data) c.

(** A fitted forecaster. *)
Record fitted := mkFitted {
  ft_scale : scale;
  ft_prepared : prepared;
  ft_posterior : inferred P }.

(** base.py:221-272 [_fit] *)
Definition fit_forecaster (c : config) (ob : objects) (y : frame R) (X : option (frame R)) : objects * res fitted :=
  match (s <- set_y_scales (c_scale c) y ;; ys <- scale_y (discrete c) s y ;; Ok (s, ys)) with
  | Err e => (ob, Err e)
  | Ok (s, ys) =>
      let '(ob, data) := fit_data c ob s ys X in
      (ob, '(p, model) <- data ;;
           post <- infer svi_run nuts_run latent_sites (engine_of c) model ;;
           Ok (mkFitted s p post))
  end.

(** * Prediction.  [y] is the target stored by sktime ([self._y]). *)

Definition run_transform (ob : objects) (X : frame R) : res (frame R) :=
  match o_transformer ob with None => Ok X | Some tr => tr_transform tr X end.

(** univariate.py:306-344 [_get_predict_data] with the resulting model call *)
Definition univariate_predict_model (c : config) (ob : objects) (f : fitted) (y : frame R) (X : option (frame R)) (fh : horizon)
  : res (prog arr) :=
  cutoff <- max_time (map r_time (f_rows y)) ;;
  let times := to_absolute cutoff fh in
  let X := match X with None => empty_frame 0 (map (fun t => ([], t)) times) | Some X => X end in
  X <- run_transform ob X ;;
  td <- trend_transform ns_of (o_trend ob) X times ;;
  data <- (if p_has_exogenous (ft_prepared f)
           then d <- transform_effects (p_fitted (ft_prepared f)) X times ;; Ok (Some d) else Ok None) ;;
  Ok (model_call c (ft_scale f) (ft_prepared f) (o_trend ob) td None data).

(** multivariate.py:300-347 [_get_predict_data] with the resulting model call, and the expander
    afterwards (its [transform] assigns [new_columns_]) *)
Definition hierarchical_predict_model (c : config) (ob : objects) (f : fitted) (y : frame R) (X : option (frame R)) (fh : horizon)
  : res (prog arr * option expander) :=
  let p := ft_prepared f in
  cutoff <- max_time (map snd (p_index p)) ;;
  let times := to_absolute cutoff fh in
  let none := aggregate keep (empty_frame (f_levels y) (map fst (reindex_time_series y times))) in
  let X := match X with None => none | Some X => if no_columns X then none else X end in
  Xb <- loc_bottom_series X ;;
  '(Xb, ex) <- (if p_has_exogenous p then
           if forallb (fun t => existsb (Z.eqb t) (map r_time (f_rows Xb))) times then
             Xb <- run_transform ob Xb ;;
             ex <- attr (p_expander p) ;;
             '(Xb, ex) <- expand_transform 0%R (fun _ => false) ex Xb ;; Ok (Xb, Some ex)
           else Err AssertionError
         else Ok (Xb, p_expander p)) ;;
  td <- trend_transform ns_of (o_trend ob) Xb times ;;
  data <- transform_effects (p_fitted p) Xb times ;;
  Ok (model_call c (ft_scale f) p (o_trend ob) td None (Some data), ex).

Definition set_expander (f : fitted) (ex : option expander) : fitted :=
  let p := ft_prepared f in
  mkFitted (ft_scale f) (mkPrepared (p_index p) (p_fitted p) (p_effects p) (p_has_exogenous p) ex (p_single p)) (ft_posterior f).

(** base.py:332-358 [_get_predictive_samples_dict]: the forecaster afterwards, and the draws *)
Definition predictive_samples_dict (c : config) (ob : objects) (f : fitted) (y : frame R) (X : option (frame R)) (fh : horizon)
  : fitted * res (dict arr) :=
  if c_hier c then
    match hierarchical_predict_model c ob f y X fh with
    | Err e => (f, Err e)
    | Ok (m, ex) => (set_expander f ex, engine_predict guide_draw complete_draw (engine_of c) (ft_posterior f) m)
    end
  else (f, m <- univariate_predict_model c ob f y X fh ;;
           engine_predict guide_draw complete_draw (engine_of c) (ft_posterior f) m).

(** base.py:645-667 [fh_to_index] *)
Definition fh_to_index (y : frame R) (fh : horizon) : res (list Z) :=
  cutoff <- max_time (map r_time (f_rows y)) ;; Ok (to_absolute cutoff fh).

Definition labeller_of (c : config) (f : fitted) (y : frame R) : labeller :=
  mkLab (f_levels y) (p_index (ft_prepared f)) (c_hier c) (ft_scale f) (discrete c).

(** base.py:415-446 and multivariate.py:349-366 [predict_samples], not vectorised *)
Definition forecast_samples (c : config) (ob : objects) (f : fitted) (y : frame R) (X : option (frame R)) (fh : horizon)
  : fitted * res (frame R) :=
  match fh_to_index y fh with
  | Err e => (f, Err e)
  | Ok times =>
      let '(f', ds) := predictive_samples_dict c ob f y X fh in
      (f', ds <- ds ;; predict_samples keep (labeller_of c f y) times ds)
  end.

(** base.py:274-293 [_predict], 555-590 [_predict_quantiles], 295-330 [predict_all_sites], 360-413
    [predict_all_sites_samples]; the target's column is [hd "" (f_cols y)] *)
Definition forecast_point (c : config) (ob : objects) (f : fitted) (y : frame R) (X : option (frame R)) (fh : horizon)
  : fitted * res (frame R) :=
  let '(f', s) := forecast_samples c ob f y X fh in
  (f', s <- s ;; Ok (point_forecast (hd "" (f_cols y)) s)).
Definition forecast_quantiles (c : config) (ob : objects) (f : fitted) (y : frame R) (X : option (frame R)) (fh : horizon) (alpha : list R)
  : fitted * res quantiles :=
  let '(f', s) := forecast_samples c ob f y X fh in
  (f', s <- s ;; predict_quantiles alpha s).
Definition forecast_all_sites (c : config) (ob : objects) (f : fitted) (y : frame R) (X : option (frame R)) (fh : horizon)
  : fitted * res (frame R) :=
  match fh_to_index y fh with
  | Err e => (f, Err e)
  | Ok times =>
      let '(f', ds) := predictive_samples_dict c ob f y X fh in
      (f', ds <- ds ;; predict_all_sites (labeller_of c f y) times ds)
  end.
Definition forecast_all_sites_samples (c : config) (ob : objects) (f : fitted) (y : frame R) (X : option (frame R)) (fh : horizon)
  : fitted * res (list string * list sample_row) :=
  let '(f', ds) := predictive_samples_dict c ob f y X fh in
  (f', ds <- ds ;; times <- fh_to_index y fh ;; predict_all_sites_samples (labeller_of c f y) times ds).

End Forecaster.
