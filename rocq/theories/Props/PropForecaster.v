(** Properties C24 (forecaster part), C38-C41, C70: which effects and columns take part in a forecast.
    The theorems hold for every feature transformer and every inference engine. *)
From Coq Require Import Reals String Bool ZArith List.
From Verif.Model Require Import Base Num XFloat Regex Frame Arr Expand Aggregate Scale Predict Prog Likelihood Trend Effect
  TrendProg Engine Forecaster.
From Verif.Spec Require Import RegexSpec FrameSpec ProgSpec EffectSpec ForecasterSpec.
From Verif.Facts Require Import EffectExamples ForecasterFacts ForecasterInv ForecasterProps ForecasterExamples ForecasterTransformer.
Import ListNotations.
Local Open Scope string_scope.

Section Any.
Variable ns_of : Z -> Z.
Variable order : list string -> list string.
Variable keep : path -> bool.
Context {TS : Type}.
Variable tr_fit_transform : TS -> frame R -> TS * res (frame R).
Variable tr_transform : TS -> frame R -> res (frame R).
Context {P : Type}.
Variable svi_run : Z -> nat -> nat -> prog arr -> res (list xr * P).
Variable nuts_run : Z -> nat -> nat -> nat -> prog arr -> res (nat -> nat -> env).
Variable latent_sites : prog arr -> list string.

Notation fit_data := (fit_data ns_of order keep tr_fit_transform).
Notation fit_forecaster := (fit_forecaster ns_of order keep tr_fit_transform svi_run nuts_run latent_sites).
Notation predict_model := (predict_model ns_of keep tr_transform).

(** * C24: the effects of the model are the listed ones which have a column or need none, and the
    default effect if some column is left over. [Xe] is the frame the effects see. *)
Theorem C24_univariate : forall c ob s y X ob' p m,
  fit_data c ob s y X = (ob', Ok (p, m)) -> c_hier c = false -> f_rows y <> [] ->
  exists Xe, (o_transformer ob = None -> f_cols Xe = match X with None => [] | Some X => f_cols X end) /\
    forall n, In n (dict_keys (p_effects p)) <->
      (exists l, In l (effects_of c) /\ l_name l = n /\ participates Xe l) \/
      (n = default_name /\ exists col, leftover (effects_of c) Xe col).
Proof. exact (c24_univariate ns_of order keep tr_fit_transform). Qed.

Theorem C24_hierarchical : forall c ob s y X ob' p m,
  fit_data c ob s y X = (ob', Ok (p, m)) -> c_hier c = true ->
  o_transformer ob = None -> frame_wf y -> (exists r, In r (f_rows y) /\ no_total (r_path r) = true) ->
  (forall X', X = Some X' -> f_rows X' <> []) ->
  exists Xe, ((match X with None => True | Some X => no_columns X = true end) -> f_cols Xe = []) /\
    forall n, In n (dict_keys (p_effects p)) <->
      (exists l, In l (effects_of c) /\ l_name l = n /\ participates Xe l) \/
      (n = default_name /\ exists col, leftover (effects_of c) Xe col).
Proof. exact (c24_hierarchical ns_of order keep tr_fit_transform). Qed.

(** * C38: the model which is fitted, and every model evaluated by a later prediction, gets exactly the
    data of its effects, prepared by the effects themselves. *)
Theorem C38_fit : forall c ob s y X ob' p m, fit_data c ob s y X = (ob', Ok (p, m)) ->
  exists td ya data, m = model_call c s p (o_trend ob') td (Some ya) (Some data) /\ data_complete p data (time_ids y).
Proof. exact (c38_fit ns_of order keep tr_fit_transform). Qed.

Theorem C38_predict : forall c ob y X ob' f, fit_forecaster c ob y X = (ob', Ok f) ->
  forall ob2 y2 X2 fh m, predict_model c ob2 f y2 X2 fh = Ok m ->
  exists td data times, m = model_call c (ft_scale f) (ft_prepared f) (o_trend ob2) td None (Some data) /\
    data_complete (ft_prepared f) data times.
Proof. exact (c38_predict ns_of order keep tr_fit_transform tr_transform svi_run nuts_run latent_sites). Qed.

(** * C39 *)
Theorem C39_univariate : forall c ob s y ob' p m,
  fit_data c ob s y None = (ob', Ok (p, m)) -> o_transformer ob = None -> c_hier c = false -> f_rows y <> [] ->
  p_has_exogenous p = true /\
  forall n, In n (dict_keys (p_effects p)) <-> exists l, In l (effects_of c) /\ l_name l = n /\ skip_if_no_match (l_effect l) = false.
Proof. exact (c39_names ns_of order keep tr_fit_transform). Qed.

Theorem C39_hierarchical : forall c ob s y X ob' p m,
  fit_data c ob s y X = (ob', Ok (p, m)) -> o_transformer ob = None ->
  c_hier c = true -> frame_wf y -> (exists r, In r (f_rows y) /\ no_total (r_path r) = true) -> X = None ->
  forall n, In n (dict_keys (p_effects p)) <-> exists l, In l (effects_of c) /\ l_name l = n /\ skip_if_no_match (l_effect l) = false.
Proof. exact (c39_hierarchical ns_of order keep tr_fit_transform). Qed.

Theorem C39_contributes : forall c ob y ob' f,
  fit_forecaster c ob y None = (ob', Ok f) -> o_transformer ob = None -> c_hier c = false -> f_rows y <> [] ->
  NoDup (map l_name (effects_of c)) -> ~ In default_name (map l_name (effects_of c)) -> ~ In "trend" (map l_name (effects_of c)) ->
  exists Xe, f_cols Xe = [] /\
    forall l, In l (effects_of c) -> skip_if_no_match (l_effect l) = false ->
    forall ob2 y2 X2 fh m, predict_model c ob2 f y2 X2 fh = Ok m -> contributes order l Xe (scale_number (ft_scale f)) m.
Proof. exact (c39_contributes ns_of order keep tr_fit_transform tr_transform svi_run nuts_run latent_sites). Qed.

(** * C40 *)
Theorem C40_columns : forall c ob s y X ob' p m, fit_data c ob s y X = (ob', Ok (p, m)) ->
  exists Xe main dflt,
    (c_hier c = false -> o_transformer ob = None -> f_cols Xe = match X with None => [] | Some X => f_cols X end) /\
    p_fitted p = (main ++ dflt)%list /\ Forall2 (fitted_from order (scale_number s) Xe) (effects_of c) main /\
    ((dflt = [] /\ forall col, ~ leftover (effects_of c) Xe col) \/
     (exists f, dflt = [f] /\ fe_name f = default_name /\ fe_cols f <> [] /\
        (forall col, In col (fe_cols f) <-> leftover (effects_of c) Xe col) /\
        exists XC, select_columns 0%R Xe (fe_cols f) = Ok XC /\
          fit order (clone (default_of (c_default c))) (Some XC) (scale_number s) = (fe_effect f, None))).
Proof. exact (c40 ns_of order keep tr_fit_transform). Qed.

(** * C41 Full statement: every entry of exogenous_effects whose pattern matches a column contributes a
    term to the forecast location.  Proved when names are distinct and not reserved. *)
Theorem C41_fit_partial : forall c ob s y X ob' p m,
  fit_data c ob s y X = (ob', Ok (p, m)) -> c_hier c = false -> f_rows y <> [] ->
  NoDup (map l_name (effects_of c)) -> ~ In default_name (map l_name (effects_of c)) -> ~ In "trend" (map l_name (effects_of c)) ->
  exists Xe, (o_transformer ob = None -> f_cols Xe = match X with None => [] | Some X => f_cols X end) /\
    forall l, In l (effects_of c) -> participates Xe l -> contributes order l Xe (scale_number s) m.
Proof. exact (c41_fit ns_of order keep tr_fit_transform). Qed.

Theorem C41_predict_partial : forall c ob y X ob' f,
  fit_forecaster c ob y X = (ob', Ok f) -> c_hier c = false -> f_rows y <> [] ->
  NoDup (map l_name (effects_of c)) -> ~ In default_name (map l_name (effects_of c)) -> ~ In "trend" (map l_name (effects_of c)) ->
  exists Xe, (o_transformer ob = None -> f_cols Xe = match X with None => [] | Some X => f_cols X end) /\
    forall l, In l (effects_of c) -> participates Xe l ->
    forall ob2 y2 X2 fh m, predict_model c ob2 f y2 X2 fh = Ok m -> contributes order l Xe (scale_number (ft_scale f)) m.
Proof. exact (c41_predict ns_of order keep tr_fit_transform tr_transform svi_run nuts_run latent_sites). Qed.

(** * C70 Full statement: Prophetverse can be fitted with any feature transformer.  Preparing the trend's
    data succeeds if the transformer keeps the original columns, and the fit fails otherwise. *)
Theorem C70_keeps_partial : forall t0 X y s t (X1 Xe : frame R) fh index,
  trend_fit ns_of order t0 X y s = (t, None) -> ~ is_effect t0 ->
  (forall col, In col (columns_seen X) -> In col (f_cols X1)) -> loc_index X1 index = Ok Xe ->
  exists td, trend_transform ns_of t Xe fh = Ok td.
Proof. exact (c70_keeps ns_of order). Qed.

Theorem C70_drop_refuted : forall c ob s y X t0 t tr tr' X1 Xe, c_hier c = false ->
  get_trend_model c ob = Ok t0 -> ~ is_effect t0 ->
  (exists yt, (if discrete c then divide_target s y else Ok y) = Ok yt /\ trend_fit ns_of order t0 (Some X) yt 1 = (t, None)) ->
  o_transformer ob = Some tr -> tr_fit_transform tr X = (tr', Ok X1) -> loc_index X1 (index_of y) = Ok Xe ->
  f_rows X <> [] -> (exists col, In col (f_cols X) /\ ~ In col (f_cols X1)) ->
  snd (fit_data c ob s y (Some X)) = Err KeyError.
Proof. exact (c70_fails ns_of order keep tr_fit_transform). Qed.

Theorem C70_needs : forall c ob s y X ob' p m tr tr' X1, c_hier c = false ->
  (forall e, get_trend_model c ob <> Ok (TEffect e)) -> o_transformer ob = Some tr -> tr_fit_transform tr X = (tr', Ok X1) ->
  fit_data c ob s y (Some X) = (ob', Ok (p, m)) -> f_rows X <> [] ->
  forall col, In col (f_cols X) -> In col (f_cols X1).
Proof. exact (c70_needs ns_of order keep tr_fit_transform). Qed.

Theorem C70_hierarchical_partial : forall t0 (X2 : frame R) yb s t fh, ~ is_effect t0 ->
  trend_fit ns_of order t0 (Some X2) yb s = (t, None) -> exists td, trend_transform ns_of t X2 fh = Ok td.
Proof. exact (c70_hierarchical ns_of order). Qed.
End Any.
Print Assumptions C24_univariate.
Print Assumptions C24_hierarchical.
Print Assumptions C38_fit.
Print Assumptions C38_predict.
Print Assumptions C39_univariate.
Print Assumptions C39_hierarchical.
Print Assumptions C39_contributes.
Print Assumptions C40_columns.
Print Assumptions C41_fit_partial.
Print Assumptions C41_predict_partial.
Print Assumptions C70_keeps_partial.
Print Assumptions C70_drop_refuted.
Print Assumptions C70_needs.
Print Assumptions C70_hierarchical_partial.

(** A fit on columns tv and web with one listed effect for tv; its program runs. *)
Example C24_C38_C40_C41_nonvacuous : succeeds (fit_ex [linear_tv] None (Some Xu)) = true /\
  option_map (fun p => dict_keys (p_effects p)) (prepared_of (fit_ex [linear_tv] None (Some Xu))) = Some ["tv"; "exogenous_variables_effect"] /\
  option_map (fun p => map fe_cols (p_fitted p)) (prepared_of (fit_ex [linear_tv] None (Some Xu))) = Some [["tv"]; ["web"]] /\
  sites_of (fun _ _ => 1%R) (program (fit_ex [linear_tv] None (Some Xu))) =
    ["trend_flat_coefficient"; "trend"; "tv/features_plate"; "tv/coefs"; "tv";
     "exogenous_variables_effect/features_plate"; "exogenous_variables_effect/coefs"; "exogenous_variables_effect"; "noise_scale"; "data"; "obs"].
Proof. exact ex_fit_data. Qed.

(** A fit without exogenous data and with a seasonality. *)
Example C39_nonvacuous : exists ob' p m, fit_ex [linear_tv; season] None None = (ob', Ok (p, m)).
Proof. exact ex_no_X. Qed.

(** C41: of two effects with the same name only the last is used, and an effect with the reserved name
    is replaced by the default effect: changing the data of the first effect changes nothing. *)
Theorem C41_same_name_refuted : exists ob' p m, fit_ex (twice "a" "a") None (Some Xu) = (ob', Ok (p, m)) /\
  fit_ex (twice "a" "a") None (Some Xu') = (ob', Ok (p, m)) /\ dict_keys (p_effects p) = ["a"] /\ map fe_cols (p_fitted p) = [["tv"]; ["web"]].
Proof. exact ex_same_name. Qed.
Print Assumptions C41_same_name_refuted.

Theorem C41_default_name_refuted : exists ob' p m,
  fit_ex [(default_name, Linear Additive (DUser 0) base_init, Some "tv")] None (Some Xu) = (ob', Ok (p, m)) /\
  fit_ex [(default_name, Linear Additive (DUser 0) base_init, Some "tv")] None (Some Xu') = (ob', Ok (p, m)) /\
  dict_keys (p_effects p) = [default_name] /\ map fe_cols (p_fitted p) = [["tv"]; ["web"]].
Proof. exact ex_default_name. Qed.
Print Assumptions C41_default_name_refuted.

Example C41_distinct_names_differ :
  succeeds (fit_ex (twice "a" "b") None (Some Xu)) = true /\ succeeds (fit_ex (twice "a" "b") None (Some Xu')) = true /\
  value_of (fun _ _ => 1%R) (program (fit_ex (twice "a" "b") None (Some Xu))) "a" 0 = Some 1%R /\
  value_of (fun _ _ => 1%R) (program (fit_ex (twice "a" "b") None (Some Xu'))) "a" 0 = Some 5%R.
Proof. exact ex_distinct_names. Qed.

(** C70: the transformer keeping only "web" breaks the fit, the identity does not. *)
Example C70_nonvacuous : (exists ob', fit_ex [] (Some false) (Some Xu) = (ob', Err KeyError)) /\
  exists ob' p m, fit_ex [] (Some true) (Some Xu) = (ob', Ok (p, m)).
Proof. split; [exact ex_drop_fails|exact ex_keep_works]. Qed.
