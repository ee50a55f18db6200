(** Specification vocabulary for forecasters. *)
From Coq Require Import Reals String Bool ZArith List.
From Verif.Model Require Import Base Num Regex Frame Arr Prog Likelihood Effect TrendProg Engine Forecaster.
From Verif.Spec Require Import RegexSpec FrameSpec ProgSpec.
Import ListNotations.
Local Open Scope string_scope.

(** a pattern matches (a prefix of) a column name; no pattern matches nothing *)
Definition matched (regex : option string) (c : string) : Prop :=
  exists p r s', regex = Some p /\ compile p = Some r /\
    Matches (List.length (list_ascii_of_string c)) r (list_ascii_of_string c) s'.

(** entries of [exogenous_effects] and of [exogenous_effects_] *)
Definition l_name (l : listed) : string := fst (fst l).
Definition l_effect (l : listed) : effect := snd (fst l).
Definition l_regex (l : listed) : option string := snd l.
Definition fe_name (f : fitted_effect) : string := fst (fst f).
Definition fe_effect (f : fitted_effect) : effect := snd (fst f).
Definition fe_cols (f : fitted_effect) : list string := snd f.

(** a column of X which no pattern matches *)
Definition leftover (effects : list listed) (X : frame R) (c : string) : Prop :=
  In c (f_cols X) /\ forall l, In l effects -> ~ matched (l_regex l) c.

(** [f] is the entry [l] fitted on its columns of [X] *)
Definition fitted_from (order : list string -> list string) (scale : R) (X : frame R) (l : listed) (f : fitted_effect) : Prop :=
  fe_name f = l_name l /\
  (forall c, In c (fe_cols f) <-> In c (f_cols X) /\ matched (l_regex l) c) /\
  exists XC, select_columns 0%R X (fe_cols f) = Ok XC /\ fit order (clone (l_effect l)) (Some XC) scale = (fe_effect f, None).

(** the entry takes part in the model: it has a column or its class does not need one *)
Definition participates (X : frame R) (l : listed) : Prop :=
  skip_if_no_match (l_effect l) = false \/ exists c, In c (f_cols X) /\ matched (l_regex l) c.

(** [m] computes a location from trend, data and effects and uses it in an observation *)
Definition model_of {D} (trend : prog arr) (data : dict D) (effs : dict (effect_fn D)) (m : prog arr) : Prop :=
  exists f, m = pbind (compute_mean trend (Some data) (Some effs)) f.

(** the model evaluated by a prediction *)
Definition predict_model ns_of keep {TS} (tr_transform : TS -> frame R -> res (frame R)) {P}
  (c : config) (ob : objects) (f : fitted (P := P)) (y : frame R) (X : option (frame R)) (fh : horizon) : res (prog arr) :=
  if c_hier c then ma <- hierarchical_predict_model ns_of keep tr_transform c ob f y X fh ;; Ok (fst ma)
  else univariate_predict_model ns_of tr_transform c ob f y X fh.

(** the effect used for columns no pattern matches *)
Definition default_of (d : option effect) : effect := match d with None => default_linear | Some e => e end.

(** [data] has exactly the participating effects as keys, each with what that effect prepared *)
Definition data_complete (p : prepared) (data : dict edata) (fh : list Z) : Prop :=
  dict_keys data = dict_keys (p_effects p) /\
  forall n e, dict_get (p_effects p) n = Some e ->
    exists d f X, dict_get data n = Some d /\ In f (p_fitted p) /\ fe_name f = n /\ fe_effect f = e /\
      transform e (Some X) fh = Ok d.

(** the entry [l], fitted on its columns of [Xe], is one of the terms of the location of [m] *)
Definition contributes (order : list string -> list string) (l : listed) (Xe : frame R) (s : R) (m : prog arr) : Prop :=
  exists f, fitted_from order s Xe l f /\
    forall e o tr, run e [] m = Ok (o, tr) ->
    exists k trend data effs tv vs mean i v,
      m = pbind (compute_mean trend (Some data) (Some effs)) k /\ additive_mean e trend data effs tv vs mean /\
      nth_error effs i = Some (l_name l, predict (fe_effect f)) /\ nth_error vs i = Some v.

(** a trend that is an ordinary effect rather than one of the trend classes *)
Definition is_effect (t : trend) : Prop := exists e, t = TEffect e.

(** the same parameters with another random key *)
Definition with_key (c : config) (k : option Z) : config :=
  mkConfig (c_hier c) (c_trend c) (c_interval c) (c_range c) (c_changepoint_scale c) (c_offset_scale c) (c_capacity_scale c)
    (c_capacity_loc c) (c_effects c) (c_default c) (c_noise c) (c_likelihood c) (c_scale c) (c_shared c) (c_concentration c)
    (c_method c) k (c_steps c) (c_optimizer c) (c_samples c) (c_warmup c) (c_chains c).
