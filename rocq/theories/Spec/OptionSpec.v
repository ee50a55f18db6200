(** What the options of a forecaster can change. *)
From Coq Require Import Reals String Bool List ZArith.
From Verif.Model Require Import Base Num Frame Arr Prog Effect TrendProg Engine Forecaster.
Import ListNotations.
Local Open Scope string_scope.

(** the same forecaster, apart from the hyperparameters of priors and the options of the inference *)
Definition same_structure (c c' : config) : Prop :=
  c_hier c = c_hier c' /\ c_trend c = c_trend c' /\ c_interval c = c_interval c' /\ c_range c = c_range c' /\ c_effects c = c_effects c' /\
  c_default c = c_default c' /\ c_likelihood c = c_likelihood c' /\ c_scale c = c_scale c' /\ c_shared c = c_shared c'.

(** the parameters whose priors differ: those to which a hyperparameter that differs belongs, if the trend of the forecaster and
    its class have them *)
Inductive touched (c c' : config) : string -> Prop :=
| touched_rates name : c_trend c = TrendName name -> In name ["linear"; "linear_raw"; "logistic"] ->
    c_changepoint_scale c <> c_changepoint_scale c' -> touched c c' "changepoint_coefficients"
| touched_offset name : c_trend c = TrendName name -> In name ["linear"; "linear_raw"; "logistic"] ->
    c_offset_scale c <> c_offset_scale c' -> touched c c' "offset"
| touched_capacity : c_trend c = TrendName "logistic" ->
    c_capacity_scale c <> c_capacity_scale c' \/ c_capacity_loc c <> c_capacity_loc c' -> touched c c' "capacity"
| touched_flat : c_trend c = TrendName "flat" -> c_changepoint_scale c <> c_changepoint_scale c' -> touched c c' "trend_flat_coefficient"
| touched_noise : c_hier c = false -> c_noise c <> c_noise c' -> touched c c' "noise_scale"
| touched_std : c_hier c = true -> c_noise c <> c_noise c' -> touched c c' "std_observation"
| touched_corr : c_hier c = true -> c_concentration c <> c_concentration c' -> touched c c' "corr_matrix".

(** records of a site in two runs: equal, but at the sites [S] the distributions may differ *)
Definition like_site (S : string -> Prop) (a b : string * site) : Prop :=
  fst a = fst b /\ (snd a = snd b \/ S (fst a) /\ exists d d' v o, snd a = SSample d v o /\ snd b = SSample d' v o).
(** both programs fail alike, or return and record the same, up to the distributions at the sites [S] *)
Definition like_runs (S : string -> Prop) (m m' : prog arr) : Prop :=
  forall e, match run e [] m, run e [] m' with
            | Ok (o, tr), Ok (o', tr') => o = o' /\ Forall2 (like_site S) tr tr'
            | Err x, Err x' => x = x'
            | _, _ => False
            end.

(** the options of the chosen inference method *)
Definition same_inference (c c' : config) : Prop :=
  c_method c = c_method c' /\ en_key (engine_of c) = en_key (engine_of c') /\
  (c_method c = "mcmc" -> c_samples c = c_samples c' /\ c_warmup c = c_warmup c' /\ c_chains c = c_chains c') /\
  (c_method c = "map" -> c_steps c = c_steps c' /\ c_optimizer c = c_optimizer c').

(** the forecaster with other options for the priors of the trend *)
Definition with_trend_options (c : config) (changepoint_scale offset_scale capacity_scale capacity_loc : R) : config :=
  mkConfig (c_hier c) (c_trend c) (c_interval c) (c_range c) changepoint_scale offset_scale capacity_scale capacity_loc (c_effects c) (c_default c) (c_noise c)
    (c_likelihood c) (c_scale c) (c_shared c) (c_concentration c) (c_method c) (c_key c) (c_steps c) (c_optimizer c) (c_samples c) (c_warmup c) (c_chains c).
