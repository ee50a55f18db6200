(** Forecasters that differ in the order of their effects. *)
From Coq Require Import Reals String List Permutation.
From Verif.Model Require Import Base Num Frame Arr Prog Likelihood Effect TrendProg Engine Forecaster.
Import ListNotations.

(** the same parameters with another list of effects *)
Definition with_effects (c : config) (effects : list listed) : config :=
  mkConfig (c_hier c) (c_trend c) (c_interval c) (c_range c) (c_changepoint_scale c) (c_offset_scale c) (c_capacity_scale c)
    (c_capacity_loc c) (Some effects) (c_default c) (c_noise c) (c_likelihood c) (c_scale c) (c_shared c) (c_concentration c)
    (c_method c) (c_key c) (c_steps c) (c_optimizer c) (c_samples c) (c_warmup c) (c_chains c).

(** for all values of the latent sites: what one program returns and records, the other does, in another order *)
Definition same_runs (m m' : prog arr) : Prop :=
  forall e o tr, run e [] m = Ok (o, tr) -> exists tr', run e [] m' = Ok (o, tr') /\ Permutation tr tr'.
