(** Specification vocabulary for one series given to the hierarchical forecaster. *)
From Coq Require Import Reals String Bool ZArith List.
From Verif.Model Require Import Base Num Frame Arr Prog Scale TrendProg Forecaster.
From Verif.Spec Require Import AlignSpec ShapeSpec.
Import ListNotations.
Local Open Scope string_scope.

(** the univariate forecaster with the same parameters and a normal likelihood *)
Definition as_univariate (c : config) : config :=
  mkConfig false (c_trend c) (c_interval c) (c_range c) (c_changepoint_scale c) (c_offset_scale c) (c_capacity_scale c) (c_capacity_loc c)
    (c_effects c) (c_default c) (c_noise c) "normal" (c_scale c) (c_shared c) (c_concentration c)
    (c_method c) (c_key c) (c_steps c) (c_optimizer c) (c_samples c) (c_warmup c) (c_chains c).

(** Two models with the same components, noise prior, observation distribution and observations, for the
    same noise and the same values of all other sites.  The hierarchical forecaster calls the noise
    "std_observation" and its plate "time" (of size one), the univariate one "noise_scale" and "data". *)
Definition same_but_noise (hierarchical univariate : prog arr) : Prop :=
  forall e : env, (forall i, e "noise_scale" i = e "std_observation" i) -> forall o,
    ((exists tr, run e [] hierarchical = Ok (o, tr)) <-> (exists tr, run e [] univariate = Ok (o, tr))) /\
    forall tr, run e [] hierarchical = Ok (o, tr) ->
      exists comps noise n obs,
        tr = (comps ++ [("std_observation", noise); ("time", SPlate 1); ("obs", obs)])%list /\
        run e [] univariate = Ok (o, comps ++ [("noise_scale", noise); ("data", SPlate n); ("obs", obs)])%list.

(** a trend of the library, with numbers for the changepoint interval and range *)
Definition library_trend (t : trend) : Prop := scalar_piecewise t \/ flat_trend t.
