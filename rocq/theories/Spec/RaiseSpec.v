(** Specification vocabulary for inputs that are rejected. *)
From Coq Require Import Reals String Bool ZArith List.
From Verif.Model Require Import Base Num XFloat Frame Arr Prog Predict TrendProg Engine Forecaster.
Import ListNotations.
Local Open Scope string_scope.

Section Any.
Variable ns_of : Z -> Z.
Variable keep : path -> bool.
Context {TS : Type}.
Variable tr_transform : TS -> frame R -> res (frame R).
Context {P : Type}.
Variable guide_draw : P -> Z -> nat -> prog arr -> env.
Variable complete_draw : env -> Z -> nat -> prog arr -> env.

(** whichever forecast is asked for, the exception is [e] *)
Definition every_forecast_raises (c : config) (ob : objects (TS := TS)) (f : fitted (P := P)) (y : frame R) (X : option (frame R)) (fh : horizon)
  (e : exn) : Prop :=
  snd (forecast_samples ns_of keep tr_transform guide_draw complete_draw c ob f y X fh) = Err e /\
  snd (forecast_point ns_of keep tr_transform guide_draw complete_draw c ob f y X fh) = Err e /\
  (forall alpha, snd (forecast_quantiles ns_of keep tr_transform guide_draw complete_draw c ob f y X fh alpha) = Err e) /\
  snd (forecast_all_sites ns_of keep tr_transform guide_draw complete_draw c ob f y X fh) = Err e /\
  snd (forecast_all_sites_samples ns_of keep tr_transform guide_draw complete_draw c ob f y X fh) = Err e.
End Any.

(** the column is not there, possibly because no features are given *)
Definition without (X : option (frame R)) (col : string) : Prop := forall x, X = Some x -> ~ In col (f_cols x).

(** the four names of trends *)
Definition known_trend (s : string) : Prop := s = "linear" \/ s = "linear_raw" \/ s = "logistic" \/ s = "flat".
