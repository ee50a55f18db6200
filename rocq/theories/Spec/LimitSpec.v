(** How large a component can be. *)
From Coq Require Import Reals ZArith String Bool List.
From Verif.Model Require Import Base Num Frame Arr Prog Effect Forecaster.
From Verif.Spec Require Import ResponseSpec SeasonSpec.
Import ListNotations.
Local Open Scope string_scope.

Section Limits.
(** values of all parameters, the name of the effect, and the numbers of the coefficients of the waves *)
Variables (e : env) (name : string) (place : nat -> nat).

(** [b] limits the effect relative to its base, with the values [x] in its columns:
    - linear: the sum of the sizes of inputs times coefficients;
    - log: no more than the linear effect with the coefficient scale * rate, and at most ln(1e8) times the scale where
      rate * input is negative;
    - Hill: the maximum, for inputs which are not negative and a positive half-maximum;
    - seasonality: the sum of the sizes of the coefficients, whatever the date;
    - a lift experiment is like its inner effect. *)
Fixpoint limit (ef : effect) (x : list R) (b : R) : Prop :=
  match ef with
  | Linear _ _ _ => b = weighted (map Rabs x) (fun k => Rabs (parameter e name "coefs" k))
  | Log _ _ _ _ => exists u z, x = [u] /\ z = (parameter e name "log_rate" 0 * u)%R /\
      b = (Rabs (parameter e name "log_scale" 0) * if Rle_dec 0 z then z else ln 100000000)%R
  | Hill _ _ _ _ _ => b = Rabs (parameter e name "max_effect" 0)
  | Lift inner _ _ _ _ => limit inner x b
  | Fourier periods terms _ _ _ _ _ _ => exists hs, harmonics periods terms hs /\ b = weighted (repeat 1%R (2 * List.length hs)) (fun k => Rabs (parameter e name "coefs" (place k)))
  end.
(** what is said about Hill effects needs inputs which are not negative and a positive half-maximum *)
Fixpoint tame (ef : effect) (x : list R) : Prop :=
  match ef with
  | Hill _ _ _ _ _ => (forall u, x = [u] -> 0 <= u)%R /\ (0 < parameter e name "half_max" 0)%R
  | Lift inner _ _ _ _ => tame inner x
  | _ => True
  end.
End Limits.

(** [b] limits the component of the effect called [name] for the trend [trend]; [vals] are the values of columns, and
    [place] numbers the coefficients of waves *)
Definition limited (c : config) (fitted : list fitted_effect) (e : env) (place : effect -> nat -> nat) (vals : list string -> list R -> Prop) (trend : R) (name : string) (b : R) : Prop :=
  exists ef ef0 cols x m b0, In (name, ef, cols) fitted /\ configured c name ef0 /\ vals cols x /\ effect_mode ef0 m /\ limit e name (place ef) ef0 x b0 /\ b = modal m (Rabs trend) b0.
