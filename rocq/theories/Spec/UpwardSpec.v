(** Inputs which are raised from one forecast to another. *)
From Coq Require Import Reals ZArith String Bool List.
From Verif.Model Require Import Base Num Frame Arr Prog Effect Forecaster.
From Verif.Spec Require Import ResponseSpec.
Import ListNotations.
Local Open Scope string_scope.

(** an input goes from [u1] to [u2] in the direction of its coefficient *)
Definition favourable (coef u1 u2 : R) : Prop := u1 = u2 \/ (0 <= coef /\ u1 <= u2)%R \/ (coef <= 0 /\ u2 <= u1)%R.
(** multiplicative effects are relative to the trend *)
Definition positive_base (m : mode) (trend : R) : Prop := match m with Additive => True | Multiplicative => (0 <= trend)%R end.

Section Raises.
Variables (e : env) (name : string) (trend : R).
(** From the values [x1] to the values [x2] of the columns of the effect nothing changes, or what changes is favourable:
    - linear: inputs with a nonnegative coefficient are not lowered, and inputs with a negative coefficient are not raised;
    - log: nonnegative scale and rate, and the input is not lowered;
    - Hill: nonnegative maximum and slope, positive half-maximum, and a positive input is not lowered;
    - a lift experiment is like its inner effect, and seasonalities do not read the columns. *)
Fixpoint raises (ef : effect) (x1 x2 : list R) : Prop := x1 = x2 \/
  match ef with
  | Linear m _ _ => positive_base m trend /\ forall k u1 u2, nth_error x1 k = Some u1 -> nth_error x2 k = Some u2 -> favourable (parameter e name "coefs" k) u1 u2
  | Log m _ _ _ => positive_base m trend /\ (0 <= parameter e name "log_scale" 0)%R /\ (0 <= parameter e name "log_rate" 0)%R /\
      forall u1 u2, x1 = [u1] -> x2 = [u2] -> (u1 <= u2)%R
  | Hill m _ _ _ _ => positive_base m trend /\ (0 <= parameter e name "max_effect" 0)%R /\ (0 <= parameter e name "slope" 0)%R /\ (0 < parameter e name "half_max" 0)%R /\
      forall u1 u2, x1 = [u1] -> x2 = [u2] -> (0 < u1 <= u2)%R
  | Lift inner _ _ _ _ => raises inner x1 x2
  | Fourier _ _ _ _ _ _ _ _ => True
  end.
(** a Hill effect, whose input goes from zero to something *)
Fixpoint starts (ef : effect) (x1 x2 : list R) : Prop :=
  match ef with
  | Hill m _ _ _ _ => (match m with Additive => True | Multiplicative => 0 < trend end)%R /\ (0 < parameter e name "max_effect" 0)%R /\ (0 < parameter e name "half_max" 0)%R /\
      exists u, x1 = [0%R] /\ x2 = [u] /\ (0 < u)%R
  | Lift inner _ _ _ _ => starts inner x1 x2
  | _ => False
  end.
End Raises.

(** entry [k] of the component [name] *)
Definition component_at (tr : trace) (name : string) (k : nat) (v : R) : Prop := exists a, dict_get tr name = Some (SDet a) /\ nth_error (a_flat a) k = Some v.
