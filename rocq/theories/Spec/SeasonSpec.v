(** What recurs after a number of steps. *)
From Coq Require Import Reals ZArith String Bool List.
From Verif.Model Require Import Base Num Frame Arr Prog Effect Forecaster.
From Verif.Spec Require Import EffectSpec ResponseSpec.
Import ListNotations.
Local Open Scope string_scope.

(** what the effect is computed from is the same [p] steps later: a seasonality all whose periods divide [p], or the
    values [x1] and [x2] of the columns are the same; a lift experiment is like its inner effect *)
Fixpoint recurs (p : Z) (ef : effect) (x1 x2 : list R) : Prop :=
  match ef with
  | Fourier periods _ _ _ _ _ _ _ => common_period periods p
  | Lift inner _ _ _ _ => recurs p inner x1 x2
  | _ => x1 = x2
  end.

(** additive or multiplicative *)
Fixpoint effect_mode (ef : effect) (m : mode) : Prop :=
  match ef with
  | Linear m' _ _ | Log m' _ _ _ | Hill m' _ _ _ _ => m' = m
  | Lift inner _ _ _ _ => effect_mode inner m
  | Fourier _ _ _ arg _ _ _ _ => mode_named arg m
  end.
