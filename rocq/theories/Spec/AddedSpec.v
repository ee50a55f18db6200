(** Two forecasters with effects in common. *)
From Coq Require Import Reals ZArith String Bool List.
From Verif.Model Require Import Base Num Frame Arr Prog Effect Trend TrendProg Forecaster.
From Verif.Spec Require Import DocsSpec ResponseSpec ForecasterSpec SiteSpec ShapeSpec.
Import ListNotations.
Local Open Scope string_scope.

(** an effect without the lift experiments around it *)
Fixpoint bare (ef : effect) : effect := match ef with Lift inner _ _ _ _ => bare inner | _ => ef end.
(** the effects compute the same from the same inputs and parameters; their priors and lift experiments may differ *)
Definition same_formula (ef1 ef2 : effect) : Prop :=
  match bare ef1, bare ef2 with
  | Linear m1 _ _, Linear m2 _ _ => m1 = m2
  | Log m1 _ _ _, Log m2 _ _ _ => m1 = m2
  | Hill m1 _ _ _ _, Hill m2 _ _ _ _ => m1 = m2
  | Fourier sp1 terms1 _ arg1 _ _ _ _, Fourier sp2 terms2 _ arg2 _ _ _ _ => sp1 = sp2 /\ terms1 = terms2 /\ arg1 = arg2
  | _, _ => False
  end.
(** seasonalities read only the date *)
Definition same_input (ef : effect) (x1 x2 : list R) : Prop := match bare ef with Fourier _ _ _ _ _ _ _ _ => True | _ => x1 = x2 end.

(** the trends have the same formula: the same changepoints and the same link, or both are flat *)
Definition same_trend (t1 t2 : trend) : Prop :=
  (exists iv rg lg, piecewise_options t1 iv rg lg /\ piecewise_options t2 iv rg lg /\ (0 < iv)%R) \/ flat_trend t1 /\ flat_trend t2.
(** the draws agree on the parameters of the trend *)
Definition same_trend_parameters (e1 e2 : env) : Prop :=
  forall n k, In n ["offset"; "changepoint_coefficients"; "capacity"; "trend_flat_coefficient"] -> e1 n k = e2 n k.

(** the effect called [name] is the same in both forecasters: the formula, the inputs in the rows that are read (given by
    [vals1] and [vals2]) and the parameters *)
Definition common (c1 c2 : config) (fitted1 fitted2 : list fitted_effect) (vals1 vals2 : list string -> list R -> Prop) (e1 e2 : env) (name : string) : Prop :=
  (forall p k, parameter e1 name p k = parameter e2 name p k) /\
  forall ef1 ef2 ef01 ef02 cols1 cols2 x1 x2, In (name, ef1, cols1) fitted1 -> In (name, ef2, cols2) fitted2 -> configured c1 name ef01 -> configured c2 name ef02 ->
    vals1 cols1 x1 -> vals2 cols2 x2 -> same_formula ef01 ef02 /\ same_input ef01 x1 x2.
