(** Exogenous data with the same values in the columns that matter. *)
From Coq Require Import Reals ZArith String Bool List.
From Verif.Model Require Import Base Num Regex Frame Expand Arr Prog Effect Trend TrendProg Engine Forecaster.
From Verif.Spec Require Import FrameSpec.
Import ListNotations.
Local Open Scope string_scope.

(** the same rows, and the same values in the columns named by [N]; the order of the columns and all other columns are
    arbitrary *)
Definition same_columns (N : string -> Prop) (X1 X2 : frame R) : Prop :=
  f_levels X1 = f_levels X2 /\ (forall n, N n -> In n (f_cols X1) <-> In n (f_cols X2)) /\
  Forall2 (fun r1 r2 => r_path r1 = r_path r2 /\ r_time r1 = r_time r2 /\
             forall n, N n -> value_of (f_cols X1) (r_vals r1) n = value_of (f_cols X2) (r_vals r2) n) (f_rows X1) (f_rows X2).

(** the columns which the trend remembers *)
Definition trend_column (t : trend) (n : string) : Prop :=
  match t with
  | TPiecewise _ _ b _ | TFlat _ b _ => exists l, b_cols b = Some l /\ In n l
  | TEffect e => exists l, input_feature_column_names e = Ok l /\ In n l
  end.
(** the columns which a fitted forecaster knows: those of the trend and of the effects, and those which exist once for every
    series *)
Definition known_column {TS P} (ob : objects (TS := TS)) (f : fitted (P := P)) (n : string) : Prop :=
  trend_column (o_trend ob) n \/ (exists g, In g (p_fitted (ft_prepared f)) /\ In n (snd g)) \/
  (exists ex, p_expander (ft_prepared f) = Some ex /\ In n (ex_matched ex)).
(** a transformer which finds its columns by name: on data which agree in the columns [M] it fails in the same way, or its
    results agree in the columns [N] *)
Definition by_name {TS} (tr_transform : TS -> frame R -> res (frame R)) (M N : string -> Prop) (tr : TS) : Prop :=
  forall A B : frame R, frame_wf A -> frame_wf B -> same_columns M A B ->
  match tr_transform tr A, tr_transform tr B with
  | Ok U, Ok V => frame_wf U /\ frame_wf V /\ same_columns N U V
  | Err e, Err e' => e = e'
  | _, _ => False
  end.
(** trends which differ at most in the order of the columns they remember *)
Definition same_names (b1 b2 : base) : Prop :=
  b_fitted b1 = b_fitted b2 /\
  match b_cols b1, b_cols b2 with Some l1, Some l2 => forall n, In n l1 <-> In n l2 | None, None => True | _, _ => False end.
Definition same_trend (t1 t2 : trend) : Prop :=
  match t1, t2 with
  | TPiecewise p1 c1 b1 f1, TPiecewise p2 c2 b2 f2 => p1 = p2 /\ c1 = c2 /\ f1 = f2 /\ same_names b1 b2
  | TFlat s1 b1 l1, TFlat s2 b2 l2 => s1 = s2 /\ l1 = l2 /\ same_names b1 b2
  | TEffect e1, TEffect e2 => e1 = e2
  | _, _ => False
  end.
(** every listed effect selects the same columns in the same order *)
Definition same_matches (c : config) (X1 X2 : frame R) : Prop :=
  forall l, In l (effects_of c) -> match_columns (f_cols X1) (snd l) = match_columns (f_cols X2) (snd l).
(** the trend is one of the library's trend models *)
Definition plain (t : trend) : Prop := match t with TEffect _ => False | _ => True end.
