(** Forecasts for two scenarios: exogenous data which differ in some columns only. *)
From Coq Require Import Reals ZArith String Bool List.
From Verif.Model Require Import Base Frame Arr Prog Effect Forecaster.
From Verif.Spec Require Import FrameSpec.
Import ListNotations.
Local Open Scope string_scope.

(** the same rows and columns; values may differ in the columns of [S] *)
Definition agree_except (S : list string) (X X' : frame R) : Prop :=
  f_levels X = f_levels X' /\ f_cols X = f_cols X' /\
  Forall2 (fun r r' => r_path r = r_path r' /\ r_time r = r_time r' /\
      forall n, ~ In n S -> value_of (f_cols X) (r_vals r) n = value_of (f_cols X) (r_vals r') n)
    (f_rows X) (f_rows X').

(** every row has one value per column *)
Definition rectangular (X : frame R) : Prop := Forall (fun r => List.length (r_vals r) = List.length (f_cols X)) (f_rows X).

(** [n] is a column of [S], or the copy of one that the hierarchical forecaster makes for a series *)
Definition shows (hier : bool) (S : list string) (n : string) : Prop :=
  In n S \/ hier = true /\ exists c i, In c S /\ n = c ++ "_dup_" ++ String.concat "-" i.

(** the effect called [name] was fitted on such a column *)
Definition affected (hier : bool) (S : list string) (fitted : list fitted_effect) (name : string) : Prop :=
  exists e cols n, In (name, e, cols) fitted /\ In n cols /\ shows hier S n.

(** the site [n] is the component called [name], or one of the parameters in its scope *)
Definition site_of (name n : string) : Prop := n = name \/ exists x, n = name ++ "/" ++ x.

(** apart from the observations and the sites of the affected effects, both runs record the same *)
Definition same_elsewhere (hier : bool) (S : list string) (fitted : list fitted_effect) (tr tr' : trace) : Prop :=
  forall n, n <> "obs" -> (forall name, affected hier S fitted name -> ~ site_of name n) -> dict_get tr n = dict_get tr' n.
