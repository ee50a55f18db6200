(** Vocabulary for Prophetverse on panels. *)
From Coq Require Import Reals String Bool ZArith List.
From Verif.Model Require Import Base Frame.
Import ListNotations.

(** [s] holds the rows of series [p] of [f], in the same order, without series levels *)
Definition single (f : frame R) (p : path) (s : frame R) : Prop :=
  f_levels s = 0 /\ f_cols s = f_cols f /\
  exists rows, f_rows s = map (fun r => mkRow [] (r_time r) (r_vals r)) rows /\
    rows = filter (fun r => if list_eq_dec string_dec (r_path r) p then true else false) (f_rows f).
Definition single_X (X : option (frame R)) (p : path) (s : option (frame R)) : Prop :=
  match X, s with
  | None, None => True
  | Some X, Some s => single X p s
  | _, _ => False
  end.

(** one row per row of the result of a series, carrying its label *)
Definition labelled (p : path) (rows : list (row R)) : list (row R) := map (fun r => mkRow p (r_time r) (r_vals r)) rows.

(** the exogenous frame has the levels of the target *)
Definition panel_X (paths : list path) (X : option (frame R)) : Prop :=
  match X with
  | None => True
  | Some X => frame_wf X /\ forall p, In p paths -> List.length p = f_levels X
  end.
