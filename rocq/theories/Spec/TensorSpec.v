(** Specification vocabulary for tensors of panels and for options given per series. *)
From Coq Require Import Reals ZArith String List.
From Verif.Model Require Import Base Frame Trend.
From Verif.Spec Require Import FrameSpec.
Import ListNotations.

(** the rows of a frame grouped by series, in order of first appearance; one group without series levels *)
Definition grouped {V} (f : frame V) (groups : list (list (row V))) : Prop :=
  match f_levels f with
  | 0 => groups = [f_rows f]
  | _ => exists ids, first_appearance (map r_path (f_rows f)) ids /\
           Forall2 (fun p g => g = filter (fun r => path_eqb (r_path r) p) (f_rows f)) ids groups
  end.
Definition equal_lengths {V} (groups : list (list (row V))) : Prop :=
  forall g g', In g groups -> In g' groups -> length g = length g'.

(** an option with one value for each of [n] series, or one for all *)
Definition given_for {A} (n : nat) (x : per_series A) : Prop := match x with Scalar _ => True | PerSeries l => length l = n end.
Definition own {A} (x : per_series A) (i : nat) : option A := match x with Scalar a => Some a | PerSeries l => nth_error l i end.
Definition with_options (p : piecewise_params) (interval range prior_scale : R) : piecewise_params :=
  mkPW (Scalar interval) (Scalar range) (Scalar prior_scale) (pw_offset_scale p) (pw_squeeze p) (pw_detrend p) (pw_logistic p).
