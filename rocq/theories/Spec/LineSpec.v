(** Specification vocabulary for least squares lines. *)
From Coq Require Import Reals ZArith List.
From Verif.Model Require Import Base Frame.
Import ListNotations.
Local Open Scope R_scope.

(** sum of the squared errors of the line a + b x at the points *)
Fixpoint squared_error (a b : R) (points : list (R * R)) : R :=
  match points with
  | [] => 0
  | (x, y) :: tl => (y - (a + b * x)) * (y - (a + b * x)) + squared_error a b tl
  end.
Definition least_squares (a b : R) (points : list (R * R)) : Prop :=
  forall a' b', squared_error a b points <= squared_error a' b' points.

(** the points (time, value of the first column) of a series *)
Definition series_points (y : frame R) (p : path) : list (R * R) :=
  map (fun r => (IZR (r_time r), hd 0 (r_vals r))) (filter (fun r => path_eqb (r_path r) p) (f_rows y)).
Definition has_series (y : frame R) (p : path) : Prop := exists r, In r (f_rows y) /\ r_path r = p.

(** ** Initial values of a piecewise trend *)
From Verif.Model Require Import Trend.

(** the values whose first and last give the initial values: the series or its least squares line *)
Definition start_values (p : piecewise_params) (y : frame R) (q : path) : list R :=
  map snd (series_points (if pw_detrend p then detrend_frame y else y) q).
Definition first_value (p : piecewise_params) (y : frame R) (q : path) : R := hd 0 (start_values p y q).
Definition last_value (p : piecewise_params) (y : frame R) (q : path) : R := last (start_values p y q) 0.

(** the capacity of the initial curve: the given one, or 105% of the largest value *)
Definition initial_capacity (p : piecewise_params) (y : frame R) (cap : R) : Prop :=
  match pw_logistic p with
  | None => False
  | Some (Some c) => cap = c
  | Some None => exists q v, has_series y q /\ In v (start_values p y q) /\
      (forall q' v', has_series y q' -> In v' (start_values p y q') -> v' <= v) /\ cap = 105 / 100 * v
  end.
(** values for which no logistic curve with values between 0 and the capacity exists *)
Definition outside (cap v : R) : Prop := v < 0 \/ cap < v.
(** the last training time when the times are numbered 0, 1, ... (C06) *)
Definition last_time (y : frame R) : R := INR (length (time_ids y) - 1).
