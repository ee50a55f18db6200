(** Specification vocabulary for panels whose series are measured in units of their own. *)
From Coq Require Import Reals String Bool ZArith List.
From Verif.Model Require Import Base Num Frame Arr Scale Predict History.
Import ListNotations.
Local Open Scope R_scope.

(** the values of every series [p] multiplied by [k p] *)
Definition own_units (k : path -> R) (f : frame R) : frame R :=
  mkFrame (f_levels f) (f_cols f) (map (fun r => mkRow (r_path r) (r_time r) (map (Rmult (k (r_path r))) (r_vals r))) (f_rows f)).

(** same rows and columns; the values of series (not of totals) are multiplied by the factor of the series *)
Definition converted (k : path -> R) (F F' : frame R) : Prop :=
  f_levels F' = f_levels F /\ f_cols F' = f_cols F /\
  Forall2 (fun r r' => r_path r' = r_path r /\ r_time r' = r_time r /\
    (~ In "__total"%string (r_path r) -> r_vals r' = map (Rmult (k (r_path r))) (r_vals r))) (f_rows F) (f_rows F').

(** results of prediction methods: [predict_all_sites_samples] returns values in units of the scale *)
Definition converted_result (k : path -> R) (r r' : res output) : Prop :=
  match r, r' with
  | Ok (OFrame F), Ok (OFrame F') => converted k F F'
  | Ok (OQuantiles q), Ok (OQuantiles q') => q_levels q' = q_levels q /\ converted k (q_frame q) (q_frame q')
  | Ok (OSites s), Ok (OSites s') => s' = s
  | Ok ODone, Ok ODone => True
  | Err e, Err e' => e' = e
  | _, _ => False
  end.
