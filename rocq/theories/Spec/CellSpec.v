(** Forecasts of the same series and dates with different exogenous data. *)
From Coq Require Import Reals ZArith String Bool List.
From Verif.Model Require Import Base Num Frame Arr Prog Effect Forecaster.
From Verif.Spec Require Import OverlapSpec.
Import ListNotations.
Local Open Scope string_scope.

(** the values of the exogenous data for one series and date *)
Definition values_at (p : path) (t : Z) (X : frame R) : list (list R) :=
  map r_vals (filter (fun r => path_eqb (r_path r) p && Z.eqb (r_time r) t) (f_rows X)).
(** the same columns and index levels, and the same series in the same order; values and dates may differ *)
Definition same_frame (X1 X2 : frame R) : Prop := f_levels X1 = f_levels X2 /\ f_cols X1 = f_cols X2 /\ series_of X1 = series_of X2.
(** the series that are not totals *)
Definition bottom_of (X : frame R) : list path := filter (fun p => negb (String.eqb (last p "") "__total")) (series_of X).
(** series number [i] among [ids] has the same values at date [t] in both frames *)
Definition unchanged (ids : list path) (X1 X2 : frame R) (i : nat) (t : Z) : Prop :=
  exists p, nth_error ids i = Some p /\ values_at p t X1 = values_at p t X2.

Section Cells.
(** number of series, dates of the two horizons, and the series and dates in question *)
Variables (n : nat) (ts1 ts2 : list Z) (cell : nat -> Z -> Prop).

(** entry [p] of an array of shape (n, T1, 1) and entry [q] of one of shape (n, T2, 1): the same series and date *)
Definition cell_place (p q : nat) : Prop := exists i j1 j2 t, cell i t /\ i < n /\ nth_error ts1 j1 = Some t /\ nth_error ts2 j2 = Some t /\
  p = i * List.length ts1 + j1 /\ q = i * List.length ts2 + j2.
Definition same_in_cells {A} (l1 l2 : list A) : Prop := forall p q, cell_place p q -> exists x, nth_error l1 p = Some x /\ nth_error l2 q = Some x.
(** the same for arrays of shape (T, n) *)
Definition same_in_columns {A} (l1 l2 : list A) : Prop := forall i j1 j2 t, cell i t -> i < n -> nth_error ts1 j1 = Some t -> nth_error ts2 j2 = Some t ->
  exists x, nth_error l1 (j1 * n + i) = Some x /\ nth_error l2 (j2 * n + i) = Some x.

(** distributions of observations; the covariances of the series are the same at every common date *)
Fixpoint same_cell_distr (d1 d2 : distr) : Prop :=
  match d1, d2 with
  | DNormal a b, DNormal a' b' | DGamma a b, DGamma a' b' | DNegBinomial2 a b, DNegBinomial2 a' b' => same_in_cells (a_flat a) (a_flat a') /\ same_in_cells (a_flat b) (a_flat b')
  | DMasked m d, DMasked m' d' => same_in_cells m m' /\ same_cell_distr d d'
  | DMvNormal a b, DMvNormal a' b' => same_in_columns (a_flat a) (a_flat a') /\ same_blocks ts1 ts2 (n * n) (a_flat b) (a_flat b')
  | _, _ => False
  end.

(** two recorded sites: parameters are drawn from the same distributions, with the same values; components and the
    distributions of observations are the same for these series and dates *)
Definition same_cell_site (s1 s2 : string * site) : Prop := fst s1 = fst s2 /\
  match snd s1, snd s2 with
  | SDet a, SDet a' => same_in_cells (a_flat a) (a_flat a')
  | SSample d v o, SSample d' v' o' => o = o' /\
      if String.eqb (fst s1) "obs" || o then same_cell_distr d d' /\ (o = true -> same_in_cells (a_flat v) (a_flat v')) else d = d' /\ v = v'
  | SPlate k, SPlate k' => fst s1 = "data" \/ k = k'
  | _, _ => False
  end.
Definition same_cells (tr1 tr2 : trace) : Prop := Forall2 same_cell_site tr1 tr2.
End Cells.
