(** Forecasts of the same dates in different horizons. *)
From Coq Require Import Reals ZArith String Bool List Sorted.
From Verif.Model Require Import Base Num Frame Arr Prog Effect Forecaster.
Import ListNotations.
Local Open Scope string_scope.

(** the dates of a horizon are in order, without repetitions (sktime's ForecastingHorizon) *)
Definition in_order (ts : list Z) : Prop := StronglySorted Z.lt ts.

(** at the dates [ts] the frame has one row for every series and date, series after series *)
Definition series_of (X : frame R) : list path := match f_levels X with 0 => [[]] | _ => series_ids X end.
Definition covers (X : frame R) (ts : list Z) : Prop :=
  map (fun r => (r_path r, r_time r)) (filter (fun r => if in_dec Z.eq_dec (r_time r) ts then true else false) (f_rows X)) =
  flat_map (fun p => map (fun t => (p, t)) ts) (series_of X).

Section Horizons.
(** number of series and dates of the two horizons *)
Variables (n : nat) (ts1 ts2 : list Z).

(** entry [p] of an array of shape (n, T1, 1) and entry [q] of one of shape (n, T2, 1): the same series, the same date *)
Definition same_place (p q : nat) : Prop := exists i j1 j2 t, i < n /\ nth_error ts1 j1 = Some t /\ nth_error ts2 j2 = Some t /\
  p = i * List.length ts1 + j1 /\ q = i * List.length ts2 + j2.
Definition same_there {A} (l1 l2 : list A) : Prop := forall p q, same_place p q -> exists x, nth_error l1 p = Some x /\ nth_error l2 q = Some x.
(** the same for arrays of shape (T, k) *)
Definition same_blocks {A} (k : nat) (l1 l2 : list A) : Prop := forall j1 j2 t, nth_error ts1 j1 = Some t -> nth_error ts2 j2 = Some t ->
  forall r, r < k -> exists x, nth_error l1 (j1 * k + r) = Some x /\ nth_error l2 (j2 * k + r) = Some x.

(** distributions of observations; the multivariate one has a location of shape (T, n) and a matrix for every date *)
Fixpoint same_distr (d1 d2 : distr) : Prop :=
  match d1, d2 with
  | DNormal a b, DNormal a' b' | DGamma a b, DGamma a' b' | DNegBinomial2 a b, DNegBinomial2 a' b' => same_there (a_flat a) (a_flat a') /\ same_there (a_flat b) (a_flat b')
  | DMasked m d, DMasked m' d' => same_there m m' /\ same_distr d d'
  | DMvNormal a b, DMvNormal a' b' => same_blocks n (a_flat a) (a_flat a') /\ same_blocks (n * n) (a_flat b) (a_flat b')
  | _, _ => False
  end.

(** two recorded sites: parameters are drawn from the same distributions, with the same values; components and the
    distributions of observations are the same at the dates that both horizons have *)
Definition same_then (s1 s2 : string * site) : Prop := fst s1 = fst s2 /\
  match snd s1, snd s2 with
  | SDet a, SDet a' => same_there (a_flat a) (a_flat a')
  | SSample d v o, SSample d' v' o' => o = o' /\
      if String.eqb (fst s1) "obs" || o then same_distr d d' /\ (o = true -> same_there (a_flat v) (a_flat v')) else d = d' /\ v = v'
  | SPlate k, SPlate k' => fst s1 = "data" \/ k = k'
  | _, _ => False
  end.
Definition same_overlap (tr1 tr2 : trace) : Prop := Forall2 same_then tr1 tr2.
End Horizons.
