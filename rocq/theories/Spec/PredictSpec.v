(** Specification vocabulary for predictive frames. *)
From Coq Require Import Reals ZArith List.
From Verif.Model Require Import Base Num Arr Frame Predict.
Import ListNotations.

(** rows of the sample frame, in original units: the draws of series i at time j *)
Definition draw_rows (ids : list path) (times : list Z) (c : path -> R) (draw : nat -> nat -> list R) : list (row R) :=
  flat_map (fun i => map (fun j => mkRow (nth i ids []) (nth j times 0%Z) (map (fun v => v * c (nth i ids []))%R (draw i j)))
     (seq 0 (length times))) (seq 0 (length ids)).

(** the series of a forecast, in order: those of the training index (bottom ones only for the
    hierarchical forecaster); a single series has the empty label *)
Definition index_series (lb : labeller) : list path :=
  match lb_levels lb with
  | 0 => [[]]
  | _ => filter_series_tuples (lb_hier lb) (paths_unique (map fst (lb_index lb)))
  end.

(** mean over samples of the entry at flat position [q] of a site *)
Definition site_mean (a : arr) (q : nat) : R :=
  Rmean (map (fun m => nth (m * prod_shape (tl (a_shape a)) + q) (a_flat a) 0%R) (seq 0 (hd 0 (a_shape a)))).


(** all sites have S draws and one entry per series and time *)
Definition sites_ok (lb : labeller) (times : list Z) (draws : dict arr) (S : nat) : Prop :=
  draws <> [] /\ forall kv, In kv draws -> arr_wf (snd kv) /\ hd_error (a_shape (snd kv)) = Some S /\
      prod_shape (tl (a_shape (snd kv))) = length (index_series lb) * length times.
