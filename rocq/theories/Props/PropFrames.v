(** Properties C50, C55, C56: frame helpers. *)
From Coq Require Import Reals String Bool ZArith List Permutation.
From Verif.Model Require Import Base Frame Aggregate.
From Verif.Spec Require Import FrameSpec ScaleSpec.
From Verif.Facts Require Import FrameFacts PanelExamples FrameProps.
Import ListNotations.
Local Open Scope string_scope.

(** * C50 bottom series of an aggregated hierarchy are the original rows.  [keep] is the choice of
    aggregate nodes made by the aggregator. *)
Theorem C50_bottom_of_aggregate : forall (keep : path -> bool) (f : frame R),
  frame_wf f -> f_levels f <> 0 -> f_rows f <> [] ->
  (forall r, In r (f_rows f) -> ~ In "__total" (r_path r)) ->
  exists g, loc_bottom_series (aggregate keep f) = Ok g /\ f_levels g = f_levels f /\ f_cols g = f_cols f /\
    Permutation (f_rows f) (f_rows g) /\ sorted_index g /\
    forall p, (sorted_index (filter_rows (fun r => path_eqb (r_path r) p) f) -> rows_of g p = rows_of f p).
Proof. exact c50_bottom. Qed.
Print Assumptions C50_bottom_of_aggregate.

Theorem C50_sorted_input : forall (keep : path -> bool) (f : frame R),
  frame_wf f -> f_levels f <> 0 -> f_rows f <> [] ->
  (forall r, In r (f_rows f) -> ~ In "__total" (r_path r)) -> sorted_index f ->
  loc_bottom_series (aggregate keep f) = Ok f.
Proof. exact c50_sorted. Qed.
Print Assumptions C50_sorted_input.

Theorem C50_order_preserving : forall (f g : frame R), frame_wf f -> f_levels f <> 0 ->
  loc_bottom_series f = Ok g ->
  f_levels g = f_levels f /\ f_cols g = f_cols f /\
  f_rows g = filter (fun r => negb (String.eqb (last (r_path r) "") "__total")) (f_rows f).
Proof. exact (@c50_order R). Qed.
Print Assumptions C50_order_preserving.

Theorem C50_idempotent : forall (f g : frame R), frame_wf f ->
  loc_bottom_series f = Ok g -> loc_bottom_series g = Ok g.
Proof. exact (@loc_bottom_idem R). Qed.
Print Assumptions C50_idempotent.

Theorem C50_no_levels : forall (f : frame R), f_levels f = 0 -> loc_bottom_series f = Ok f.
Proof. exact (@c50_flat R). Qed.
Print Assumptions C50_no_levels.

(** an unbalanced hierarchy whose aggregation doubles the number of rows *)
Example C50_nonvacuous : frame_wf shops /\ f_levels shops <> 0 /\ f_rows shops <> [] /\
  (forall r, In r (f_rows shops) -> ~ In "__total" (r_path r)) /\ sorted_index shops /\
  length (f_rows (aggregate (fun _ => true) shops)) = 12.
Proof. exact shops_case. Qed.

(** * C55.  Full statement: the rows of [reindex_time_series f times] are labelled by exactly the
    pairs (series of f, time of [times]), once each.  True when every combination of level values
    is a series; false for unbalanced hierarchies. *)
Theorem C55_each_series_once_partial : forall (f : frame R) times p t,
  frame_wf f -> f_levels f <> 0 -> NoDup times ->
  (exists r, In r (f_rows f) /\ r_path r = p) -> In t times ->
  exists v, In (p, t, v) (reindex_time_series f times) /\
    forall v', In (p, t, v') (reindex_time_series f times) -> v' = v.
Proof. exact (@c55_each R). Qed.
Print Assumptions C55_each_series_once_partial.

Theorem C55_no_duplicates : forall (f : frame R) times,
  NoDup times -> NoDup (map fst (reindex_time_series f times)).
Proof. exact (@c55_nodup R). Qed.
Print Assumptions C55_no_duplicates.

Theorem C55_values : forall (f : frame R) times p t v,
  In (p, t, v) (reindex_time_series f times) ->
  match v with
  | Some vs => exists r, In r (f_rows f) /\ r_path r = p /\ r_time r = t /\ r_vals r = vs
  | None => forall r, In r (f_rows f) -> r_path r = p -> r_time r = t -> False
  end.
Proof. exact (@c55_values R). Qed.
Print Assumptions C55_values.

Theorem C55_full_crossing_partial : forall (f : frame R) times p t,
  frame_wf f -> f_levels f <> 0 -> full_crossing f ->
  ((exists v, In (p, t, v) (reindex_time_series f times)) <->
   (exists r, In r (f_rows f) /\ r_path r = p) /\ In t times).
Proof. exact (@c55_exact R). Qed.
Print Assumptions C55_full_crossing_partial.

Theorem C55_phantom_series_refuted : exists (f : frame R) times p t v,
  frame_wf f /\ f_levels f <> 0 /\ In (p, t, v) (reindex_time_series f times) /\
  forall r, In r (f_rows f) -> r_path r <> p.
Proof. exact c55_phantom. Qed.
Print Assumptions C55_phantom_series_refuted.

(** * C56 frame to tensor *)
Theorem C56_tensor : forall (f : frame R) n, f_levels f <> 0 ->
  (forall r, In r (f_rows f) -> length (rows_of f (r_path r)) = n) ->
  exists ids, first_appearance (map r_path (f_rows f)) ids /\
    series_to_tensor f = Ok (map (fun p => map r_vals (filter (fun r => path_eqb (r_path r) p) (f_rows f))) ids).
Proof. exact (@c56_ok R). Qed.
Print Assumptions C56_tensor.

Theorem C56_unequal_lengths : forall (f : frame R) r1 r2, f_levels f <> 0 ->
  In r1 (f_rows f) -> In r2 (f_rows f) ->
  length (rows_of f (r_path r1)) <> length (rows_of f (r_path r2)) ->
  series_to_tensor f = Err ValueError.
Proof. exact (@c56_bad R). Qed.
Print Assumptions C56_unequal_lengths.

Theorem C56_no_levels : forall (f : frame R), f_levels f = 0 ->
  series_to_tensor f = Ok [map r_vals (f_rows f)].
Proof. exact (@c56_flat R). Qed.
Print Assumptions C56_no_levels.

(** interleaved rows, first series "b" *)
Example C55_C56_nonvacuous : frame_wf crossing /\ f_levels crossing <> 0 /\ full_crossing crossing /\
  (forall r, In r (f_rows crossing) -> length (rows_of crossing (r_path r)) = 2) /\
  series_to_tensor crossing = Ok [[[1%R]; [3%R]]; [[2%R]; [4%R]]].
Proof. exact crossing_case. Qed.
