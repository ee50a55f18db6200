(** Properties C51-C54, C58-C60: labels, units and summaries of predictions. *)
From Coq Require Import Reals String Bool ZArith List Permutation Sorted.
From Verif.Model Require Import Base Num Arr Frame Aggregate Scale Predict.
From Verif.Spec Require Import FrameSpec ScaleSpec PredictSpec.
From Verif.Facts Require Import QuantileFacts PanelExamples PredictProps.
Import ListNotations.
Local Open Scope string_scope.

(** * C51 hierarchical forecasts are coherent, for every choice [keep] of aggregate nodes. *)
Theorem C51_coherent : forall keep target lb times draws out,
  lb_hier lb = true -> lb_levels lb <> 0 ->
  (forall l, In l (lb_index lb) -> length (fst l) = lb_levels lb) -> NoDup times ->
  predict_samples keep lb times draws = Ok out -> coherent out /\ coherent (point_forecast target out).
Proof. exact c51. Qed.
Print Assumptions C51_coherent.

Theorem C51_all_aggregates_present : forall keep lb times draws out b k,
  lb_hier lb = true -> lb_levels lb <> 0 ->
  (forall l, In l (lb_index lb) -> length (fst l) = lb_levels lb) ->
  predict_samples keep lb times draws = Ok out ->
  In b (f_rows out) -> is_bottom (r_path b) = true -> k < lb_levels lb ->
  keep (firstn k (r_path b) ++ repeat "__total" (lb_levels lb - k))%list = true ->
  exists r, In r (f_rows out) /\ r_time r = r_time b /\
            r_path r = (firstn k (r_path b) ++ repeat "__total" (lb_levels lb - k))%list.
Proof. exact c51_complete. Qed.
Print Assumptions C51_all_aggregates_present.

(** * C52 rows of predict_samples.  [c] is the unit of each series. *)
Theorem C52_many_series : forall lb times draws obs s n (c : path -> R),
  lb_levels lb <> 0 -> index_series lb <> [] ->
  dict_get draws "obs" = Some obs -> s <> 0 -> a_shape obs = [s; 1; length times; n] -> n = length (index_series lb) ->
  (forall p, In p (index_series lb) -> unit_of (lb_discrete lb) (lb_scale lb) p (c p)) ->
  exists out, predict_samples_base lb times draws = Ok out /\ f_levels out = lb_levels lb /\ sorted_index out /\
    length (f_cols out) = s /\ length (f_rows out) = n * length times /\
    forall r, In r (f_rows out) <-> exists i j, i < n /\ j < length times /\
      r = mkRow (nth i (index_series lb) []) (nth j times 0%Z)
            (map (fun m => aget obs [m; 0; j; i]%nat * c (nth i (index_series lb) []))%R (seq 0 s)).
Proof. exact c52_multi. Qed.
Print Assumptions C52_many_series.

Theorem C52_hierarchical : forall keep lb times draws obs s n (c : path -> R),
  lb_hier lb = true -> lb_levels lb <> 0 -> index_series lb <> [] ->
  (forall l, In l (lb_index lb) -> length (fst l) = lb_levels lb) ->
  (forall p, In p (index_series lb) -> is_bottom p = true) ->
  dict_get draws "obs" = Some obs -> s <> 0 -> a_shape obs = [s; 1; length times; n] -> n = length (index_series lb) ->
  (forall p, In p (index_series lb) -> unit_of (lb_discrete lb) (lb_scale lb) p (c p)) ->
  exists out, predict_samples keep lb times draws = Ok out /\ f_levels out = lb_levels lb /\ length (f_cols out) = s /\
    forall r, (In r (f_rows out) /\ is_bottom (r_path r) = true) <-> exists i j, i < n /\ j < length times /\
      r = mkRow (nth i (index_series lb) []) (nth j times 0%Z)
            (map (fun m => aget obs [m; 0; j; i]%nat * c (nth i (index_series lb) []))%R (seq 0 s)).
Proof. exact c52_hier. Qed.
Print Assumptions C52_hierarchical.

Theorem C52_single_series : forall keep lb times draws obs s (c : R),
  lb_levels lb = 0 -> dict_get draws "obs" = Some obs -> s <> 0 -> a_shape obs = [s; length times; 1] ->
  (lb_discrete lb = true /\ c = 1%R \/ lb_discrete lb = false /\ lb_scale lb = SFloat c) ->
  exists out, predict_samples keep lb times draws = Ok out /\ f_levels out = 0 /\ sorted_index out /\
    length (f_cols out) = s /\ length (f_rows out) = length times /\
    forall r, In r (f_rows out) <-> exists j, j < length times /\
      r = mkRow [] (nth j times 0%Z) (map (fun m => aget obs [m; j; 0]%nat * c)%R (seq 0 s)).
Proof. exact c52_uni. Qed.
Print Assumptions C52_single_series.

(** three series, two times, a hierarchy with different units *)
Example C51_C52_nonvacuous : lb_hier shop_lab = true /\ lb_levels shop_lab <> 0 /\
  (forall l, In l (lb_index shop_lab) -> length (fst l) = lb_levels shop_lab) /\
  index_series shop_lab = [["n"; "a"]; ["n"; "b"]; ["s"; "c"]] /\
  (forall p, In p (index_series shop_lab) -> is_bottom p = true) /\
  a_shape shop_obs = [1; 1; 2; 3] /\
  (forall p, In p (index_series shop_lab) -> unit_of (lb_discrete shop_lab) (lb_scale shop_lab) p (shop_unit p)).
Proof. exact shop_lab_case. Qed.

(** * C53.  Full statement: in the row labelled (series i, time j) every site contributes the mean over
    draws of its entry for series i and time j.  Proved for the sites whose arrays have the axes
    (draw, series, time, 1) or (draw, time, 1), i.e. trend, effects and all sites of a univariate
    forecaster.  The multivariate "obs" has axes (draw, 1, time, series): its entry comes from
    position i*T+j in time-major order, so the label is wrong. *)
Theorem C53_positions_partial : forall lb times (draws : dict arr) s n (c : path -> R),
  index_series lb <> [] -> n = length (index_series lb) ->
  (forall kv, In kv draws -> a_shape (snd kv) = [s; n; length times; 1] \/ a_shape (snd kv) = [s; 1; length times; n] \/
       n = 1 /\ a_shape (snd kv) = [s; length times; 1]) ->
  (forall p, In p (index_series lb) -> unit_of (lb_discrete lb) (lb_scale lb) p (c p)) ->
  (lb_levels lb = 0 -> forall tab, lb_scale lb <> STable tab) ->
  exists out, predict_all_sites lb times draws = Ok out /\ f_levels out = lb_levels lb /\ f_cols out = map fst draws /\
    sorted_index out /\ length (f_rows out) = n * length times /\
    forall i j, i < n -> j < length times -> exists r, In r (f_rows out) /\
      r_path r = nth i (index_series lb) [] /\ r_time r = nth j times 0%Z /\
      forall k name a, nth_error draws k = Some (name, a) -> exists v,
        nth_error (r_vals r) k = Some (v * c (nth i (index_series lb) []))%R /\
        (a_shape a = [s; n; length times; 1] -> v = Rmean (map (fun m => aget a [m; i; j; 0]) (seq 0 s))) /\
        (a_shape a = [s; length times; 1] -> v = Rmean (map (fun m => aget a [m; j; 0]) (seq 0 s))) /\
        (a_shape a = [s; 1; length times; n] ->
           v = Rmean (map (fun m => aget a [m; 0; (i * length times + j) / n; (i * length times + j) mod n]) (seq 0 s))).
Proof. exact c53_rows. Qed.
Print Assumptions C53_positions_partial.

Theorem C53_multivariate_obs_refuted : exists lb times draws obs out r i j c,
  dict_get draws "obs" = Some obs /\ a_shape obs = [1; 1; length times; length (index_series lb)] /\
  i < length (index_series lb) /\ j < length times /\
  unit_of (lb_discrete lb) (lb_scale lb) (nth i (index_series lb) []) c /\
  predict_all_sites lb times draws = Ok out /\ f_cols out = ["obs"] /\ In r (f_rows out) /\
  r_path r = nth i (index_series lb) [] /\ r_time r = nth j times 0%Z /\
  r_vals r <> [(aget obs [0; 0; j; i]%nat * c)%R].
Proof. exact c53_refuted. Qed.
Print Assumptions C53_multivariate_obs_refuted.

(** * C54.  Full statement: [predict_all_sites] is the average of [predict_all_sites_samples].  The
    samples are not scaled back, so the two differ by exactly the unit of the series. *)
Theorem C54_off_by_scale_partial : forall lb times draws S (c : path -> R),
  index_series lb <> [] -> NoDup times -> sites_ok lb times draws S ->
  (forall p, In p (index_series lb) -> unit_of (lb_discrete lb) (lb_scale lb) p (c p)) ->
  (lb_levels lb = 0 -> forall tab, lb_scale lb <> STable tab) ->
  exists means samples,
    predict_all_sites lb times draws = Ok means /\
    predict_all_sites_samples lb times draws = Ok (f_cols means, samples) /\
    forall r k, In r (f_rows means) -> k < length (f_cols means) ->
      nth k (r_vals r) 0%R =
      (Rmean (map (fun sr => nth k (sr_vals sr) 0%R)
         (filter (fun sr => path_eqb (sr_path sr) (r_path r) && Z.eqb (sr_time sr) (r_time r))%bool samples)) * c (r_path r))%R.
Proof. exact c54_factor. Qed.
Print Assumptions C54_off_by_scale_partial.

Theorem C54_agree_without_scale_partial : forall lb times draws S,
  index_series lb <> [] -> NoDup times -> sites_ok lb times draws S ->
  lb_discrete lb = true \/ lb_scale lb = SFloat 1 ->
  exists means samples,
    predict_all_sites lb times draws = Ok means /\
    predict_all_sites_samples lb times draws = Ok (f_cols means, samples) /\
    forall r k, In r (f_rows means) -> k < length (f_cols means) ->
      nth k (r_vals r) 0%R =
      Rmean (map (fun sr => nth k (sr_vals sr) 0%R)
         (filter (fun sr => path_eqb (sr_path sr) (r_path r) && Z.eqb (sr_time sr) (r_time r))%bool samples)).
Proof. exact c54_unit. Qed.
Print Assumptions C54_agree_without_scale_partial.

Theorem C54_refuted : exists lb times draws S means samples r,
  index_series lb <> [] /\ NoDup times /\ sites_ok lb times draws S /\
  predict_all_sites lb times draws = Ok means /\
  predict_all_sites_samples lb times draws = Ok (f_cols means, samples) /\ In r (f_rows means) /\
  0 < length (f_cols means) /\
  nth 0 (r_vals r) 0%R <>
      Rmean (map (fun sr => nth 0 (sr_vals sr) 0%R)
         (filter (fun sr => path_eqb (sr_path sr) (r_path r) && Z.eqb (sr_time sr) (r_time r))%bool samples)).
Proof. exact c54_refuted. Qed.
Print Assumptions C54_refuted.

Example C54_nonvacuous : sites_ok one_lab [9%Z] [("obs", one_obs)] 2.
Proof. exact one_sites_ok. Qed.

(** * C58.  Full statement: every series is forecast from its own rows of X and its rows carry its label.
    The first half holds; the labels are lost for every panel. *)
Theorem C58_isolated : forall fcs (X X' : frame R),
  f_cols X = f_cols X' ->
  (forall p fc, In (p, fc) fcs ->
     map (fun r => (r_time r, r_vals r)) (filter (fun r => path_eqb (firstn (length p) (r_path r)) p) (f_rows X)) =
     map (fun r => (r_time r, r_vals r)) (filter (fun r => path_eqb (firstn (length p) (r_path r)) p) (f_rows X'))) ->
  vectorize_predict fcs (Some X) = vectorize_predict fcs (Some X').
Proof. exact c58_isolated. Qed.
Print Assumptions C58_isolated.

Theorem C58_labels_lost_refuted : forall fcs X out,
  vectorize_predict fcs X = Ok out ->
  (forall p fc x o, In (p, fc) fcs -> fc x = Ok o -> frame_wf o /\ f_levels o = 0) ->
  f_levels out = 0 /\ forall r, In r (f_rows out) -> r_path r = [].
Proof. exact c58_labels_lost. Qed.
Print Assumptions C58_labels_lost_refuted.

Theorem C58_ambiguous_rows_refuted : exists fcs out r1 r2, NoDup (map fst fcs) /\
  vectorize_predict fcs None = Ok out /\ In r1 (f_rows out) /\ In r2 (f_rows out) /\
  r_path r1 = r_path r2 /\ r_time r1 = r_time r2 /\ r_vals r1 <> r_vals r2.
Proof. exact c58_refuted. Qed.
Print Assumptions C58_ambiguous_rows_refuted.

(** * C59 the point forecast is the mean of the samples *)
Theorem C59_mean_of_samples : forall target (f : frame R),
  labels (point_forecast target f) = labels f /\ f_cols (point_forecast target f) = [target] /\
  f_levels (point_forecast target f) = f_levels f /\
  forall i r, nth_error (f_rows f) i = Some r ->
    nth_error (f_rows (point_forecast target f)) i = Some (mkRow (r_path r) (r_time r) [(Rsum (r_vals r) / INR (length (r_vals r)))%R]).
Proof. exact c59. Qed.
Print Assumptions C59_mean_of_samples.

Theorem C59_between_samples : forall target (f : frame R) r lo hi,
  In r (f_rows (point_forecast target f)) ->
  (forall s, In s (f_rows f) -> r_vals s <> [] ) ->
  (forall s v, In s (f_rows f) -> r_path s = r_path r -> r_time s = r_time r -> In v (r_vals s) -> (lo <= v <= hi)%R) ->
  exists v, r_vals r = [v] /\ (lo <= v <= hi)%R.
Proof. exact c59_between. Qed.
Print Assumptions C59_between_samples.

Example C59_nonvacuous : exists f r, In r (f_rows (point_forecast "y" f)) /\ length (f_cols f) = 2.
Proof. exists (mkFrame 0 ["0"; "1"] [mkRow [] 0%Z [1; 2]%R]). eexists. simpl. eauto. Qed.

(** * C60 quantiles *)
Theorem C60_columns : forall alpha (f : frame R) q,
  predict_quantiles alpha f = Ok q ->
  q_levels q = alpha /\ labels (q_frame q) = labels f /\
  forall i r, nth_error (f_rows f) i = Some r ->
    nth_error (f_rows (q_frame q)) i = Some (mkRow (r_path r) (r_time r) (map (quantile (r_vals r)) alpha)).
Proof. exact c60_rows. Qed.
Print Assumptions C60_columns.

Theorem C60_levels_accepted : forall alpha (f : frame R),
  (forall a, In a alpha -> (0 <= a <= 1)%R) -> exists q, predict_quantiles alpha f = Ok q.
Proof. exact c60_ok. Qed.
Print Assumptions C60_levels_accepted.

Theorem C60_no_crossing : forall alpha (f : frame R) q r j k,
  predict_quantiles alpha f = Ok q ->
  (forall s, In s (f_rows f) -> r_vals s <> []) -> In r (f_rows (q_frame q)) ->
  j < length alpha -> k < length alpha -> (nth j alpha 0 <= nth k alpha 0)%R -> (nth j (r_vals r) 0 <= nth k (r_vals r) 0)%R.
Proof. exact c60_no_crossing. Qed.
Print Assumptions C60_no_crossing.

Theorem C60_within_samples : forall vals a,
  vals <> [] -> (0 <= a <= 1)%R ->
  (quantile vals 0 <= quantile vals a <= quantile vals 1)%R /\ In (quantile vals 0) vals /\ In (quantile vals 1) vals /\
  forall x, In x vals -> (quantile vals 0 <= x <= quantile vals 1)%R.
Proof. exact c60_within. Qed.
Print Assumptions C60_within_samples.

Theorem C60_interpolates_order_statistics : forall vals,
  vals <> [] -> exists s, Permutation vals s /\ StronglySorted Rle s /\
  forall a, (0 <= a <= 1)%R -> exists lo w, (0 <= w < 1)%R /\ lo < length vals /\
    (a * INR (length vals - 1) = INR lo + w)%R /\
    (quantile vals a = (1 - w) * nth lo s 0 + w * nth (S lo) s 0)%R.
Proof. exact c60_interpolation. Qed.
Print Assumptions C60_interpolates_order_statistics.

Theorem C60_order_of_samples : forall l l' a, Permutation l l' -> quantile l a = quantile l' a.
Proof. exact quantile_perm. Qed.
Print Assumptions C60_order_of_samples.

Theorem C60_scales : forall c l a, (0 <= c)%R ->
  quantile (map (fun x => c * x)%R l) a = (c * quantile l a)%R.
Proof. exact quantile_scale. Qed.
Print Assumptions C60_scales.

Example C60_nonvacuous : predict_quantiles [0; 1 / 2; 1]%R (mkFrame 0 ["0"; "1"; "2"] [mkRow [] 0%Z [3; 1; 2]%R]) <> Err ValueError.
Proof. exact c60_example. Qed.
