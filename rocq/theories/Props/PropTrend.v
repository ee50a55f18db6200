(** Properties C06-C22: time axis, changepoints and trends. *)
From Coq Require Import Reals String List ZArith Lra Lia Arith Bool Sorted.
From Verif.Model Require Import Base Num XFloat Arr Frame Trend.
From Verif.Spec Require Import TrendSpec.
From Verif.Facts Require Import NumFacts TimeFacts TrendFacts TrendExamples TrendComputed.
Import ListNotations.
Local Open Scope R_scope.

(** * C06.  Time is measured in steps from the start of training. *)
Theorem C06_first_last_monotone : forall ts, increasing ts -> (2 <= length ts)%nat ->
  exists s st, fit_time ts = Ok (s, st) /\ 0 < s /\
    scale_time s st (hd 0 ts) = 0 /\
    scale_time s st (last ts 0) = INR (length ts - 1) /\
    (forall a b, a < b -> scale_time s st a < scale_time s st b).
Proof. exact fit_time_ok. Qed.
Print Assumptions C06_first_last_monotone.

Theorem C06_regular_grid : forall a d n, 0 < d -> (2 <= n)%nat ->
  exists s st, fit_time (map (fun k => a + INR k * d) (seq 0 n)) = Ok (s, st) /\
    forall k : Z, scale_time s st (a + IZR k * d) = IZR k.
Proof. exact fit_time_regular. Qed.
Print Assumptions C06_regular_grid.

Example C06_example : increasing [3; 4; 6] /\ (2 <= length [3; 4; 6])%nat.
Proof. split; [repeat constructor; lra | simpl; lia]. Qed.

(** * C07.  Changing origin and unit of time changes no scaled time. *)
Theorem C07_affine_invariance : forall a b ts s st, 0 < a -> increasing ts ->
  fit_time ts = Ok (s, st) ->
  exists s' st', fit_time (map (fun t => a * t + b) ts) = Ok (s', st') /\
    forall t, scale_time s' st' (a * t + b) = scale_time s st t.
Proof. exact fit_time_affine. Qed.
Print Assumptions C07_affine_invariance.

Example C07_example : exists s st, increasing [0; 1; 2] /\ fit_time [0; 1; 2] = Ok (s, st).
Proof. exists 1, 0. split; [repeat constructor; lra | exact fit_three]. Qed.

(** * C08.  Conversion of timestamps (nanoseconds) to days. *)
Theorem C08_whole_seconds : forall k, days_since_epoch (k * 1000000000) = IZR k / 86400.
Proof. exact days_whole_seconds. Qed.
Print Assumptions C08_whole_seconds.

Theorem C08_differences : forall a b,
  days_since_epoch (b * 1000000000) - days_since_epoch (a * 1000000000) = IZR (b - a) / 86400.
Proof. exact days_diff. Qed.
Print Assumptions C08_differences.

Theorem C08_order : forall a b, (a <= b)%Z -> days_since_epoch a <= days_since_epoch b.
Proof. exact days_monotone. Qed.
Print Assumptions C08_order.

Theorem C08_order_strict : forall a b, (a + 1000000000 <= b)%Z -> days_since_epoch a < days_since_epoch b.
Proof. exact days_strict. Qed.
Print Assumptions C08_order_strict.

Theorem C08_not_injective : exists a b, (a < b)%Z /\ days_since_epoch a = days_since_epoch b.
Proof. exists 0%Z, 999999999%Z. split; [reflexivity | reflexivity]. Qed.
Print Assumptions C08_not_injective.

(** * C09.  Changepoints are the multiples of the interval below the limit. *)
Theorem C09_grid : forall t_max I r, 0 < I ->
  (forall c, In c (changepoint_times t_max I r) <->
     exists k : nat, c = INR k * I /\ c < changepoint_limit t_max r) /\
  increasing (changepoint_times t_max I r) /\
  (forall n : nat, length (changepoint_times t_max I r) = n <->
     (INR n * I >= changepoint_limit t_max r /\
      (n = 0%nat \/ INR (n - 1) * I < changepoint_limit t_max r))).
Proof. exact changepoint_grid. Qed.
Print Assumptions C09_grid.

Example C09_example : In 25 (changepoint_times 100 25 (8/10)) /\ ~ In 100 (changepoint_times 100 25 (8/10)).
Proof.
  split.
  - apply changepoint_grid; [lra|]. exists 1%nat. rewrite limit_fraction by lra. simpl. lra.
  - intros H. apply changepoint_grid in H as (k & _ & H); [|lra]. rewrite limit_fraction in H by lra. lra.
Qed.

(** * C10.  Full statement: r in (0,1) is a fraction of the history; r > 1 the first r points; r < 0
    all but the last |r| points; r = 1.0 the whole history; no changepoint after the end. *)
Theorem C10_fraction_partial : forall t_max I r c, 0 < I -> 0 < r < 1 ->
  (In c (changepoint_times t_max I r) <-> exists k : nat, c = INR k * I /\ c < t_max * r).
Proof. exact range_fraction. Qed.
Print Assumptions C10_fraction_partial.

(** On the grid 0..n-1 with interval 1, an integer 1 <= r <= n selects the first r points. *)
Theorem C10_first_points_partial : forall (n r : nat) c, (1 <= r <= n)%nat ->
  (In c (changepoint_times (INR (n - 1)) 1 (INR r)) <-> exists k : nat, (k < r)%nat /\ c = INR k).
Proof. exact range_first_points. Qed.
Print Assumptions C10_first_points_partial.

(** A negative r leaves out the last |r|+1 points, not |r|. *)
Theorem C10_negative_partial : forall (n r : nat) c, (r < n)%nat -> (1 <= r)%nat ->
  (In c (changepoint_times (INR (n - 1)) 1 (- INR r)) <-> exists k : nat, (k + r + 1 < n)%nat /\ c = INR k).
Proof. exact range_negative. Qed.
Print Assumptions C10_negative_partial.

Theorem C10_negative_refuted : exists (n r k : nat), (k + r < n)%nat /\
  ~ In (INR k) (changepoint_times (INR (n - 1)) 1 (- INR r)).
Proof. exact range_negative_wrong. Qed.
Print Assumptions C10_negative_refuted.

(** r = 1.0: only the point 0 remains, whatever the length of the history. *)
Theorem C10_one_refuted : forall t_max c, In c (changepoint_times t_max 1 1) <-> c = 0.
Proof. exact range_one. Qed.
Print Assumptions C10_one_refuted.

(** a range longer than the history puts changepoints after its end *)
Theorem C10_after_end_refuted : exists t_max r c, 1 < r /\ t_max < c /\ In c (changepoint_times t_max 1 r).
Proof. exact range_after_end. Qed.
Print Assumptions C10_after_end_refuted.

Theorem C10_before_end_partial : forall t_max I r c, 0 < I -> 0 <= t_max -> r < 1 ->
  In c (changepoint_times t_max I r) -> c <= t_max.
Proof. exact range_before_end. Qed.
Print Assumptions C10_before_end_partial.

Example C10_example : In 2 (changepoint_times (INR (10 - 1)) 1 (INR 3)).
Proof. apply range_first_points; [lia|]. exists 2%nat. split; [lia|]. simpl. lra. Qed.

(** * C11.  A changepoint has no influence before it happens. *)
Theorem C11_grid : forall t c : Z, (0 <= t)%Z -> (0 <= c)%Z ->
  changepoint_entry (IZR t) (IZR c) = pos_part (IZR t - IZR c + 1).
Proof. exact entry_grid. Qed.
Print Assumptions C11_grid.

Theorem C11_after : forall t c, c <= t -> changepoint_entry t c = t - c + 1.
Proof. exact entry_after. Qed.
Print Assumptions C11_after.

Theorem C11_before : forall t c, 1 <= c -> t < c -> changepoint_entry t c = 0.
Proof. exact entry_before. Qed.
Print Assumptions C11_before.

Example C11_example : changepoint_entry 3 5 = 0 /\ changepoint_entry 7 5 = 3.
Proof. split; [apply entry_before; lra | rewrite entry_after by lra; lra]. Qed.

(** * C12.  Full statement: for fixed coefficients the trend is a continuous function of time.
    False: every changepoint at or after time 1 contributes a jump of one times its coefficient. *)
Theorem C12_continuity_refuted : forall c o f, 1 <= c ->
  (forall t, piecewise_predict true 1 (get_changepoint_matrix true [[c]] [t]) [o] [1] = Ok (mkArr [1; 1]%nat [f t])) ->
  ~ continuous_at f c.
Proof. exact c12_refuted. Qed.
Print Assumptions C12_continuity_refuted.

(** What does hold: continuity away from changepoints ... *)
Theorem C12_continuity_partial : forall cps coefs o f t, length cps = length coefs ->
  (forall t, piecewise_predict true 1 (get_changepoint_matrix true [cps] [t]) [o] coefs = Ok (mkArr [1; 1]%nat [f t])) ->
  (forall c, In c cps -> 1 <= c /\ c <> t) -> continuous_at f t.
Proof. exact c12_partial. Qed.
Print Assumptions C12_continuity_partial.

(** ... and on the integer grid the trend agrees with a continuous piecewise linear function with
    kinks at the changepoints minus one. *)
Theorem C12_grid_interpolation_partial : forall cps coefs o f, length cps = length coefs ->
  (forall t, piecewise_predict true 1 (get_changepoint_matrix true [cps] [t]) [o] coefs = Ok (mkArr [1; 1]%nat [f t])) ->
  (forall c, In c cps -> exists k : Z, (0 <= k)%Z /\ c = IZR k) ->
  (forall t : Z, (0 <= t)%Z -> f (IZR t) = o + weighted (fun c => pos_part (IZR t - (c - 1))) cps coefs) /\
  (forall x, continuous_at (fun x => o + weighted (fun c => pos_part (x - (c - 1))) cps coefs) x).
Proof. exact c12_grid. Qed.
Print Assumptions C12_grid_interpolation_partial.

(** there is such a function f for every series *)
Example C12_computed : exists f, forall t, piecewise_predict true 1 (get_changepoint_matrix true [[1; 5]] [t]) [2] [3; 4] = Ok (mkArr [1; 1]%nat [f t]).
Proof. exists (fun t => 2 + weighted (changepoint_entry t) [1; 5] [3; 4]). exact (computes_ok [1; 5] [3; 4] 2 eq_refl). Qed.
Example C12_example : forall c, In c [1; 5] -> 1 <= c /\ c <> 3.
Proof. intros c [<-|[<-|[]]]; lra. Qed.

(** * C13.  The trend of a series uses its own offset and coefficients only. *)
Theorem C13_block_isolation : forall sq cps blocks offs ts,
  Forall2 (fun cp b => length cp = length b) cps blocks -> length offs = length cps ->
  sq = false \/ (2 <= length cps)%nat ->
  exists a,
    piecewise_predict sq (length cps) (get_changepoint_matrix sq cps ts) offs (concat blocks) = Ok a /\
    arr_wf a /\
    (ts <> [] -> cps <> [] -> a_shape a = [length cps; length ts; 1%nat]) /\
    forall i j, (i < length cps)%nat -> (j < length ts)%nat ->
      aget a [i; j; 0%nat] =
      nth i offs 0 + weighted (changepoint_entry (nth j ts 0)) (nth i cps []) (nth i blocks []).
Proof. exact (fun sq cps blocks offs ts S L => piecewise_predict_multi sq _ cps blocks offs ts S L eq_refl). Qed.
Print Assumptions C13_block_isolation.

Theorem C13_single_series : forall cp coefs o ts, length cp = length coefs ->
  piecewise_predict true 1 (get_changepoint_matrix true [cp] ts) [o] coefs
  = Ok (mkArr [length ts; 1%nat] (map (fun t => o + weighted (changepoint_entry t) cp coefs) ts)).
Proof. exact piecewise_predict_single. Qed.
Print Assumptions C13_single_series.

Example C13_example : Forall2 (fun cp b : list R => length cp = length b) [[0; 5]; [0]] [[1; 2]; [3]].
Proof. repeat constructor. Qed.

(** * C14.  Rejection of trends without changepoints. *)
Theorem C14_no_changepoints_iff : forall t_max iv rg n,
  (forall I, In I (to_list_if_scalar iv n) -> 0 < I) ->
  (setup_changepoints t_max iv rg n = Err ValueError <->
   exists ir, In ir (combine (to_list_if_scalar iv n) (to_list_if_scalar rg n)) /\
     changepoint_limit t_max (snd ir) <= 0).
Proof. exact no_changepoints_iff. Qed.
Print Assumptions C14_no_changepoints_iff.

Theorem C14_otherwise_starts_at_zero : forall t_max iv rg n cps,
  (forall I, In I (to_list_if_scalar iv n) -> 0 < I) ->
  setup_changepoints t_max iv rg n = Ok cps ->
  Forall (fun cp => hd_error cp = Some 0) cps /\
  length cps = length (combine (to_list_if_scalar iv n) (to_list_if_scalar rg n)).
Proof. exact some_changepoints. Qed.
Print Assumptions C14_otherwise_starts_at_zero.

Theorem C14_never_another_error : forall t_max iv rg n e,
  setup_changepoints t_max iv rg n = Err e -> e = ValueError.
Proof. exact setup_changepoints_err. Qed.
Print Assumptions C14_never_another_error.

Example C14_example : setup_changepoints 10 (Scalar 1) (Scalar (-20)) 1 = Err ValueError.
Proof.
  apply no_changepoints_iff; [intros I [<-|[]]; lra|]. exists (1, -20). split; [simpl; auto|].
  rewrite limit_negative by (simpl; lra). simpl. lra.
Qed.

(** * C15.  Full statement: the prior location of the first changepoint coefficient is the suggested
    rate.  False: the location is zero for every coefficient of every fit. *)
Theorem C15_prior_location_refuted : exists ns_of p y f,
  piecewise_fit ns_of p y = Ok f /\ pf_global_rates f = [XF (-1)] /\ hd_error (pf_cp_loc f) = Some 0.
Proof. exact prior_loc_witness. Qed.
Print Assumptions C15_prior_location_refuted.

Theorem C15_always_zero_partial : forall ns_of p y f, piecewise_fit ns_of p y = Ok f ->
  forall x, In x (pf_cp_loc f) -> x = 0.
Proof. exact prior_loc_zero. Qed.
Print Assumptions C15_always_zero_partial.

(** * C16.  Full statement: offset + rate*t equals the first value at t0 and the last value at t1.
    The rate has the wrong sign, so the second half is false unless the two values are equal. *)
Theorem C16_first_partial : forall t0 t1 y0 y1 k m,
  suggest_linear t0 t1 y0 y1 = (k, m) -> m + k * t0 = y0.
Proof. exact suggest_linear_first. Qed.
Print Assumptions C16_first_partial.

Theorem C16_last_refuted : forall t0 t1 y0 y1 k m, t0 <> t1 -> y0 <> y1 ->
  suggest_linear t0 t1 y0 y1 = (k, m) -> m + k * t1 <> y1 /\ m + k * t1 = 2 * y0 - y1.
Proof. exact suggest_linear_wrong. Qed.
Print Assumptions C16_last_refuted.

Example C16_example : exists k m, suggest_linear 0 9 1 2 = (k, m) /\ m + k * 9 = 0.
Proof. eexists _, _. split; [reflexivity|]. cbv beta. field. Qed.

(** * C17.  The suggested logistic curve goes through both end points and is the only one. *)
Theorem C17_logistic_interpolates : forall t0 t1 ys cap, t0 < t1 ->
  (forall y, In y ys -> 0 < fst y < cap /\ 0 < snd y < cap) ->
  exists kms, suggest_logistic t0 t1 ys cap = Ok (map (fun km => (XF (fst km), XF (snd km))) kms) /\
    Forall2 (fun y km =>
      cap / (1 + exp (- (fst km * t0 + snd km))) = fst y /\
      cap / (1 + exp (- (fst km * t1 + snd km))) = snd y /\
      forall k m, cap / (1 + exp (- (k * t0 + m))) = fst y ->
                  cap / (1 + exp (- (k * t1 + m))) = snd y ->
        k = fst km /\ m = snd km) ys kms.
Proof. exact suggest_logistic_interpolates. Qed.
Print Assumptions C17_logistic_interpolates.

Example C17_example : forall y, In y [(1/10, 9/10); (1/2, 1/4)] -> 0 < fst y < 11/10 /\ 0 < snd y < 11/10.
Proof. intros y [<-|[<-|[]]]; simpl; lra. Qed.

(** * C18.  Full statement: fitting the logistic trend to strictly positive data does not fail.
    False with the default initial de-seasonalisation, which replaces the data by a line. *)
Theorem C18_positive_data_refuted : exists ns_of p y,
  (forall r v, In r (f_rows y) -> In v (r_vals r) -> 0 < v) /\
  pw_logistic p <> None /\ pw_detrend p = true /\
  piecewise_fit ns_of p y = Err ValueError.
Proof. exact positive_logistic_fails. Qed.
Print Assumptions C18_positive_data_refuted.

(** Without it the suggestion succeeds for data below the capacity. *)
Theorem C18_positive_data_partial : forall p y ts m es, hd 0 ts < last ts 0 ->
  pw_detrend p = false -> target_matrix y = Ok m -> endpoints m = Ok es ->
  (exists s, In s m) ->
  (forall s x, In s m -> In x s -> 0 < x) ->
  match pw_logistic p with
  | Some (Some c) => forall s x, In s m -> In x s -> x < c
  | _ => True end ->
  exists r, suggest p y ts = Ok r.
Proof. exact suggest_positive_ok. Qed.
Print Assumptions C18_positive_data_partial.

Example C18_example : exists m es, target_matrix (daily [1/100; 1/100; 1]) = Ok m /\ endpoints m = Ok es /\
  (forall s x, In s m -> In x s -> 0 < x).
Proof.
  eexists _, _. split; [reflexivity|]. split; [reflexivity|].
  intros s x [<-|[]] Hx. simpl in Hx. destruct Hx as [<-|[<-|[<-|[]]]]; lra.
Qed.

(** * C19.  Full statement: the suggestion for a series depends on that series alone.  False: if one
    series starts at zero, all start values are replaced. *)
Theorem C19_independence_refuted : exists km km',
  suggest_logistic 0 1 [(1/2, 1/2)] 1 = Ok [km] /\
  (exists km0, suggest_logistic 0 1 [(1/2, 1/2); (0, 1/2)] 1 = Ok [km'; km0]) /\ km <> km'.
Proof. exact logistic_zero_start. Qed.
Print Assumptions C19_independence_refuted.

Theorem C19_independence_partial : forall t0 t1 ys cap kms,
  (forall y, In y ys -> fst y <> 0) ->
  suggest_logistic t0 t1 ys cap = Ok kms ->
  Forall2 (fun y km => suggest_logistic t0 t1 [y] cap = Ok [km]) ys kms.
Proof. exact suggest_logistic_independent. Qed.
Print Assumptions C19_independence_partial.

Example C19_example : exists kms, suggest_logistic 0 1 [(1/2, 1/2); (1/4, 1/2)] 1 = Ok kms.
Proof. eexists. apply suggest_logistic_inside; [lra|]. intros y [<-|[<-|[]]]; simpl; lra. Qed.

(** * C20.  The logistic trend stays strictly between 0 and the capacity. *)
Theorem C20_bounds : forall sq n m cap offs coefs a,
  (forall c, In c cap -> 0 < c) ->
  logistic_predict sq n m cap offs coefs = Ok a ->
  forall x, In x (a_flat a) -> exists c, In c cap /\ 0 < x < c.
Proof. exact logistic_predict_bounds. Qed.
Print Assumptions C20_bounds.

(** one series: every entry is the logistic function of the linear trend *)
Theorem C20_single_series : forall sq m c offs coefs tr,
  piecewise_predict sq 1 m offs coefs = Ok tr ->
  logistic_predict sq 1 m [c] offs coefs =
  Ok (mkArr (a_shape tr) (map (fun x => c / (1 + exp (- x))) (a_flat tr))).
Proof. exact logistic_predict_single. Qed.
Print Assumptions C20_single_series.

(** several series: entry (i,t) is bounded by the capacity of series i *)
Theorem C20_own_capacity : forall sq n cps blocks offs caps ts,
  Forall2 (fun cp b => length cp = length b) cps blocks -> length offs = length cps ->
  length caps = length cps -> n = length cps -> (2 <= n)%nat -> ts <> [] ->
  exists a, logistic_predict sq n (get_changepoint_matrix sq cps ts) caps offs (concat blocks) = Ok a /\
    a_shape a = [n; length ts; 1%nat] /\
    forall i j, (i < n)%nat -> (j < length ts)%nat ->
      aget a [i; j; 0%nat] = nth i caps 0 /
        (1 + exp (- (nth i offs 0 + weighted (changepoint_entry (nth j ts 0)) (nth i cps []) (nth i blocks [])))).
Proof. exact logistic_predict_multi. Qed.
Print Assumptions C20_own_capacity.

Theorem C20_scalar_bounds : forall cap x, 0 < cap -> 0 < cap / (1 + exp (- x)) < cap.
Proof. exact logistic_bounds. Qed.
Print Assumptions C20_scalar_bounds.

Theorem C20_increasing : forall cap x x', 0 < cap -> x < x' ->
  cap / (1 + exp (- x)) < cap / (1 + exp (- x')).
Proof. exact logistic_increasing. Qed.
Print Assumptions C20_increasing.

Example C20_example : exists a, logistic_predict true 1 (get_changepoint_matrix true [[0; 5]] [0; 1]) [11/10] [1] [1; 2] = Ok a.
Proof. eexists. erewrite logistic_predict_single; [reflexivity|]. apply piecewise_predict_single. reflexivity. Qed.

(** * C21.  Flat trend. *)
Theorem C21_constant : forall {V} (X : frame V) c,
  a_shape (flat_predict (flat_transform X) c) = [length (f_rows X); 1%nat] /\
  (forall x, In x (a_flat (flat_predict (flat_transform X) c)) -> x = c) /\
  length (a_flat (flat_predict (flat_transform X) c)) = length (f_rows X).
Proof. exact @flat_constant_shape. Qed.
Print Assumptions C21_constant.

(** Gamma(concentration, rate): mean concentration/rate, variance concentration/rate^2. *)
Theorem C21_prior_partial : forall y s c r, 0 < flat_fit y -> 0 < s -> flat_prior (flat_fit y) s = (c, r) ->
  0 < c /\ 0 < r /\ c / r = Rmean (map val0 (f_rows y)) /\ c / (r * r) = s * s.
Proof. exact (fun y => flat_prior_moments (flat_fit y)). Qed.
Print Assumptions C21_prior_partial.

(** "valid for every series" is false: the rate is not positive when the mean is not. *)
Theorem C21_prior_refuted : forall y s c r, flat_fit y <= 0 -> 0 < s ->
  flat_prior (flat_fit y) s = (c, r) -> r <= 0.
Proof. exact (fun y => flat_prior_invalid (flat_fit y)). Qed.
Print Assumptions C21_prior_refuted.

Example C21_example : 0 < flat_fit (daily [1; 2]) /\ flat_fit (daily [-1; 1]) <= 0.
Proof. unfold flat_fit, Rmean, daily, val0. simpl. lra. Qed.

(** * C22.  Linear extrapolation. *)
Theorem C22_slope_after_last : forall sq cps blocks offs ts a i j j',
  Forall2 (fun cp b => length cp = length b) cps blocks -> length offs = length cps -> sq = false \/ (2 <= length cps)%nat ->
  piecewise_predict sq (length cps) (get_changepoint_matrix sq cps ts) offs (concat blocks) = Ok a ->
  (i < length cps)%nat -> (j < length ts)%nat -> (j' < length ts)%nat -> nth j ts 0 <= nth j' ts 0 ->
  (forall c, In c (nth i cps []) -> c <= nth j ts 0) ->
  aget a [i; j'; 0%nat] - aget a [i; j; 0%nat] = (nth j' ts 0 - nth j ts 0) * fold_right Rplus 0 (nth i blocks []).
Proof. exact c22_after. Qed.
Print Assumptions C22_slope_after_last.

Theorem C22_slope_between : forall sq cps blocks offs ts a i j j',
  Forall2 (fun cp b => length cp = length b) cps blocks -> length offs = length cps -> sq = false \/ (2 <= length cps)%nat ->
  piecewise_predict sq (length cps) (get_changepoint_matrix sq cps ts) offs (concat blocks) = Ok a ->
  (i < length cps)%nat -> (j < length ts)%nat -> (j' < length ts)%nat -> nth j ts 0 <= nth j' ts 0 ->
  (forall c, In c (nth i cps []) -> c <= nth j ts 0 \/ (1 <= c /\ nth j' ts 0 < c)) ->
  aget a [i; j'; 0%nat] - aget a [i; j; 0%nat] = (nth j' ts 0 - nth j ts 0) * active_sum (nth j ts 0) (nth i cps []) (nth i blocks []).
Proof. exact c22_between. Qed.
Print Assumptions C22_slope_between.

(** the same for the two-dimensional trend of a single series *)
Theorem C22_single_series : forall cps coefs o f t t', length cps = length coefs ->
  (forall t, piecewise_predict true 1 (get_changepoint_matrix true [cps] [t]) [o] coefs = Ok (mkArr [1; 1]%nat [f t])) ->
  t <= t' -> (forall c, In c cps -> c <= t \/ (1 <= c /\ t' < c)) ->
  f t' - f t = (t' - t) * active_sum t cps coefs.
Proof. exact c22_single. Qed.
Print Assumptions C22_single_series.

Example C22_computed : exists a, piecewise_predict false 2 (get_changepoint_matrix false [[0; 5]; [0]] [6; 9]) [1; 2] (concat [[1; 2]; [3]]) = Ok a.
Proof. eexists. reflexivity. Qed.
Example C22_example : forall c, In c [0; 5; 10] -> c <= 6 \/ (1 <= c /\ 9 < c).
Proof. intros c [<-|[<-|[<-|[]]]]; lra. Qed.
