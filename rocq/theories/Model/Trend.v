(** Trend models: src/prophetverse/effects/trend/{base,piecewise,flat}.py *)
From Coq Require Import Reals String Bool ZArith Arith List.
From Verif.Model Require Import Base Num XFloat Arr Frame.
Import ListNotations.
Local Open Scope R_scope.

(* ------------------------------------------------------------------ *)
(** * Time scaling: trend/base.py *)

(** trend/base.py:26-48 [TrendEffectMixin._fit], time part, on the training times in days.
    With fewer than two times Python's mean of an empty array is NaN and nothing useful follows;
    the model stops with ValueError. *)
Definition fit_time (t_days : list R) : res (R * R) :=
  match t_days with
  | t0 :: ((_ :: _) as tl) =>
      let t_scale := Rmean (diffs t_days) in
      let t_start := Rmin_list t0 tl / t_scale in
      Ok (t_scale, t_start)
  | _ => Err ValueError
  end.

(** trend/base.py:50-68 [_index_to_scaled_timearray], one entry *)
Definition scale_time (t_scale t_start t_day : R) : R := t_day / t_scale - t_start.

(* ------------------------------------------------------------------ *)
(** * Changepoints: trend/piecewise.py *)

(** piecewise.py:687-717: upper limit of the changepoint grid; [t_max] is [t.max()]. *)
Definition changepoint_limit (t_max range : R) : R :=
  if Rltb range 1 && Rltb 0 range then t_max * range
  else if Rleb 1 range then range
  else t_max + range.

(** piecewise.py:687-717 [_get_changepoint_timeindexes]; the interval is positive (checked by the
    forecaster's constructor). *)
Definition changepoint_times (t_max interval range : R) : list R :=
  arange0 (changepoint_limit t_max range) interval.

(** piecewise.py:664-684 [_get_changepoint_matrix], entry for time t and changepoint c *)
Definition changepoint_entry (t c : R) : R :=
  clip_low 0 ((if Rleb c t then 1 else 0) * t - c + 1).

(** the row of the matrix for time t *)
Definition changepoint_row (cps : list R) (t : R) : list R := map (changepoint_entry t) cps.

(** piecewise.py:563-582 [_to_list_if_scalar] *)
Inductive per_series (A : Type) := Scalar (a : A) | PerSeries (l : list A).
Arguments Scalar {A} a.
Arguments PerSeries {A} l.

Definition to_list_if_scalar {A} (x : per_series A) (size : nat) : list A :=
  match x with Scalar a => repeat a size | PerSeries l => l end.

(** piecewise.py:290-331 [_setup_changepoints] *)
Definition setup_changepoints (t_max : R) (interval range : per_series R) (n_series : nat)
  : res (list (list R)) :=
  mapM (fun ir =>
          let cps := changepoint_times t_max (fst ir) (snd ir) in
          match cps with [] => Err ValueError | _ => Ok cps end)
       (combine (to_list_if_scalar interval n_series) (to_list_if_scalar range n_series)).

(** piecewise.py:228-237 [n_changepoint_per_series] *)
Definition n_changepoint_per_series (cps : list (list R)) : list nat := map (@length R) cps.

(** piecewise.py:250-288 [_get_multivariate_changepoint_matrix]: for series i the columns outside
    its own block [start_idx, end_idx) are multiplied by 0. *)
Definition multi_changepoint_matrix (cps : list (list R)) (ts : list R) : list (list (list R)) :=
  let all := concat cps in
  let ns := n_changepoint_per_series cps in
  map (fun i =>
         let start_idx := fold_right Nat.add 0%nat (firstn i ns) in
         let end_idx := (start_idx + nth i ns 0)%nat in
         map (fun t =>
                map (fun jc => (if (start_idx <=? fst jc)%nat && (fst jc <? end_idx)%nat then 1 else 0)
                               * changepoint_entry t (snd jc) )
                    (combine (seq 0 (length all)) all))
             ts)
      (seq 0 (length cps)).

(** piecewise.py:205-226 [get_changepoint_matrix]: a single series loses the first dimension. *)
Definition get_changepoint_matrix (squeeze : bool) (cps : list (list R)) (ts : list R) : data3 (V := R) :=
  match multi_changepoint_matrix cps ts with
  | [m] => if squeeze then D2 m else D3 [m]
  | ms => D3 ms
  end.

(** numpy broadcasting along one axis of two operands, as aligned pairs *)
Definition broadcast2 {A B} (a : list A) (b : list B) : res (list (A * B)) :=
  if (length a =? length b)%nat then Ok (combine a b)
  else match a, b with
       | [x], _ => Ok (map (fun y => (x, y)) b)
       | _, [y] => Ok (map (fun x => (x, y)) a)
       | _, _ => Err TypeError
       end.

(** piecewise.py:160-203 [PiecewiseLinearTrend._predict]: [offset] and [coefs] are the values of the
    sample sites "offset" and "changepoint_coefficients".  A matrix product with a wrong number of
    coefficients is an error; the offset is broadcast over time (2-d) or series (3-d). *)
Definition piecewise_predict (squeeze : bool) (n_series : nat) (m : data3 (V := R))
           (offset coefs : list R) : res arr :=
  match m with
  | D2 rows =>
      if forallb (fun r => length r =? length coefs)%nat rows then
        lo <- broadcast2 (map (fun r => dot r coefs) rows) offset ;;
        Ok (mkArr [length lo; 1%nat] (map (fun xo => fst xo + snd xo) lo))
      else Err TypeError
  | D3 series =>
      if forallb (forallb (fun r => length r =? length coefs)%nat) series then
        so <- broadcast2 series offset ;;
        let vals := concat (map (fun s => map (fun r => dot r coefs + snd s) (fst s)) so) in
        let T := match series with [] => 0%nat | s :: _ => length s end in
        if (n_series =? 1)%nat && squeeze then Ok (mkArr [length vals; 1%nat] vals)
        else Ok (mkArr [length so; T; 1%nat] vals)
      else Err TypeError
  end.

(** piecewise.py:378-381: the result of [x.at[0].set(first_value)] is discarded. *)
Definition zeros_with_first_value {A} (size : nat) (first_value : A) : list R :=
  let x := repeat 0 size in
  let _ := first_value in
  x.

(** piecewise.py:353-404 [_get_changepoint_prior_vectors]: (location, scale) *)
Definition changepoint_prior_vectors {A} (cps : list (list R)) (prior_scale : per_series R)
           (global_rates : list A) : list R * list R :=
  let ns := n_changepoint_per_series cps in
  let scale_vec :=
    concat (map (fun ns' => repeat (snd ns') (fst ns'))
                (combine ns (to_list_if_scalar prior_scale (length ns)))) in
  let loc_vec :=
    concat (map (fun nr => zeros_with_first_value (fst nr) (snd nr)) (combine ns global_rates)) in
  (loc_vec, scale_vec).

(** piecewise.py:406-432 [PiecewiseLinearTrend._suggest_global_trend_and_offset] for one series with
    first and last value; [t_first], [t_last] are the scaled training times [t[0]], [t[-1]]. *)
Definition suggest_linear (t_first t_last y_first y_last : R) : R * R :=
  let global_rate := (y_last - y_first) / (t_first - t_last) in
  let offset := y_first - global_rate * t_first in
  (global_rate, offset).

(** piecewise.py:604-661 [_suggest_logistic_rate_and_offset].  [t0], [t1] smallest and largest
    scaled time, [ys] the values (y0, y1) of each series at these times.  A zero among the y0
    replaces the whole array y0 by the number 1e-8 (lines 642-643). *)
Definition suggest_logistic (t0 t1 : R) (ys : list (R * R)) (capacity : R) : res (list (xr * xr)) :=
  let T := XF (t0 - t1) in
  let any_zero := existsb (fun y => Reqb (fst y) 0) ys in
  let L := map (fun y =>
      let y0 := if any_zero then / 100000000 else fst y in
      let r0 := xdiv (XF capacity) (XF y0) in
      let r1 := xdiv (XF capacity) (XF (snd y)) in
      (xlog (xsub r0 (XF 1)), xlog (xsub r1 (XF 1)))) ys in
  if existsb (fun l => xisnan (fst l) || xisnan (snd l)) L then Err ValueError
  else Ok (map (fun l =>
             let k := xdiv (xsub (snd l) (fst l)) T in
             let m := xneg (xadd (snd l) (xmul k (XF t1))) in
             (k, m)) L).

(** piecewise.py:535-560 [PiecewiseLogisticTrend._predict], last step *)
Definition logistic (capacity x : R) : R := capacity / (1 + exp (- x)).

Definition logistic_predict (squeeze : bool) (n_series : nat) (m : data3 (V := R))
           (capacity offset coefs : list R) : res arr :=
  trend <- piecewise_predict squeeze n_series m offset coefs ;;
  match n_series, capacity with
  | 1%nat, [c] => Ok (arr_map (logistic c) trend)
  | _, _ =>
      (* capacity has shape (n_series,1,1) and is broadcast along time *)
      let blocks := match a_shape trend with
                    | [N; T; _] => Some (T, chunks T N (a_flat trend))
                    | [T; _] => Some (T, [a_flat trend])
                    | _ => None
                    end in
      match blocks with
      | None => Err TypeError
      | Some (T, bs) =>
          bc <- broadcast2 bs capacity ;;
          Ok (mkArr [length bc; T; 1%nat]
                (concat (map (fun x => map (logistic (snd x)) (fst x)) bc)))
      end
  end.

(* ------------------------------------------------------------------ *)
(** * Least squares line (sktime Detrender with its default degree 1) *)

Definition ols_slope (xs ys : list R) : R :=
  let mx := Rmean xs in
  let my := Rmean ys in
  Rsum (map (fun xy => (fst xy - mx) * (snd xy - my)) (combine xs ys))
  / Rsum (map (fun x => (x - mx) * (x - mx)) xs).

(** fitted values; [y - detrender.fit_transform(y)] is the fitted line *)
Definition ols_line (xs ys : list R) : list R :=
  let b := ols_slope xs ys in
  map (fun x => Rmean ys + b * (x - Rmean xs)) xs.

(* ------------------------------------------------------------------ *)
(** * Fitted piecewise trend: piecewise.py:78-105 *)

Record piecewise_params := mkPW {
  pw_interval : per_series R;
  pw_range : per_series R;
  pw_prior_scale : per_series R;
  pw_offset_scale : R;
  pw_squeeze : bool;
  pw_detrend : bool;
  (** None: linear.  Some c: logistic; c is [capacity_prior.loc] if the prior has one. *)
  pw_logistic : option (option R)
}.

Record piecewise_fitted := mkPWF {
  pf_params : piecewise_params;
  pf_t_scale : R;
  pf_t_start : R;
  pf_n_series : nat;
  pf_cps : list (list R);
  pf_global_rates : list xr;
  pf_offset_loc : list xr;
  pf_cp_loc : list R;
  pf_cp_scale : list R;
  pf_series : option (list path)
}.

(** Number of series: trend/base.py:45-48 *)
Definition n_series_of {V} (y : frame V) : nat :=
  match f_levels y with 0%nat => 1%nat | _ => length (series_ids y) end.

(** first column of a row (the target) *)
Definition val0 (r : row R) : R := hd 0 (r_vals r).

(** piecewise.py:346-348: replace every series by its least squares line over the positions of its
    own time index *)
Definition detrend_frame (y : frame R) : frame R :=
  mkFrame (f_levels y) (f_cols y)
    (flat_map (fun s =>
        map (fun rv => mkRow (r_path (fst rv)) (r_time (fst rv)) [snd rv])
            (combine (snd s) (ols_line (map (fun r => IZR (r_time r)) (snd s)) (map val0 (snd s)))))
       (iterate_all_series y)).

(** values of each series as a matrix: [series_to_tensor(y)] with one column *)
Definition target_matrix (y : frame R) : res (list (list R)) :=
  t <- series_to_tensor y ;; Ok (map (map (fun v => hd 0 v)) t).

(** (first, last) value of every series *)
Definition endpoints (m : list (list R)) : res (list (R * R)) :=
  mapM (fun s => match s with [] => Err IndexError | v :: _ => Ok (v, last s 0) end) m.

(** suggestion of initial values: piecewise.py:333-351 and the two
    [_suggest_global_trend_and_offset] (406-432, 498-533).  Training times are increasing, so the
    smallest and largest time are the first and the last. *)
Definition suggest (p : piecewise_params) (y : frame R) (ts : list R)
  : res (list xr * list xr) :=
  let y := if pw_detrend p then detrend_frame y else y in
  m <- target_matrix y ;;
  es <- endpoints m ;;
  let t_first := hd 0 ts in
  let t_last := last ts 0 in
  match pw_logistic p with
  | None =>
      let rs := map (fun e => suggest_linear t_first t_last (fst e) (snd e)) es in
      Ok (map (fun r => XF (fst r)) rs, map (fun r => XF (snd r)) rs)
  | Some c =>
      cap <- match c with
             | Some c => Ok c
             | None => match concat m with [] => Err ValueError
                                         | v :: vs => Ok (Rmax_list v vs * (105 / 100)) end
             end ;;
      km <- suggest_logistic t_first t_last es cap ;;
      Ok (map fst km, map snd km)
  end.

(** piecewise.py:78-105 [_fit]; [ns_of] maps a time label to its timestamp in nanoseconds. *)
Definition piecewise_fit (ns_of : Z -> Z) (p : piecewise_params) (y : frame R) : res piecewise_fitted :=
  let t_days := map (fun t => days_since_epoch (ns_of t)) (time_ids y) in
  '(t_scale, t_start) <- fit_time t_days ;;
  let ts := map (scale_time t_scale t_start) t_days in
  let n := n_series_of y in
  cps <- setup_changepoints (Rmax_list (hd 0 ts) (tl ts)) (pw_interval p) (pw_range p) n ;;
  '(rates, offs) <- suggest p y ts ;;
  let '(loc, sc) := changepoint_prior_vectors cps (pw_prior_scale p) rates in
  Ok (mkPWF p t_scale t_start n cps rates offs loc sc
        (match f_levels y with 0%nat => None | _ => Some (series_ids y) end)).

(** piecewise.py:141-158 [_transform] with [_fh_to_index] (107-139): the time axis only depends on
    the horizon; the series axis is the fitted one. *)
Definition piecewise_transform (ns_of : Z -> Z) (f : piecewise_fitted) (fh : list Z) : data3 (V := R) :=
  let times := match pf_series f with None => fh | Some _ => times_unique fh end in
  let ts := map (fun t => scale_time (pf_t_scale f) (pf_t_start f) (days_since_epoch (ns_of t))) times in
  get_changepoint_matrix (pw_squeeze (pf_params f)) (pf_cps f) ts.

(** piecewise.py:107-139 [_fh_to_index]: labels *)
Definition fh_to_multiindex (f : piecewise_fitted) (fh : list Z) : list (path * Z) :=
  match pf_series f with
  | None => map (fun t => ([], t)) fh
  | Some ids => flat_map (fun p => map (fun t => (p, t)) fh) ids
  end.

(* ------------------------------------------------------------------ *)
(** * Flat trend: flat.py *)

(** flat.py:28-41: prior location is the mean of the whole target frame *)
Definition flat_fit (y : frame R) : R := Rmean (map val0 (f_rows y)).

(** flat.py:43-57: one row per row of X, not per horizon entry *)
Definition flat_transform {V} (X : frame V) : arr :=
  mkArr [length (f_rows X); 1%nat] (repeat 1 (length (f_rows X))).

(** flat.py:76-85: (concentration, rate) of the Gamma prior *)
Definition flat_prior (mean prior_scale : R) : R * R :=
  let var := prior_scale * prior_scale in
  let rate := mean / var in
  let concentration := mean * rate in
  (concentration, rate).

(** flat.py:59-91 [_predict] *)
Definition flat_predict (data : arr) (coefficient : R) : arr := arr_map (fun x => x * coefficient) data.
