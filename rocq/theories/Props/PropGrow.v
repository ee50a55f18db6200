(** Property C94: when the history of a piecewise linear trend grows at the same distances, its changepoints
    stay where they are in the calendar, and every trend of the shorter history is a trend of the longer one. *)
From Coq Require Import Reals ZArith Lra Lia List Sorted.
From Verif.Model Require Import Base Num XFloat Frame Trend.
From Verif.Spec Require Import GrowSpec TrendSpec.
From Verif.Facts Require Import TimeFacts TrendFacts TrendExamples GrowFacts GrowExamples.
Import ListNotations.
Local Open Scope R_scope.

(** Full statement (README: changepoints are set by an interval so that the model is stable when the time series
    gets longer): fit the same trend to a history and to the same history with later dates; the changepoints
    of the first fit are among the first changepoints of the second one, at the same days of the calendar.
    It holds for dates at equal distances, whatever the intervals and ranges.  Only the number of series of
    the two targets has to agree; their values are free. *)
Theorem C94_days_partial : forall ns_of p y y' f f' a d n n', 0 < d -> (n <= n')%nat ->
  map (fun t => days_since_epoch (ns_of t)) (time_ids y) = regular a d n ->
  map (fun t => days_since_epoch (ns_of t)) (time_ids y') = regular a d n' ->
  n_series_of y = n_series_of y' -> (forall i, In i (to_list_if_scalar (pw_interval p) (n_series_of y)) -> 0 < i) ->
  piecewise_fit ns_of p y = Ok f -> piecewise_fit ns_of p y' = Ok f' ->
  Forall2 prefix (map (map (calendar_day (pf_t_scale f) (pf_t_start f))) (pf_cps f))
                 (map (map (calendar_day (pf_t_scale f') (pf_t_start f'))) (pf_cps f')).
Proof. exact c94_regular. Qed.
Print Assumptions C94_days_partial.

(** Whatever coefficients the trend has after the short history, the same coefficients with zeros for the
    new changepoints give the same values at all dates after the long one (with the same offsets). *)
Theorem C94_nested_partial : forall ns_of p y y' f f' a d n n', 0 < d -> (n <= n')%nat ->
  map (fun t => days_since_epoch (ns_of t)) (time_ids y) = regular a d n ->
  map (fun t => days_since_epoch (ns_of t)) (time_ids y') = regular a d n' ->
  n_series_of y = n_series_of y' -> f_levels y = f_levels y' -> (forall i, In i (to_list_if_scalar (pw_interval p) (n_series_of y)) -> 0 < i) ->
  piecewise_fit ns_of p y = Ok f -> piecewise_fit ns_of p y' = Ok f' ->
  forall blocks, Forall2 (fun c b => length c = length b) (pf_cps f) blocks ->
  exists blocks', Forall2 padded blocks blocks' /\ Forall2 (fun c b => length c = length b) (pf_cps f') blocks' /\
  forall fh offset, piecewise_predict (pw_squeeze p) (pf_n_series f') (piecewise_transform ns_of f' fh) offset (concat blocks')
    = piecewise_predict (pw_squeeze p) (pf_n_series f) (piecewise_transform ns_of f fh) offset (concat blocks).
Proof. exact c94_nested. Qed.
Print Assumptions C94_nested_partial.

(** It fails for months: the unit of time is the average distance of the observed dates, so one more month of 31
    days after months of 31 and 28 days moves the second changepoint from day 29.5 to day 30. *)
Theorem C94_months_refuted : exists ns_of p y r f f', f_rows y <> [] /\
  piecewise_fit ns_of p y = Ok f /\ piecewise_fit ns_of p (mkFrame (f_levels y) (f_cols y) (f_rows y ++ [r])) = Ok f' /\
  increasing (map (fun r => days_since_epoch (ns_of (r_time r))) (f_rows y ++ [r])) /\ pw_interval p = Scalar 1 /\
  map (map (calendar_day (pf_t_scale f) (pf_t_start f))) (pf_cps f) = [[0; 59 / 2]] /\
  map (map (calendar_day (pf_t_scale f') (pf_t_start f'))) (pf_cps f') = [[0; 30]].
Proof. exact c94_months. Qed.
Print Assumptions C94_months_refuted.

(** three days, then six days: a changepoint a day in the first half of the history *)
Example C94_nonvacuous : exists f f', piecewise_fit day_ns (params true (1/2) None) (on_days [(5%Z, 1); (6%Z, 3); (7%Z, 2)]) = Ok f /\
  piecewise_fit day_ns (params true (1/2) None) (on_days [(5%Z, 1); (6%Z, 3); (7%Z, 2); (8%Z, 2); (9%Z, 1); (10%Z, 0)]) = Ok f' /\
  map (fun t => days_since_epoch (day_ns t)) (time_ids (on_days [(5%Z, 1); (6%Z, 3); (7%Z, 2)])) = regular 5 1 3 /\
  map (fun t => days_since_epoch (day_ns t)) (time_ids (on_days [(5%Z, 1); (6%Z, 3); (7%Z, 2); (8%Z, 2); (9%Z, 1); (10%Z, 0)])) = regular 5 1 6 /\
  pf_cps f = [[0]] /\ pf_cps f' = [[0; 1; 2]].
Proof. exact grow_daily. Qed.
