(** Concrete fits used as witnesses and examples for the trend properties. *)
From Coq Require Import Reals String List ZArith Lra Lia Arith Bool Sorted.
From Verif.Model Require Import Base Num XFloat Arr Frame Trend.
From Verif.Spec Require Import TrendSpec.
From Verif.Facts Require Import BaseFacts NumFacts TimeFacts TrendFacts.
Import ListNotations.
Local Open Scope string_scope.
Local Open Scope R_scope.

(** day number k as nanoseconds *)
Definition day_ns (t : Z) : Z := (t * 86400 * 1000000000)%Z.

Lemma day_ns_days t : days_since_epoch (day_ns t) = IZR t.
Proof. unfold day_ns. rewrite days_whole_seconds, mult_IZR. field. Qed.

(** a single series observed on consecutive days *)
Definition daily (vs : list R) : frame R :=
  mkFrame 0 ["y"] (map (fun tv => mkRow [] (Z.of_nat (fst tv)) [snd tv]) (combine (seq 0 (length vs)) vs)).

Definition params (detrend : bool) (range : R) (lg : option (option R)) : piecewise_params :=
  mkPW (Scalar 1) (Scalar range) (Scalar (1/100)) (1/10) true detrend lg.

Lemma limit_pos_setup t_max range : 0 < changepoint_limit t_max range ->
  exists cp, setup_changepoints t_max (Scalar 1) (Scalar range) 1 = Ok [cp] /\ cp = changepoint_times t_max 1 range
    /\ hd_error cp = Some 0.
Proof.
  intros H. destruct (setup_changepoints_spec t_max (Scalar 1) (Scalar range) 1) as [(cps & E & F)|[E (ir & Hin & Hl)]].
  - simpl. intros I [<-|[]]. lra.
  - simpl in F. inversion F as [|? cp ? rest Hcp Hrest]; subst. inversion Hrest; subst.
    exists cp. simpl in Hcp. tauto.
  - simpl in Hin. destruct Hin as [<-|[]]. simpl in Hl. lra.
Qed.

Lemma fit_two : fit_time [0; 1] = Ok (1, 0).
Proof.
  destruct (fit_time_increasing 0 1 []) as (s & E & P & Es).
  - repeat constructor. lra.
  - simpl in Es. assert (s = 1) by lra. subst s. rewrite E, H. repeat f_equal. lra.
Qed.
Lemma fit_three : fit_time [0; 1; 2] = Ok (1, 0).
Proof.
  destruct (fit_time_increasing 0 1 [2]) as (s & E & P & Es).
  - repeat constructor; lra.
  - simpl in Es. assert (s = 1) by lra. subst s. rewrite E, H. repeat f_equal. lra.
Qed.

Lemma limit_half t : 0 < t -> 0 < changepoint_limit t (1/2).
Proof. intros. rewrite limit_fraction by lra. lra. Qed.

(** two days, values 1 and 2, linear trend *)
Lemma fit_rate_two : exists f, piecewise_fit day_ns (params false (1/2) None) (daily [1; 2]) = Ok f /\
  pf_global_rates f = [XF (-1)] /\ pf_cp_loc f <> [].
Proof.
  unfold piecewise_fit. change (time_ids (daily [1; 2])) with [0; 1]%Z. cbn [map].
  rewrite !day_ns_days, fit_two. cbn [bind map hd tl].
  unfold scale_time. replace (0 / 1 - 0) with 0 by lra. replace (1 / 1 - 0) with 1 by lra.
  change (n_series_of (daily [1; 2])) with 1%nat.
  assert (M : Rmax_list 0 [1] = 1). { unfold Rmax_list. simpl. rewrite Rmax_right; lra. }
  rewrite M. destruct (limit_pos_setup 1 (1/2)) as (cp & E & _ & Hh). { apply limit_half. lra. }
  cbn [params pw_interval pw_range]. rewrite E. cbn [bind].
  unfold suggest. cbn [params pw_detrend pw_logistic pw_prior_scale].
  change (target_matrix (daily [1; 2])) with (Ok (A := list (list R)) [[1; 2]]). cbn [bind].
  cbn [endpoints mapM bind last map fst snd hd].
  eexists. split; [reflexivity|]. cbn [pf_global_rates pf_cp_loc]. split.
  - unfold suggest_linear. cbn [fst]. do 2 f_equal. field.
  - unfold changepoint_prior_vectors. cbn. destruct cp; [discriminate|]. simpl. discriminate.
Qed.

(** three positive observations: the fitted line starts below zero and the logistic fit fails *)
Definition steep : frame R := daily [1/100; 1/100; 1].

Lemma three_eq (a b c a' b' c' : R) : a = a' -> b = b' -> c = c' -> Ok [[a; b; c]] = Ok [[a'; b'; c']].
Proof. congruence. Qed.

Lemma steep_fails : piecewise_fit day_ns (params true (1/2) (Some None)) steep = Err ValueError.
Proof.
  unfold piecewise_fit. change (time_ids steep) with [0; 1; 2]%Z. cbn [map].
  rewrite !day_ns_days, fit_three. cbn [bind map hd tl].
  unfold scale_time. replace (0 / 1 - 0) with 0 by lra. replace (1 / 1 - 0) with 1 by lra.
  replace (2 / 1 - 0) with 2 by lra.
  change (n_series_of steep) with 1%nat.
  assert (M : Rmax_list 0 [1; 2] = 2). { unfold Rmax_list. simpl. rewrite (Rmax_right 0 1), Rmax_right; lra. }
  rewrite M. destruct (limit_pos_setup 2 (1/2)) as (cp & E & _ & Hh). { apply limit_half. lra. }
  cbn [params pw_interval pw_range]. rewrite E. cbn [bind].
  unfold suggest. cbn [params pw_detrend pw_logistic pw_prior_scale].
  assert (T : target_matrix (detrend_frame steep) = Ok [[-155/1000; 34/100; 835/1000]]).
  { unfold target_matrix, series_to_tensor. cbn. unfold ols_line, ols_slope, Rmean. cbn.
    apply three_eq; field. }
  rewrite T. cbn [bind]. cbn [endpoints mapM bind last map fst snd hd concat app].
  assert (M2 : Rmax_list (-155/1000) [34/100; 835/1000] = 835/1000).
  { unfold Rmax_list. simpl. rewrite (Rmax_right (-155/1000) _), Rmax_right; lra. }
  rewrite M2. unfold suggest_logistic. rewrite no_zero_start by (intros y [<-|[]]; simpl; lra).
  cbn [map existsb fst snd]. cbn [xdiv].
  destruct (Reqb (-155/1000) 0) eqn:R0; [apply Reqb_true in R0; lra|]. cbn [xsub xneg xadd xlog].
  assert (N : 835/1000 * (105/100) / (-155/1000) + - (1) < 0) by lra.
  destruct (Rltb 0 (835/1000 * (105/100) / (-155/1000) + - (1))) eqn:R1; [apply Rltb_true in R1; lra|].
  destruct (Reqb (835/1000 * (105/100) / (-155/1000) + - (1)) 0) eqn:R2; [apply Reqb_true in R2; lra|].
  reflexivity.
Qed.

(** a zero start of one series changes the suggestion for another one *)
Lemma logistic_zero_start : exists km km', 
  suggest_logistic 0 1 [(1/2, 1/2)] 1 = Ok [km] /\
  (exists km0, suggest_logistic 0 1 [(1/2, 1/2); (0, 1/2)] 1 = Ok [km'; km0]) /\ km <> km'.
Proof.
  assert (Q : xlog (xsub (xdiv (XF 1) (XF (1/2))) (XF 1)) = XF 0).
  { rewrite xlog_ratio by lra. replace (1 / (1/2) - 1) with 1 by field. now rewrite ln_1. }
  assert (Z : xlog (xsub (xdiv (XF 1) (XF (/ 100000000))) (XF 1)) = XF (ln 99999999)).
  { rewrite xlog_ratio by lra. repeat f_equal. field. }
  assert (P : 0 < ln 99999999). { rewrite <- ln_1. apply ln_increasing; lra. }
  exists (XF ((0 + - 0) / (0 - 1)), XF (- (0 + (0 + - 0) / (0 - 1) * 1))),
         (XF ((0 + - ln 99999999) / (0 - 1)), XF (- (0 + (0 + - ln 99999999) / (0 - 1) * 1))).
  assert (D : Reqb (0 - 1) 0 = false) by (apply Reqb_false; lra).
  split; [|split].
  - unfold suggest_logistic. cbn [existsb fst snd map].
    assert (E : Reqb (1/2) 0 = false) by (apply Reqb_false; lra). rewrite E. cbn [orb]. rewrite !Q.
    cbn [xisnan orb xsub xneg xadd xdiv]. rewrite D. reflexivity.
  - eexists. unfold suggest_logistic. cbn [existsb fst snd map].
    assert (E : Reqb (1/2) 0 = false) by (apply Reqb_false; lra). rewrite E, Reqb_refl. cbn [orb]. rewrite !Q, !Z.
    cbn [xisnan orb xsub xneg xadd xdiv]. rewrite D. reflexivity.
  - intros [= H1 H2]. lra.
Qed.

Lemma prior_loc_witness : exists ns_of p y f,
  piecewise_fit ns_of p y = Ok f /\ pf_global_rates f = [XF (-1)] /\ hd_error (pf_cp_loc f) = Some 0.
Proof.
  destruct fit_rate_two as (f & E & R & N). eexists _, _, _, f. split; [exact E|]. split; [exact R|].
  pose proof (prior_loc_zero _ _ _ _ E) as Z. destruct (pf_cp_loc f) as [|x l]; [congruence|].
  rewrite (Z x (or_introl eq_refl)). reflexivity.
Qed.

Lemma positive_logistic_fails : exists ns_of p y,
  (forall r v, In r (f_rows y) -> In v (r_vals r) -> 0 < v) /\
  pw_logistic p <> None /\ pw_detrend p = true /\
  piecewise_fit ns_of p y = Err ValueError.
Proof.
  eexists _, _, _. split; [|split; [|split; [|exact steep_fails]]]; [|simpl; congruence|reflexivity].
  intros r v Hr Hv. simpl in Hr. destruct Hr as [<-|[<-|[<-|[]]]]; simpl in Hv; destruct Hv as [<-|[]]; lra.
Qed.
