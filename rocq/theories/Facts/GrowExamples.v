(** Concrete growing histories (C94). *)
From Coq Require Import Reals String Bool ZArith List Lia Lra Arith Sorted.
From Verif.Model Require Import Base Num XFloat Arr Frame Trend.
From Verif.Spec Require Import TrendSpec GrowSpec.
From Verif.Facts Require Import BaseFacts NumFacts TimeFacts TrendFacts TrendExamples TotalFacts UpstreamTests GrowFacts.
Import ListNotations.
Local Open Scope string_scope.
Local Open Scope R_scope.

(** one series observed on the given days *)
Definition on_days (obs : list (Z * R)) : frame R := mkFrame 0 ["y"] (map (fun tv => mkRow [] (fst tv) [snd tv]) obs).

Lemma on_days_wf obs : frame_wf (on_days obs).
Proof. intros r H. apply in_map_iff in H as (tv & <- & _). split; reflexivity. Qed.
Lemma on_days_times obs : map r_time (f_rows (on_days obs)) = map fst obs.
Proof. unfold on_days. cbn [f_rows]. rewrite map_map. reflexivity. Qed.
Lemma days_on_days obs : NoDup (map fst obs) -> days_of day_ns (on_days obs) = map IZR (map fst obs).
Proof.
  intros N. unfold days_of, time_ids. rewrite on_days_times, times_unique_id by exact N. apply map_ext. intros t. apply day_ns_days.
Qed.

(** months of 31, 28 and 31 days; changepoints every month, for two months *)
Definition monthly_pw : piecewise_params := params true 2 None.
Definition q1 : frame R := on_days [(0%Z, 1); (31%Z, 2); (59%Z, 3)].
Definition q2 : frame R := on_days [(0%Z, 1); (31%Z, 2); (59%Z, 3); (90%Z, 4)].

Lemma arange_two : arange0 2 1 = [0; 1].
Proof.
  unfold arange0. replace (2 / 1) with (IZR 2) by lra. rewrite ceil_Z. change (Z.to_nat 2) with 2%nat. cbn. repeat (apply (f_equal2 cons); [ring|]). reflexivity.
Qed.

Lemma on_days_fits obs p rg : (2 <= length obs)%nat -> NoDup (map fst obs) -> increasing (map IZR (map fst obs)) ->
  p = params true rg None -> 0 < rg -> exists f, piecewise_fit day_ns p (on_days obs) = Ok f.
Proof.
  intros L N INC -> R. edestruct (piecewise_fit_total day_ns (params true rg None) (on_days obs) 1 rg) as (f & _ & _ & _ & E & _); [| | | | | | | | |exists f; exact E]; try reflexivity; try lra.
  - split; [apply on_days_wf|reflexivity].
  - unfold on_days. cbn [f_rows]. now rewrite map_length.
  - now rewrite on_days_times.
  - rewrite on_days_times. erewrite map_ext by (intros t; apply day_ns_days). exact INC.
Qed.

Lemma monthly_days obs f s : (exists t0 t1 rest, obs = t0 :: t1 :: rest) -> NoDup (map fst obs) -> increasing (map IZR (map fst obs)) -> fst (hd (0%Z, 0) obs) = 0%Z ->
  s = last (tl (map IZR (map fst obs))) 0 / INR (length (tl obs)) ->
  piecewise_fit day_ns monthly_pw (on_days obs) = Ok f -> changepoint_days f = [[0; s]].
Proof.
  intros (t0 & t1 & rest & ->) N INC Z S E. apply piecewise_fit_inv in E as (ts & T & Et & _ & _ & C & _).
  change (map (fun t => days_since_epoch (day_ns t)) (time_ids (on_days (t0 :: t1 :: rest)))) with (days_of day_ns (on_days (t0 :: t1 :: rest))) in T.
  rewrite days_on_days in T by exact N. cbn [map] in T, INC. destruct (fit_time_increasing _ _ _ INC) as (s' & E' & P & Es). rewrite T in E'. injection E' as A B.
  cbn [hd fst] in Z. rewrite Z in Es, B.
  assert (n_series_of (on_days (t0 :: t1 :: rest)) = 1%nat) as NS by reflexivity. rewrite NS in C.
  unfold setup_changepoints, monthly_pw, params in C. cbn [pw_interval pw_range to_list_if_scalar repeat combine mapM] in C.
  assert (H : forall m, changepoint_times m 1 2 = [0; 1]).
  { intros m. unfold changepoint_times, changepoint_limit. assert (X : Rltb 2 1 = false) by (apply Rltb_false; lra). assert (X' : Rleb 1 2 = true) by (apply Rleb_true; lra).
    rewrite X, X'. cbn [andb]. apply arange_two. }
  rewrite H in C. cbn [bind] in C. injection C as C. unfold changepoint_days. rewrite <- C, A, B. cbn [map]. unfold calendar_day.
  assert (S' : s = s'). { rewrite S, Es. cbn [map tl length]. rewrite map_length, map_length. cbn [length]. f_equal. ring. }
  rewrite S'. f_equal. apply (f_equal2 cons); [field; lra|]. apply (f_equal2 cons); [field; lra|]. reflexivity.
Qed.

Lemma c94_months : exists ns_of p y r f f', f_rows y <> [] /\
  piecewise_fit ns_of p y = Ok f /\ piecewise_fit ns_of p (mkFrame (f_levels y) (f_cols y) (f_rows y ++ [r])) = Ok f' /\
  increasing (map (fun r => days_since_epoch (ns_of (r_time r))) (f_rows y ++ [r])) /\
  pw_interval p = Scalar 1 /\ changepoint_days f = [[0; 59 / 2]] /\ changepoint_days f' = [[0; 30]].
Proof.
  assert (INC : increasing (map IZR [0; 31; 59; 90]%Z)).
  { cbn [map]. unfold increasing. repeat first [apply SSorted_nil | apply SSorted_cons | apply Forall_nil | apply Forall_cons]; lra. }
  assert (INC3 : increasing (map IZR [0; 31; 59]%Z)).
  { cbn [map]. unfold increasing. repeat first [apply SSorted_nil | apply SSorted_cons | apply Forall_nil | apply Forall_cons]; lra. }
  assert (N4 : NoDup [0; 31; 59; 90]%Z) by (repeat constructor; cbn; intuition discriminate).
  assert (N3 : NoDup [0; 31; 59]%Z) by (repeat constructor; cbn; intuition discriminate).
  destruct (on_days_fits [(0%Z, 1); (31%Z, 2); (59%Z, 3)] monthly_pw 2) as (f & F); [cbn; lia|exact N3|exact INC3|reflexivity|lra|].
  destruct (on_days_fits [(0%Z, 1); (31%Z, 2); (59%Z, 3); (90%Z, 4)] monthly_pw 2) as (f' & F'); [cbn; lia|exact N4|exact INC|reflexivity|lra|].
  exists day_ns, monthly_pw, q1, (mkRow [] 90%Z [4]), f, f'. split; [discriminate|]. split; [exact F|]. split; [exact F'|]. split; [|split; [reflexivity|split]].
  - change (increasing (map (fun t => days_since_epoch (day_ns t)) [0; 31; 59; 90]%Z)). erewrite map_ext by (intros t; apply day_ns_days). exact INC.
  - apply (monthly_days [(0%Z, 1); (31%Z, 2); (59%Z, 3)]); [eexists _, _, _; reflexivity|exact N3|exact INC3|reflexivity| |exact F]. cbn. field.
  - apply (monthly_days [(0%Z, 1); (31%Z, 2); (59%Z, 3); (90%Z, 4)]); [eexists _, _, _; reflexivity|exact N4|exact INC|reflexivity| |exact F']. cbn. field.
Qed.

Lemma half_cps obs f m (l : list R) : NoDup (map fst obs) -> forall a n, (2 <= n)%nat -> map IZR (map fst obs) = regular a 1 n ->
  INR (n - 1) = 2 * m -> 0 < m < INR n -> arange0 m 1 = l ->
  piecewise_fit day_ns (params true (1/2) None) (on_days obs) = Ok f -> pf_cps f = [l].
Proof.
  intros N a n N2 Rg M B L E. apply piecewise_fit_inv in E as (ts & T & Et & _ & _ & C & _).
  change (map (fun t => days_since_epoch (day_ns t)) (time_ids (on_days obs))) with (days_of day_ns (on_days obs)) in T, Et.
  rewrite days_on_days, Rg in T, Et by exact N. destruct (regular_axis a 1 n _ _ Rlt_0_1 T) as (_ & A & A').
  rewrite A, A' in Et. rewrite regular_scaled in Et by lra. subst ts. rewrite regular_max in C by exact N2. rewrite M in C.
  assert (NS : n_series_of (on_days obs) = 1%nat) by reflexivity. rewrite NS in C.
  destruct (limit_pos_setup (2 * m) (1/2)) as (cp & E & Ec & _); [apply limit_half; lra|].
  change (setup_changepoints (2 * m) (Scalar 1) (Scalar (1 / 2)) 1 = Ok (pf_cps f)) in C. rewrite E in C. injection C as <-.
  rewrite Ec. unfold changepoint_times. rewrite limit_fraction by lra. replace (2 * m * (1 / 2)) with m by field. now rewrite L.
Qed.

Lemma grow_daily : exists f f', piecewise_fit day_ns (params true (1/2) None) (on_days [(5%Z, 1); (6%Z, 3); (7%Z, 2)]) = Ok f /\
  piecewise_fit day_ns (params true (1/2) None) (on_days [(5%Z, 1); (6%Z, 3); (7%Z, 2); (8%Z, 2); (9%Z, 1); (10%Z, 0)]) = Ok f' /\
  map (fun t => days_since_epoch (day_ns t)) (time_ids (on_days [(5%Z, 1); (6%Z, 3); (7%Z, 2)])) = regular 5 1 3 /\
  map (fun t => days_since_epoch (day_ns t)) (time_ids (on_days [(5%Z, 1); (6%Z, 3); (7%Z, 2); (8%Z, 2); (9%Z, 1); (10%Z, 0)])) = regular 5 1 6 /\
  pf_cps f = [[0]] /\ pf_cps f' = [[0; 1; 2]].
Proof.
  assert (N3 : NoDup [5; 6; 7]%Z) by (repeat constructor; cbn; intuition discriminate).
  assert (N6 : NoDup [5; 6; 7; 8; 9; 10]%Z) by (repeat constructor; cbn; intuition discriminate).
  assert (R3 : map IZR [5; 6; 7]%Z = regular 5 1 3). { cbn. repeat (apply (f_equal2 cons); [ring|]). reflexivity. }
  assert (R6 : map IZR [5; 6; 7; 8; 9; 10]%Z = regular 5 1 6). { cbn. repeat (apply (f_equal2 cons); [ring|]). reflexivity. }
  assert (I3 : increasing (map IZR [5; 6; 7]%Z)).
  { cbn [map]. unfold increasing. repeat first [apply SSorted_nil | apply SSorted_cons | apply Forall_nil | apply Forall_cons]; lra. }
  assert (I6 : increasing (map IZR [5; 6; 7; 8; 9; 10]%Z)).
  { cbn [map]. unfold increasing. repeat first [apply SSorted_nil | apply SSorted_cons | apply Forall_nil | apply Forall_cons]; lra. }
  destruct (on_days_fits [(5%Z, 1); (6%Z, 3); (7%Z, 2)] (params true (1/2) None) (1/2)) as (f & F); [cbn; lia|exact N3|exact I3|reflexivity|lra|].
  destruct (on_days_fits [(5%Z, 1); (6%Z, 3); (7%Z, 2); (8%Z, 2); (9%Z, 1); (10%Z, 0)] (params true (1/2) None) (1/2)) as (f' & F'); [cbn; lia|exact N6|exact I6|reflexivity|lra|].
  exists f, f'. split; [exact F|]. split; [exact F'|]. split; [rewrite <- R3; exact (days_on_days [(5%Z, 1); (6%Z, 3); (7%Z, 2)] N3)|]. split; [rewrite <- R6; exact (days_on_days [(5%Z, 1); (6%Z, 3); (7%Z, 2); (8%Z, 2); (9%Z, 1); (10%Z, 0)] N6)|]. split.
  - apply (half_cps [(5%Z, 1); (6%Z, 3); (7%Z, 2)] f 1 _ N3 5 3%nat); [lia|exact R3|cbn; lra|cbn; lra| |exact F]. unfold arange0. replace (1 / 1) with (IZR 1) by lra. rewrite ceil_Z. change (Z.to_nat 1) with 1%nat. cbn. f_equal. ring.
  - apply (half_cps [(5%Z, 1); (6%Z, 3); (7%Z, 2); (8%Z, 2); (9%Z, 1); (10%Z, 0)] f' (5/2) _ N6 5 6%nat); [lia|exact R6|cbn; lra|cbn; lra| |exact F'].
    unfold arange0. assert (Q : Rceil (5 / 2 / 1) = 3%Z).
    { destruct (Rceil_spec (5 / 2 / 1)) as (A & B). replace (5 / 2 / 1) with (5 / 2) in * by field.
      destruct (Z.lt_trichotomy (Rceil (5 / 2)) 3) as [H|[H|H]]; [|exact H|].
      - assert (H' : (Rceil (5/2) <= 2)%Z) by lia. apply IZR_le in H'. lra.
      - assert (H' : (4 <= Rceil (5/2))%Z) by lia. apply IZR_le in H'. lra. }
    rewrite Q. change (Z.to_nat 3) with 3%nat. cbn. repeat (apply (f_equal2 cons); [ring|]). reflexivity.
Qed.
