(** The least squares line of the detrended series. *)
From Coq Require Import Reals ZArith Lra Lia Psatz List Bool.
From Verif.Model Require Import Base Num XFloat Arr Frame Trend.
From Verif.Spec Require Import LineSpec TrendSpec.
From Verif.Facts Require Import BaseFacts NumFacts FrameFacts.
Import ListNotations.
Local Open Scope R_scope.

(** * Sums *)
Definition sum (f : R * R -> R) (pts : list (R * R)) : R := Rsum (map f pts).
Lemma sum_cons f p pts : sum f (p :: pts) = f p + sum f pts.
Proof. reflexivity. Qed.

Lemma error_expand a b pts : squared_error a b pts =
  sum (fun p => snd p * snd p) pts - 2 * a * sum snd pts - 2 * b * sum (fun p => fst p * snd p) pts
  + INR (length pts) * a * a + 2 * a * b * sum fst pts + b * b * sum (fun p => fst p * fst p) pts.
Proof.
  induction pts as [|[x y] pts IH]; [unfold sum; simpl; ring|].
  cbn [squared_error]. rewrite IH, !sum_cons. cbn [fst snd length]. rewrite S_INR. ring.
Qed.

Lemma cov_expand c d pts : sum (fun p => (fst p - c) * (snd p - d)) pts =
  sum (fun p => fst p * snd p) pts - d * sum fst pts - c * sum snd pts + INR (length pts) * c * d.
Proof.
  induction pts as [|[x y] pts IH]; [unfold sum; simpl; ring|]. rewrite !sum_cons, IH. cbn [fst snd length]. rewrite S_INR. ring.
Qed.
Lemma var_expand c pts : sum (fun p => (fst p - c) * (fst p - c)) pts =
  sum (fun p => fst p * fst p) pts - 2 * c * sum fst pts + INR (length pts) * c * c.
Proof.
  induction pts as [|[x y] pts IH]; [unfold sum; simpl; ring|]. rewrite !sum_cons, IH. cbn [fst snd length]. rewrite S_INR. ring.
Qed.
Lemma var_nonneg c pts : 0 <= sum (fun p => (fst p - c) * (fst p - c)) pts.
Proof. induction pts as [|[x y] pts IH]; [unfold sum; simpl; lra|]. rewrite sum_cons. cbn [fst]. pose proof (Rle_0_sqr (x - c)). unfold Rsqr in *. lra. Qed.
Lemma var_zero c d pts : sum (fun p => (fst p - c) * (fst p - c)) pts = 0 ->
  (forall p, In p pts -> fst p = c) /\ sum (fun p => (fst p - c) * (snd p - d)) pts = 0.
Proof.
  induction pts as [|[x y] pts IH]; intros H; [split; [intros ? []|reflexivity]|].
  rewrite sum_cons in H. cbn [fst] in H. pose proof (var_nonneg c pts). pose proof (Rle_0_sqr (x - c)) as Q. unfold Rsqr in Q.
  assert (Z : x - c = 0) by (apply Rsqr_0_uniq; unfold Rsqr; lra). destruct IH as [I1 I2]; [lra|]. split.
  - intros p [<-|I]; [cbn; lra|now apply I1].
  - rewrite sum_cons. cbn [fst snd]. rewrite I2, Z. ring.
Qed.

(** * The line *)
Definition slope (pts : list (R * R)) : R := ols_slope (map fst pts) (map snd pts).
Definition level (pts : list (R * R)) : R := Rmean (map snd pts) - slope pts * Rmean (map fst pts).

Lemma slope_eq pts : slope pts = sum (fun p => (fst p - Rmean (map fst pts)) * (snd p - Rmean (map snd pts))) pts
                                 / sum (fun p => (fst p - Rmean (map fst pts)) * (fst p - Rmean (map fst pts))) pts.
Proof.
  unfold slope, ols_slope. f_equal.
  - unfold sum. f_equal. generalize (Rmean (map fst pts)) (Rmean (map snd pts)). intros c d. induction pts as [|[x y] pts IH]; [reflexivity|]. cbn. now rewrite IH.
  - f_equal. unfold sum. f_equal. now rewrite map_map.
Qed.
Lemma slope_normal pts : slope pts * sum (fun p => (fst p - Rmean (map fst pts)) * (fst p - Rmean (map fst pts))) pts =
  sum (fun p => (fst p - Rmean (map fst pts)) * (snd p - Rmean (map snd pts))) pts.
Proof.
  rewrite slope_eq. set (V := sum (fun p => _ * (fst p - _)) pts). set (C := sum _ pts). destruct (Req_dec V 0) as [E|E]; [|field; exact E].
  unfold C, V in *. rewrite (proj2 (var_zero _ (Rmean (map snd pts)) pts E)), E. ring.
Qed.

Lemma error_gap pts a b : pts <> [] ->
  squared_error a b pts = squared_error (level pts) (slope pts) pts
    + INR (length pts) * ((a + b * Rmean (map fst pts) - Rmean (map snd pts)) * (a + b * Rmean (map fst pts) - Rmean (map snd pts)))
    + sum (fun p => (fst p - Rmean (map fst pts)) * (fst p - Rmean (map fst pts))) pts * ((b - slope pts) * (b - slope pts)).
Proof.
  intros N. pose proof (slope_normal pts) as H. rewrite var_expand in *. rewrite cov_expand in H. rewrite !error_expand. unfold level.
  assert (L : INR (length pts) <> 0) by (apply not_0_INR; destruct pts; [congruence|discriminate]).
  assert (Mx : sum fst pts = INR (length pts) * Rmean (map fst pts)) by (unfold Rmean, sum; rewrite map_length; field; exact L).
  assert (My : sum snd pts = INR (length pts) * Rmean (map snd pts)) by (unfold Rmean, sum; rewrite map_length; field; exact L).
  rewrite Mx, My in *. set (n := INR (length pts)) in *. set (mx := Rmean (map fst pts)) in *. set (my := Rmean (map snd pts)) in *. set (s := slope pts) in *.
  set (XX := sum (fun p => fst p * fst p) pts) in *. set (XY := sum (fun p => fst p * snd p) pts) in *.
  assert (XYe : XY = s * (XX - 2 * mx * (n * mx) + n * mx * mx) + my * (n * mx) + mx * (n * my) - n * mx * my) by lra.
  rewrite XYe. ring.
Qed.

Lemma line_least pts : pts <> [] -> least_squares (level pts) (slope pts) pts.
Proof.
  intros N a b. rewrite (error_gap pts a b N). pose proof (var_nonneg (Rmean (map fst pts)) pts) as V.
  pose proof (Rle_0_sqr (a + b * Rmean (map fst pts) - Rmean (map snd pts))) as Q1. pose proof (Rle_0_sqr (b - slope pts)) as Q2. unfold Rsqr in *.
  pose proof (Rmult_le_pos _ _ (pos_INR (length pts)) Q1). pose proof (Rmult_le_pos _ _ V Q2). lra.
Qed.
Lemma line_unique pts a b p q : In p pts -> In q pts -> fst p <> fst q -> least_squares a b pts -> a = level pts /\ b = slope pts.
Proof.
  intros Ip Iq D H. assert (N : pts <> []) by (intros ->; destruct Ip). specialize (H (level pts) (slope pts)). rewrite (error_gap pts a b N) in H.
  set (V := sum (fun p => (fst p - Rmean (map fst pts)) * (fst p - Rmean (map fst pts))) pts) in *.
  assert (V0 : 0 <= V) by apply var_nonneg.
  assert (Vp : 0 < V). { destruct V0 as [V0|V0]; [exact V0|]. symmetry in V0. destruct (var_zero _ 0 pts V0) as [E _]. elim D. now rewrite (E p Ip), (E q Iq). }
  pose proof (Rle_0_sqr (a + b * Rmean (map fst pts) - Rmean (map snd pts))) as Q1. pose proof (Rle_0_sqr (b - slope pts)) as Q2. unfold Rsqr in *.
  assert (L : 0 < INR (length pts)) by (apply lt_0_INR; destruct pts; [congruence|simpl; lia]).
  pose proof (Rmult_le_pos _ _ (Rlt_le _ _ L) Q1) as G1. pose proof (Rmult_le_pos _ _ V0 Q2) as G2.
  assert (Z1 : (b - slope pts) * (b - slope pts) = 0) by (apply (Rmult_eq_reg_l V); lra).
  assert (Z2 : (a + b * Rmean (map fst pts) - Rmean (map snd pts)) * (a + b * Rmean (map fst pts) - Rmean (map snd pts)) = 0) by (apply (Rmult_eq_reg_l (INR (length pts))); lra).
  apply (Rsqr_0_uniq) in Z1. apply Rsqr_0_uniq in Z2. unfold level. split; [|lra]. replace (slope pts) with b by lra. lra.
Qed.

(** * The detrended frame *)
Lemma filter_flat_map {A B} (f : A -> list B) p l : filter p (flat_map f l) = flat_map (fun a => filter p (f a)) l.
Proof. induction l as [|a l IH]; [reflexivity|]. cbn. now rewrite filter_app, IH. Qed.
Lemma flat_map_single {A B} (f : A -> list B) l a : NoDup l -> In a l -> (forall b, In b l -> b <> a -> f b = []) -> flat_map f l = f a.
Proof.
  induction l as [|b l IH]; intros ND I H; [destruct I|]. inversion ND; subst. cbn. destruct I as [->|I].
  - rewrite <- (app_nil_r (f a)) at 2. f_equal. clear IH ND H3. induction l as [|c l IH]; [reflexivity|]. cbn. rewrite (H c); [|cbn; auto|intros ->; apply H2; cbn; auto].
    apply IH; [intros I; apply H2; cbn; auto|intros d [<-|I] N; apply H; cbn; auto].
  - rewrite (H b); [|cbn; auto|intros ->; contradiction]. apply IH; auto. intros c Ic N. apply H; cbn; auto.
Qed.

Lemma detrend_rows y p : has_series y p -> rows_of (detrend_frame y) p =
  map (fun r => mkRow p (r_time r) [level (series_points y p) + slope (series_points y p) * IZR (r_time r)]) (rows_of y p).
Proof.
  intros (r0 & Ir & Ep). unfold rows_of at 1. unfold detrend_frame. cbn [f_rows]. unfold iterate_all_series. rewrite flat_map_concat_map, map_map, <- flat_map_concat_map. cbn [snd].
  rewrite filter_flat_map. rewrite (flat_map_single _ (series_ids y) p).
  - unfold slope, level, slope, ols_line. unfold series_points. fold (rows_of y p). rewrite !map_map. cbn [fst snd]. fold val0.
    set (mx := Rmean (map (fun r => IZR (r_time r)) (rows_of y p))). set (s := ols_slope _ _). set (my := Rmean _).
    assert (P : forall r, In r (rows_of y p) -> r_path r = p) by (intros r I; apply filter_In in I as [_ I]; now apply path_eqb_eq).
    revert P. generalize (rows_of y p). intros rows P. induction rows as [|r rows IH]; [reflexivity|]. cbn [map combine filter fst snd r_path].
    rewrite (P r) by (cbn; auto). rewrite path_eqb_refl. f_equal; [f_equal; f_equal; ring|]. apply IH. intros; apply P; cbn; auto.
  - apply paths_unique_NoDup.
  - apply paths_unique_In. rewrite <- Ep. now apply in_map.
  - intros q _ N. apply filter_none. intros r I. apply in_map_iff in I as ([r' v] & <- & I). cbn [r_path fst]. apply in_combine_l in I. apply filter_In in I as [_ I]. apply path_eqb_eq in I.
    apply not_true_iff_false. intros F. apply path_eqb_eq in F. congruence.
Qed.

Lemma detrend_points y p : has_series y p -> series_points (detrend_frame y) p =
  map (fun q => (fst q, level (series_points y p) + slope (series_points y p) * fst q)) (series_points y p).
Proof.
  intros H. unfold series_points at 1. fold (rows_of (detrend_frame y) p). rewrite (detrend_rows y p H), map_map. cbn [r_time r_vals hd].
  generalize (level (series_points y p)) (slope (series_points y p)). intros a b. unfold series_points. fold (rows_of y p). rewrite map_map. reflexivity.
Qed.
Lemma points_nonempty y p : has_series y p -> series_points y p <> [].
Proof.
  intros (r & I & E) F. apply map_eq_nil in F. apply (filter_nil_none _ _ F) in I. rewrite E, path_eqb_refl in I. discriminate I.
Qed.

(** * C84 *)
Lemma c84_line y p : has_series y p -> exists a b, least_squares a b (series_points y p) /\
  series_points (detrend_frame y) p = map (fun q => (fst q, a + b * fst q)) (series_points y p).
Proof.
  intros H. exists (level (series_points y p)), (slope (series_points y p)). split; [apply line_least; now apply points_nonempty|now apply detrend_points].
Qed.
Lemma c84_unique y p a b q q' : has_series y p -> In q (series_points y p) -> In q' (series_points y p) -> fst q <> fst q' ->
  least_squares a b (series_points y p) -> series_points (detrend_frame y) p = map (fun q => (fst q, a + b * fst q)) (series_points y p).
Proof. intros H I I' D L. destruct (line_unique _ _ _ _ _ I I' D L) as [-> ->]. now apply detrend_points. Qed.
Lemma c84_series y p : has_series (detrend_frame y) p <-> has_series y p.
Proof.
  split.
  - intros (r & I & E). unfold detrend_frame in I. cbn [f_rows] in I. apply in_flat_map in I as ([q rows] & Iq & I). apply in_map_iff in I as ([r' v] & <- & I). cbn [fst snd r_path] in *.
    apply in_map_iff in Iq as (q' & [= -> <-] & _). apply in_combine_l in I. apply filter_In in I as [I _]. exists r'. auto.
  - intros H. pose proof H as (r & I & E). assert (Q : rows_of (detrend_frame y) p <> []).
    { rewrite (detrend_rows y p H). intros F. apply map_eq_nil in F. apply (filter_nil_none _ _ F) in I. rewrite E, path_eqb_refl in I. discriminate I. }
    destruct (rows_of (detrend_frame y) p) as [|r' l] eqn:R; [congruence|]. exists r'. assert (In r' (rows_of (detrend_frame y) p)) as J by (rewrite R; cbn; auto).
    apply filter_In in J as [J1 J2]. apply path_eqb_eq in J2. auto.
Qed.

(** ** Initial values *)
From Verif.Spec Require Import TotalSpec.
From Verif.Facts Require Import TimeFacts TotalFacts.

Lemma last_map_row {A B} (f : A -> B) l d e : l <> [] -> last (map f l) e = f (last l d).
Proof. intros N. induction l as [|a l IH]; [congruence|]. destruct l as [|b l]; [reflexivity|]. change (last (map f (a :: b :: l)) e) with (last (map f (b :: l)) e). rewrite IH by discriminate. reflexivity. Qed.

Lemma single_rows y p : single y -> rows_of y p = match p with [] => f_rows y | _ => [] end.
Proof.
  intros S0. assert (P : forall r, In r (f_rows y) -> r_path r = []) by (intros; now apply (single_paths y)).
  unfold rows_of. destruct p as [|s p]; [apply FrameFacts.filter_all|apply filter_none]; intros r I; rewrite (P r I); reflexivity.
Qed.

Lemma c84_initial ns_of p y f a b : single y -> (2 <= length (f_rows y))%nat -> NoDup (map r_time (f_rows y)) ->
  increasing (map (fun t => days_since_epoch (ns_of t)) (map r_time (f_rows y))) ->
  pw_detrend p = true -> pw_logistic p = None -> least_squares a b (series_points y []) -> piecewise_fit ns_of p y = Ok f ->
  exists k, pf_global_rates f = [XF k] /\ pf_offset_loc f = [XF (a + b * hd 0 (map fst (series_points y [])))] /\
    k * INR (length (f_rows y) - 1) = - (b * (last (map fst (series_points y [])) 0 - hd 0 (map fst (series_points y [])))).
Proof.
  intros S0 L2 ND INC DT LG LS H. pose proof (proj2 S0) as L0. cbn in L0.
  assert (N : f_rows y <> []) by (destruct (f_rows y); [simpl in L2; lia|discriminate]).
  assert (HS : has_series y []).
  { destruct (f_rows y) as [|r l] eqn:E; [congruence|]. exists r. rewrite E. split; [cbn; auto|]. apply (single_paths y r S0). rewrite E. cbn; auto. }
  assert (Fl : f_rows (detrend_frame y) = rows_of (detrend_frame y) []).
  { symmetry. apply FrameFacts.filter_all. intros r I. apply path_eqb_eq. unfold detrend_frame in I. cbn [f_rows] in I. apply in_flat_map in I as ([q rows] & Iq & I).
    apply in_map_iff in I as ([r' v] & <- & I). cbn. apply in_map_iff in Iq as (q' & [= -> <-] & _). apply in_combine_l in I. apply filter_In in I as [I _]. exact (single_paths y r' S0 I). }
  assert (LR : length (series_points y []) = length (f_rows y)) by (unfold series_points; rewrite map_length; fold (rows_of y []); now rewrite (single_rows y [] S0)).
  assert (Dist : exists q q', In q (series_points y []) /\ In q' (series_points y []) /\ fst q <> fst q').
  { unfold series_points. fold (rows_of y []). rewrite (single_rows y [] S0). destruct (f_rows y) as [|r [|r' l]]; cbn in L2; try lia. eexists _, _. split; [now left|]. split; [right; now left|].
    cbn. intros E. apply eq_IZR in E. cbn in ND. inversion ND; subst. apply H2. cbn. auto. }
  destruct Dist as (q & q' & Iq & Iq' & Dq). destruct (line_unique _ a b q q' Iq Iq' Dq LS) as [-> ->].
  rewrite detrend_rows, (single_rows y [] S0) in Fl by exact HS. set (al := level (series_points y [])) in *. set (sl := slope (series_points y [])) in *.
  assert (EP : map fst (series_points y []) = map (fun r => IZR (r_time r)) (f_rows y)).
  { unfold series_points. fold (rows_of y []). rewrite (single_rows y [] S0), map_map. reflexivity. }
  rewrite EP. clear EP.
  unfold piecewise_fit in H. unfold time_ids in H. rewrite times_unique_id in H by exact ND. set (td := map (fun t => days_since_epoch (ns_of t)) (map r_time (f_rows y))) in *.
  assert (Ld : (2 <= length td)%nat) by (unfold td; rewrite !map_length; exact L2).
  destruct (fit_time_ok td INC Ld) as (s & st & E & Ps & H0 & H1 & MN). rewrite E in H. cbn [bind] in H. set (ts := map (scale_time s st) td) in *.
  assert (HD : hd 0 ts = 0) by (unfold ts; destruct td; [simpl in Ld; lia|exact H0]).
  assert (LA : last ts 0 = INR (length (f_rows y) - 1)).
  { unfold ts. rewrite (last_map_row _ td 0) by (destruct td; [cbn in Ld; lia|discriminate]). rewrite H1. unfold td. now rewrite !map_length. }
  destruct (setup_changepoints _ _ _ _) as [cps|e]; [|discriminate H]. cbn [bind] in H. unfold suggest in H. rewrite DT, LG in H.
  assert (TM : target_matrix (detrend_frame y) = Ok [map (fun r => al + sl * IZR (r_time r)) (f_rows y)]).
  { unfold target_matrix, series_to_tensor. cbn [f_levels detrend_frame]. rewrite L0. cbn [bind map]. rewrite Fl, !map_map. reflexivity. }
  rewrite TM in H. cbn [bind endpoints mapM] in H. rewrite HD, LA in H.
  destruct (f_rows y) as [|r0 rows] eqn:ER; [congruence|]. cbn [map bind] in H. cbn [fst snd] in H.
  match type of H with context [changepoint_prior_vectors ?A ?B ?C] => destruct (changepoint_prior_vectors A B C) as [loc sc] end.
  remember (last (map (fun r => al + sl * IZR (r_time r)) (r0 :: rows)) 0) as vl eqn:Evl. cbn [map] in Evl. rewrite <- Evl in H.
  remember (INR (length (r0 :: rows) - 1)) as nn eqn:Enn.
  injection H as <-. cbn [pf_global_rates pf_offset_loc hd]. eexists. split; [reflexivity|]. split.
  - f_equal. f_equal. unfold suggest_linear. cbn [snd]. cbn [map hd]. ring.
  - unfold suggest_linear. cbn [fst].
    change (al + sl * IZR (r_time r0) :: map (fun r => al + sl * IZR (r_time r)) rows) with (map (fun r => al + sl * IZR (r_time r)) (r0 :: rows)) in Evl.
    rewrite (last_map_row _ (r0 :: rows) r0) in Evl by discriminate. rewrite (last_map_row _ (r0 :: rows) r0) by discriminate. cbn [map hd].
    assert (0 < nn) by (rewrite Enn; apply lt_0_INR; lia). rewrite Evl. field. lra.
Qed.

Lemma c84_rate ns_of p y f a b t0 : single y -> (2 <= length (f_rows y))%nat ->
  map r_time (f_rows y) = map (fun i => (t0 + Z.of_nat i)%Z) (seq 0 (length (f_rows y))) ->
  increasing (map (fun t => days_since_epoch (ns_of t)) (map r_time (f_rows y))) ->
  pw_detrend p = true -> pw_logistic p = None -> least_squares a b (series_points y []) -> piecewise_fit ns_of p y = Ok f ->
  pf_global_rates f = [XF (- b)] /\ pf_offset_loc f = [XF (a + b * IZR t0)].
Proof.
  intros S0 L2 CT INC DT LG LS H.
  assert (ND : NoDup (map r_time (f_rows y))).
  { rewrite CT. apply FinFun.Injective_map_NoDup; [intros i j E; lia|apply seq_NoDup]. }
  destruct (c84_initial ns_of p y f a b S0 L2 ND INC DT LG LS H) as (k & E1 & E2 & E3).
  assert (EP : map fst (series_points y []) = map IZR (map r_time (f_rows y))).
  { unfold series_points. fold (rows_of y []). rewrite (single_rows y [] S0), !map_map. reflexivity. }
  rewrite EP, CT, map_map in *. remember (length (f_rows y)) as n. destruct n as [|n]; [lia|].
  assert (HD : hd 0 (map (fun i => IZR (t0 + Z.of_nat i)) (seq 0 (S n))) = IZR t0) by (cbn; f_equal; lia).
  assert (HL : last (map (fun i => IZR (t0 + Z.of_nat i)) (seq 0 (S n))) 0 = IZR t0 + INR n).
  { rewrite (last_map_row _ _ 0%nat) by discriminate. rewrite seq_S, last_last, plus_IZR, <- INR_IZR_INZ. f_equal. }
  rewrite HD, HL in *. split; [|exact E2]. rewrite E1. f_equal. f_equal. replace (S n - 1)%nat with n in E3 by lia. assert (0 < INR n) by (apply lt_0_INR; lia). apply (Rmult_eq_reg_r (INR n)); lra.
Qed.
