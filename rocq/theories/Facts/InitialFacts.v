(** Which initial values of the logistic trend are numbers. *)
From Coq Require Import Reals ZArith Lra Lia List Bool.
From Verif.Model Require Import Base Num XFloat Arr Frame Trend.
From Verif.Spec Require Import FrameSpec TrendSpec LineSpec InitialSpec.
From Verif.Facts Require Import BaseFacts NumFacts FrameFacts TrendFacts TimeFacts LineFacts LogisticFit TrendExamples.
Import ListNotations.
Local Open Scope R_scope.

Definition logit (cap v : R) : xr := xlog (xsub (xdiv (XF cap) (XF v)) (XF 1)).

Lemma logit_inside cap v : 0 < v < cap -> logit cap v = XF (ln (cap / v - 1)).
Proof. intros H. now apply xlog_ratio. Qed.
Lemma logit_capacity cap : 0 < cap -> logit cap cap = XNInf.
Proof.
  intros H. unfold logit, xdiv. rewrite (proj2 (Reqb_false cap 0)) by lra. cbn [xsub xneg xadd xlog].
  replace (cap / cap + - (1)) with 0 by (field; lra). rewrite Reqb_refl. destruct (Rltb 0 0) eqn:E; [apply Rltb_true in E; lra|reflexivity].
Qed.
Lemma logit_zero cap : 0 < cap -> logit cap 0 = XPInf.
Proof. intros H. unfold logit, xdiv. rewrite Reqb_refl. unfold xinf_sign. now rewrite (proj2 (Rltb_true 0 cap) H). Qed.

(** the pair computed from the two logits *)
Definition pair_of (t1 : R) (l0 l1 : xr) : xr * xr :=
  let k := xdiv (xsub l1 l0) (XF (0 - t1)) in (k, xneg (xadd l1 (xmul k (XF t1)))).

Lemma neg_time t1 : 0 < t1 -> Rleb 0 (0 - t1) = false /\ Reqb (0 - t1) 0 = false /\ Rltb 0 t1 = true.
Proof. intros H. split; [apply Rleb_false; lra|]. split; [apply Reqb_false; lra|apply Rltb_true; lra]. Qed.

Lemma outside_inside cap v : ~ outside cap v -> 0 < v < cap \/ v = 0 \/ v = cap.
Proof. unfold outside. intros H. destruct (Rlt_dec 0 v), (Rlt_dec v cap); try (left; lra); right; [right|left|left]; apply Rle_antisym; apply Rnot_lt_le; intros Q; apply H; lra. Qed.

Lemma pair_cases cap t1 a b : 0 < cap -> 0 < t1 -> 0 < a -> ~ outside cap a -> ~ outside cap b ->
  initial_pair cap t1 a b (pair_of t1 (logit cap a) (logit cap b)).
Proof.
  intros C T A OA OB. destruct (neg_time t1 T) as (N1 & N2 & N3).
  assert (SA : 0 < a < cap \/ a = cap). { destruct (outside_inside _ _ OA) as [H|[H|H]]; [now left|lra|now right]. }
  destruct (outside_inside _ _ OB) as [IB|[ZB|CB]].
  - destruct SA as [IA|CA].
    + destruct (suggest_logistic_interpolates 0 t1 [(a, b)] cap T) as (kms & E & F). { intros v [<-|[]]. cbn. now split. }
      inversion F as [|? [k m] ? ? (P1 & P2 & _) F2]; subst. inversion F2; subst. unfold suggest_logistic in E. rewrite no_zero_start in E by (intros v [<-|[]]; cbn; lra).
      cbn [map existsb fst snd] in E. fold (logit cap a) (logit cap b) in E. destruct (_ || _) in E; [discriminate|].
      injection E as E E'. unfold pair_of. cbv zeta. rewrite E', E. cbn [fst snd] in *.
      apply ip_inside; [exact IA|exact IB| |exact P2]. replace (k * 0 + m) with m in P1 by ring. exact P1.
    + subst a. rewrite logit_capacity, (logit_inside cap b) by assumption. unfold pair_of. cbn [xsub xneg xadd xdiv]. rewrite N1. cbn [xmul]. unfold xinf_sign. rewrite N3. cbn [xneg xadd]. now apply ip_from_capacity.
  - subst b. rewrite (logit_zero cap C). assert (P : pair_of t1 (logit cap a) XPInf = (XNInf, XNaN)).
    { destruct SA as [IA| ->]; [rewrite logit_inside by exact IA|rewrite logit_capacity by exact C]; unfold pair_of; cbn [xsub xneg xadd xdiv]; rewrite N1; cbn [xmul]; unfold xinf_sign; rewrite N3; reflexivity. }
    rewrite P. apply ip_to_zero; [lra|reflexivity].
  - subst b. rewrite (logit_capacity cap C). destruct SA as [IA| ->].
    + rewrite logit_inside by exact IA. unfold pair_of. cbn [xsub xneg xadd xdiv]. rewrite N1. cbn [xmul]. unfold xinf_sign. rewrite N3. cbn [xneg xadd]. now apply ip_to_capacity.
    + rewrite logit_capacity by exact C. cbn. now apply ip_at_capacity.
Qed.

Lemma combine_map_pair {A B} (l : list (A * B)) : combine (map fst l) (map snd l) = l.
Proof. induction l as [|[a b] l IH]; [reflexivity|]. cbn [map combine fst snd]. now rewrite IH. Qed.

Lemma suggested_pairs t1 ys cap kms : 0 < cap -> 0 < t1 -> suggest_logistic 0 t1 ys cap = Ok kms ->
  let start v := if existsb (fun y : R * R => Reqb (fst y) 0) ys then / 100000000 else fst v in
  kms = map (fun v => pair_of t1 (logit cap (start v)) (logit cap (snd v))) ys /\
  forall v, In v ys -> initial_pair cap t1 (start v) (snd v) (pair_of t1 (logit cap (start v)) (logit cap (snd v))).
Proof.
  intros C T H start. assert (NO : forall v, In v ys -> ~ outside cap (start v) /\ ~ outside cap (snd v)).
  { intros v I. split; intros O; (assert (F : suggest_logistic 0 t1 ys cap = Err ValueError); [|congruence]); apply suggest_logistic_nan; auto; split; auto; exists v; (split; [exact I|]); [now left|now right]. }
  split.
  - unfold suggest_logistic in H. destruct (existsb _ (map _ ys)); [discriminate|]. injection H as <-. rewrite map_map. reflexivity.
  - intros v I. destruct (NO v I) as (O1 & O2). apply pair_cases; auto. unfold start in *. destruct (existsb _ ys) eqn:E; [lra|].
    destruct (outside_inside _ _ O1) as [P|[P|P]]; [lra| |lra]. exfalso. enough (existsb (fun y : R * R => Reqb (fst y) 0) ys = true) by congruence.
    apply existsb_exists. exists v. split; [exact I|now apply Reqb_true].
Qed.

Lemma c93_cases ns_of p y f cap : frame_wf y -> increasing (map (fun t => days_since_epoch (ns_of t)) (time_ids y)) -> (2 <= length (time_ids y))%nat ->
  initial_capacity p y cap -> 0 < cap -> piecewise_fit ns_of p y = Ok f ->
  Forall2 (fun q km => forall a, starts_at p y q a -> initial_pair cap (last_time y) a (last_value p y q) km)
    (series_ids y) (combine (pf_global_rates f) (pf_offset_loc f)).
Proof.
  intros W INC L IC C H. apply flat_paths in W. pose proof (rows_of_times y L) as N. pose proof (last_time_pos y L) as TP.
  destruct (fit_suggestion ns_of p y f INC L W H) as (ts & H0 & H1 & HS). unfold suggest in HS.
  destruct (target_matrix _) as [m|] eqn:TM; [|discriminate]. cbn [bind] in HS. apply start_matrix in TM; [|exact W|exact N].
  destruct (endpoints _) as [es|] eqn:EE; [|discriminate]. cbn [bind] in HS. apply endpoints_ok in EE. rewrite H0, H1 in HS.
  destruct (pw_logistic p) as [c|] eqn:LG; [|unfold initial_capacity in IC; rewrite LG in IC; contradiction].
  match type of HS with (bind ?X _ = _) => destruct X as [cap0|] eqn:EC; [|discriminate HS] end. cbn [bind] in HS.
  rewrite <- (initial_capacity_value p y c cap0 m W N LG TM EC cap IC) in HS. subst es m. rewrite map_map in HS.
  set (ys := map (fun q => (hd 0 (start_values p y q), last (start_values p y q) 0)) (series_ids y)) in *.
  destruct (suggest_logistic 0 (last_time y) ys cap) as [kms|] eqn:EK; [|discriminate]. cbn [bind] in HS. injection HS as <- <-.
  destruct (suggested_pairs _ _ _ _ C TP EK) as (EM & IP). cbv zeta in EM, IP. set (B := existsb (fun y : R * R => Reqb (fst y) 0) ys) in *.
  assert (BZ : B = true <-> some_zero_start p y).
  { unfold B. rewrite existsb_exists. split.
    - intros (v & I & Z). apply in_map_iff in I as (q & <- & I). apply series_ids_In in I. apply Reqb_true in Z. exists q. now split.
    - intros (q & Hq & Z). eexists. split; [apply in_map, series_ids_In, Hq|]. now apply Reqb_true. }
  assert (ST : forall q a, starts_at p y q a -> a = if B then / 100000000 else first_value p y q).
  { intros q a [(Z & ->)|(Z & ->)]; [now rewrite (proj2 BZ Z)|]. destruct B; [exfalso; apply Z, BZ; reflexivity|reflexivity]. }
  subst kms. rewrite combine_map_pair. unfold ys in IP |- *. rewrite map_map.
  assert (AL : forall q, In q (series_ids y) -> In q (series_ids y)) by auto. revert AL. generalize (series_ids y) at 1 3 4.
  intros ids. induction ids as [|q ids IH]; intros AL; cbn [map]; constructor.
  - intros a Sa. rewrite (ST q a Sa). refine (IP (hd 0 (start_values p y q), last (start_values p y q) 0) _). apply in_map_iff. exists q. split; [reflexivity|]. apply AL. now left.
  - apply IH. intros q' I. apply AL. now right.
Qed.

Lemma pair_numbers cap T a b k m : 0 < cap -> initial_pair cap T a b (k, m) ->
  (is_number k <-> is_number m) /\ (is_number k <-> 0 < a < cap /\ 0 < b < cap).
Proof.
  intros C H. assert (Y : forall r, is_number (XF r)) by (intros r; now exists r).
  assert (N : ~ is_number XNaN /\ ~ is_number XPInf /\ ~ is_number XNInf) by (repeat split; intros (r & E); discriminate). destruct N as (N1 & N2 & N3).
  inversion H; subst; (split; split; intros Q; try contradiction; try apply Y; try (split; lra); exfalso; lra).
Qed.
Lemma c93_numbers ns_of p y f cap : frame_wf y -> increasing (map (fun t => days_since_epoch (ns_of t)) (time_ids y)) -> (2 <= length (time_ids y))%nat ->
  initial_capacity p y cap -> 0 < cap -> piecewise_fit ns_of p y = Ok f ->
  Forall2 (fun q km => (is_number (fst km) <-> is_number (snd km)) /\
      forall a, starts_at p y q a -> (is_number (fst km) <-> 0 < a < cap /\ 0 < last_value p y q < cap))
    (series_ids y) (combine (pf_global_rates f) (pf_offset_loc f)).
Proof.
  intros W INC L IC C H. pose proof (c93_cases ns_of p y f cap W INC L IC C H) as F.
  assert (S : forall q, exists a, starts_at p y q a).
  { intros q. assert (D : some_zero_start p y \/ ~ some_zero_start p y).
    { unfold some_zero_start. assert (E : forall ids, (exists q, In q ids /\ first_value p y q = 0) \/ ~ (exists q, In q ids /\ first_value p y q = 0)).
      { induction ids as [|q' ids [(x & I & E)|IH]]; [right; intros (? & [] & _)|left; exists x; split; [now right|exact E]|].
        destruct (Req_dec (first_value p y q') 0) as [E|E]; [left; exists q'; split; [now left|exact E]|]. right. intros (x & [<-|I] & E'); [contradiction|]. apply IH. now exists x. }
      destruct (E (series_ids y)) as [(x & I & E')|E']; [left; exists x; split; [now apply series_ids_In|exact E']|]. right. intros (x & I & E''). apply E'. exists x. split; [now apply series_ids_In|exact E'']. }
    destruct D as [D|D]; eexists; [left|right]; (split; [exact D|reflexivity]). }
  clear -F C S. induction F as [|q [k m] ids kms HQ F IH]; constructor; [|exact IH]. cbn [fst snd]. destruct (S q) as (a & Sa). split.
  - exact (proj1 (pair_numbers _ _ _ _ _ _ C (HQ a Sa))).
  - intros a' Sa'. exact (proj2 (pair_numbers _ _ _ _ _ _ C (HQ a' Sa'))).
Qed.

(** * A series falling to zero *)
Definition falling : frame R := daily [1; 0].
Lemma falling_line : target_matrix (detrend_frame falling) = Ok [[1; 0]].
Proof.
  unfold target_matrix, series_to_tensor. cbn. unfold ols_line, ols_slope, Rmean. cbn.
  assert (Q : forall a b : R, a = 1 -> b = 0 -> Ok [[a; b]] = Ok [[1; 0]]) by congruence. apply Q; field.
Qed.
Lemma falling_values : start_values (params true (1/2) (Some None)) falling [] = [1; 0].
Proof.
  unfold start_values. cbn [params pw_detrend]. unfold series_points. cbn. unfold ols_line, ols_slope, Rmean. cbn.
  assert (Q : forall a b : R, a = 1 -> b = 0 -> [a; b] = [1; 0]) by congruence. apply Q; field.
Qed.
Lemma falling_fit : exists f, piecewise_fit day_ns (params true (1/2) (Some None)) falling = Ok f /\
  pf_global_rates f = [XNInf] /\ pf_offset_loc f = [XNaN].
Proof.
  unfold piecewise_fit. change (time_ids falling) with [0; 1]%Z. cbn [map].
  rewrite !day_ns_days, fit_two. cbn [bind map hd tl].
  unfold scale_time. replace (0 / 1 - 0) with 0 by lra. replace (1 / 1 - 0) with 1 by lra.
  change (n_series_of falling) with 1%nat.
  assert (M : Rmax_list 0 [1] = 1). { unfold Rmax_list. simpl. rewrite Rmax_right; lra. }
  rewrite M. destruct (limit_pos_setup 1 (1/2)) as (cp & E & _ & Hh). { apply limit_half. lra. }
  cbn [params pw_interval pw_range]. rewrite E. cbn [bind].
  unfold suggest. cbn [params pw_detrend pw_logistic pw_prior_scale]. rewrite falling_line.
  cbn [bind]. cbn [endpoints mapM bind last map fst snd hd concat app].
  assert (M2 : Rmax_list 1 [0] = 1). { unfold Rmax_list. simpl. rewrite Rmax_left; lra. } rewrite M2. replace (1 * (105 / 100)) with (105 / 100) by lra.
  unfold suggest_logistic. rewrite no_zero_start by (intros y [<-|[]]; simpl; lra). cbn [map existsb fst snd].
  fold (logit (105/100) 1) (logit (105/100) 0). rewrite logit_zero by lra. rewrite logit_inside by lra. cbn [xisnan orb bind map fst snd].
  destruct (neg_time 1) as (N1 & N2 & N3); [lra|].
  assert (P : pair_of 1 (XF (ln (105/100/1 - 1))) XPInf = (XNInf, XNaN)). { unfold pair_of. cbn [xsub xneg xadd xdiv]. rewrite N1. cbn [xmul]. unfold xinf_sign. rewrite N3. reflexivity. }
  unfold pair_of in P. cbv zeta in P. injection P as P1 P2.
  eexists. split; [reflexivity|]. cbn [pf_global_rates pf_offset_loc]. split; f_equal; assumption.
Qed.
