(** The trend formula: named trends, concrete forecasts, and where the documentation differs. *)
From Coq Require Import Reals Lra String Bool ZArith List Sorted Permutation Lia.
From Verif.Model Require Import Base Num XFloat Regex Frame Arr Expand Aggregate Scale Prog Likelihood Effect Trend TrendProg Engine Predict Forecaster.
From Verif.Spec Require Import FrameSpec ScaleSpec TrendSpec ProgSpec EffectSpec ForecasterSpec AlignSpec SiteSpec ShapeSpec TotalSpec DocsSpec.
From Verif.Facts Require Import BaseFacts NumFacts ForecasterFacts ForecasterInv ForecasterProps ShapeFacts EffectExamples ForecasterExamples EngineExamples HistoryExamples AlignExamples ComponentExamples CounterExamples OverlapExamples TotalForecast TotalExamples
  DocsTrend DocsForecaster DocsTotal.
Import ListNotations.
Local Open Scope string_scope.

(** * Named trends *)
Lemma named_fit ns_of order c name t0 X y s t : named_trend c name = Ok t0 -> trend_fit ns_of order t0 X y s = (t, None) -> In name ["linear"; "linear_raw"; "logistic"] ->
  piecewise_options t (c_interval c) (c_range c) (String.eqb name "logistic") /\ prior_scale_option t (c_changepoint_scale c).
Proof.
  intros N F H. simpl in H. destruct H as [<-|[<-|[<-|[]]]]; cbn in N; injection N as <-; cbn [trend_fit] in F; (destruct (piecewise_fit _ _ _); [|discriminate]); injection F as <-; cbn; auto.
Qed.
Section Any.
Variable ns_of : Z -> Z.
Variable order : list string -> list string.
Variable keep : path -> bool.
Context {TS : Type}.
Variable tr_fit_transform : TS -> frame R -> TS * res (frame R).
Context {P : Type}.
Variable svi_run : Z -> nat -> nat -> prog arr -> res (list xr * P).
Variable nuts_run : Z -> nat -> nat -> nat -> prog arr -> res (nat -> nat -> env).
Variable latent_sites : prog arr -> list string.
Notation fit_forecaster := (fit_forecaster ns_of order keep tr_fit_transform svi_run nuts_run latent_sites).

Lemma named_options c ob y X ob' (f : fitted (P := P)) name : fit_forecaster c ob y X = (ob', Ok f) -> c_trend c = TrendName name -> In name ["linear"; "linear_raw"; "logistic"] ->
  piecewise_options (o_trend ob') (c_interval c) (c_range c) (String.eqb name "logistic") /\ prior_scale_option (o_trend ob') (c_changepoint_scale c).
Proof.
  intros H HN I. apply fit_forecaster_inv in H. destruct H as (s & ys & p & m & post & _ & _ & HF & _ & _). unfold fit_data in HF. destruct (c_hier c).
  - apply hierarchical_fit_inv in HF. destruct HF as (yb & tensor & X0 & X1 & X2 & ob0 & t0 & t & td & data & _ & _ & _ & _ & _ & _ & G & T & -> & _).
    unfold get_trend_model in G. rewrite HN in G. cbn [o_trend]. eapply named_fit; eauto.
  - apply univariate_fit_inv in HF. destruct HF as (t0 & t & yt & X1 & Xe & td & data & G & _ & T & _ & _ & <- & _).
    unfold get_trend_model in G. rewrite HN in G. eapply named_fit; eauto.
Qed.
End Any.

(** * A linear and a logistic trend with two changepoints *)
(** dates 0, 1 and 7 of training, forecast for the days 0, 7 and 14: these are the steps 0, 2 and 4 *)
Definition Xd : frame R := mkFrame 0 ["tv"; "web"] [mkRow [] 0 [1; 10]; mkRow [] 7 [2; 20]; mkRow [] 14 [3; 30]]%R.
Definition hd3 : horizon := Absolute [0; 7; 14]%Z.
Definition docs_config (trend : string) : config := total_config trend "normal" "mcmc".
Lemma docs_example trend : In trend ["linear"; "linear_raw"; "logistic"] ->
  exists ob f m o tr, total_fit trend "normal" "mcmc" = (ob, Ok f) /\ predict_model ex_ns keep_all ex_transform (docs_config trend) ob f ex_y (Some Xd) hd3 = Ok m /\ run one [] m = Ok (o, tr).
Proof.
  intros HT. assert (HT' : In trend ["linear"; "linear_raw"; "flat"; "logistic"]) by (simpl in *; tauto). assert (HL : In "normal" ["normal"; "gamma"; "negbinomial"]) by (simpl; auto).
  pose proof (total_posed trend "normal" "mcmc" HT' HL) as W. pose proof (total_clean trend "normal" "mcmc") as CL.
  assert (HD : hill_data (docs_config trend) (Some Xu)) by (apply total_hill; cbn; intros r v [<-|[<-|[<-|[]]]] [<-|[<-|[]]]; lra).
  assert (HD2 : hill_data (docs_config trend) (Some Xd)) by (apply total_hill; cbn; intros r v [<-|[<-|[<-|[]]]] [<-|[<-|[]]]; lra).
  destruct (fit_total ex_ns sorted_sets keep_all ex_fit_transform ex_svi ex_nuts comp_latent _ (no_objects None) ex_y (Some Xu) W CL HD eq_refl) as (ob & s & p & m & E & _).
  fold (total_fit trend "normal" "mcmc") in E. unfold infer in E. change (String.eqb (en_method (engine_of (total_config trend "normal" "mcmc"))) "mcmc") with true in E. cbv iota in E. unfold ex_nuts in E. cbn [bind] in E.
  match type of E with _ = (_, Ok ?g) => set (f := g) in E end.
  destruct (predict_total ex_ns sorted_sets keep_all ex_fit_transform ex_transform ex_svi ex_nuts comp_latent _ (no_objects None) ob ex_y (Some Xu) f (Some Xd) hd3 7 W CL HD eq_refl E eq_refl) as (pm & PM & RU).
  - cbn. repeat constructor; simpl; intuition discriminate.
  - exact HD2.
  - split; [|cbn; tauto]. split; [intros r [<-|[<-|[<-|[]]]]; split; reflexivity|]. split; [reflexivity|]. split; [|cbn; tauto]. repeat constructor; simpl; intuition discriminate.
  - destruct (RU one) as (o & tr & RO).
    + split; intros; unfold one; lra.
    + exists ob, f, pm, o, tr. auto.
Qed.

Lemma ex_day t : day (ex_ns t) = IZR t.
Proof. unfold day, ex_ns. replace (t * 86400000000000)%Z with (t * 86400 * 1000000000)%Z by lia. rewrite Z.div_mul by lia. rewrite mult_IZR. field. Qed.

Lemma docs_days : increasing (map (fun t => day (ex_ns t)) [0; 1; 7]%Z).
Proof. cbn [map]. rewrite !ex_day. unfold increasing. repeat first [apply SSorted_nil | apply SSorted_cons | apply Forall_nil | apply Forall_cons]; lra. Qed.
Lemma docs_steps t : steps (map (fun t => day (ex_ns t)) [0; 1; 7]%Z) (day (ex_ns t)) = (IZR t * 2 / 7)%R.
Proof. cbn [map]. rewrite !ex_day. unfold steps. cbn [hd last List.length Nat.sub INR]. field. Qed.
Lemma docs_count : changepoint_count 3 1 (4 / 5) 2.
Proof.
  intros k. unfold range_end. destruct (Rlt_dec 0 (4 / 5)); [|lra]. destruct (Rlt_dec (4 / 5) 1); [|lra]. cbn [Nat.sub]. rewrite Rmult_1_r. replace (INR 2) with 2%R by (simpl; lra).
  destruct k as [|[|k]]; [simpl; split; [lra|lia]|simpl; split; [lra|lia]|]. split; [lia|]. intros H. exfalso. rewrite !S_INR in H. pose proof (pos_INR k). lra.
Qed.

(** the recorded trend for the parameters [one]: 2, 6 and 10 *)
Lemma docs_values trend : In trend ["linear"; "linear_raw"] -> forall ob f m o tr, total_fit trend "normal" "mcmc" = (ob, Ok f) -> predict_model ex_ns keep_all ex_transform (docs_config trend) ob f ex_y (Some Xd) hd3 = Ok m ->
  run one [] m = Ok (o, tr) -> exists tv, dict_get tr "trend" = Some (SDet tv) /\ nth_error (a_flat tv) 0 = Some 2%R /\ nth_error (a_flat tv) 1 = Some 6%R /\ nth_error (a_flat tv) 2 = Some 10%R.
Proof.
  intros HT ob f m o tr HF HM RU. assert (HT' : In trend ["linear"; "linear_raw"; "logistic"]) by (simpl in *; tauto).
  destruct (named_options ex_ns sorted_sets keep_all ex_fit_transform ex_svi ex_nuts comp_latent _ _ _ _ _ _ trend HF eq_refl HT') as [HO _].
  assert (LG : String.eqb trend "logistic" = false) by (simpl in HT; destruct HT as [<-|[<-|[]]]; reflexivity). rewrite LG in HO.
  destruct (c103_univariate ex_ns sorted_sets keep_all ex_fit_transform ex_transform ex_svi ex_nuts comp_latent _ _ _ _ _ _ _ _ _ 2 HF eq_refl eq_refl (total_clean _ _ _) HO ltac:(simpl; lra) [0; 1; 7]%Z eq_refl docs_days docs_count ex_y (Some Xd) hd3 m 7 _ HM eq_refl eq_refl one o tr RU) as (tv & G & V & _).
  assert (B : forall t k, bend t k = if Rle_dec k t then (t - k + 1)%R else Rmax 0 (1 - k)) by reflexivity.
  assert (C : forall t, (t = 0 \/ 1 <= t)%R -> trend_at one false 2 1 0 t = (1 + (t + 1) + (if Req_EM_T t 0 then 0 else t))%R).
  { intros t Ht. unfold trend_at, line_at, sum_to, one. cbn [seq map fold_right INR]. rewrite !B. destruct (Rle_dec (0 * 1) t); [|lra]. destruct (Rle_dec (1 * 1) t), (Req_EM_T t 0); try lra. rewrite Rmax_left; lra. }
  exists tv. split; [exact G|]. split; [|split].
  - rewrite (V 0 0%Z eq_refl), docs_steps, C by lra. f_equal. destruct (Req_EM_T _ 0); lra.
  - rewrite (V 1 7%Z eq_refl), docs_steps, C by lra. f_equal. destruct (Req_EM_T _ 0); lra.
  - rewrite (V 2 14%Z eq_refl), docs_steps, C by lra. f_equal. destruct (Req_EM_T _ 0); lra.
Qed.

(** no rate [k] and offset [m] make the documented formulas give these values *)
Definition docs_knots (i : nat) : R := INR i.
Definition docs_deltas (i : nat) : R := one "changepoint_coefficients" i.
Lemma spline_differs k m : ~ (spline 2 docs_knots docs_deltas k m 0 = 2 /\ spline 2 docs_knots docs_deltas k m 2 = 6 /\ spline 2 docs_knots docs_deltas k m 4 = 10)%R.
Proof.
  unfold spline, sum_to, docs_knots, docs_deltas, one. cbn [seq map fold_right INR]. intros (A & B & C).
  rewrite (Rmax_left 0 (0 - 0)), (Rmax_left 0 (0 - 1)) in A by lra. rewrite (Rmax_right 0 (2 - 0)), (Rmax_right 0 (2 - 1)) in B by lra. rewrite (Rmax_right 0 (4 - 0)), (Rmax_right 0 (4 - 1)) in C by lra. lra.
Qed.
Lemma original_differs k m : ~ (original printed_indicator printed_gamma 2 docs_knots docs_deltas k m 0 = 2 /\ original printed_indicator printed_gamma 2 docs_knots docs_deltas k m 2 = 6 /\
  original printed_indicator printed_gamma 2 docs_knots docs_deltas k m 4 = 10)%R.
Proof.
  unfold original, sum_to, docs_knots, docs_deltas, one, printed_indicator, printed_gamma. cbn [seq map fold_right INR]. intros (A & B & C).
  repeat match type of A with context [Rlt_dec ?x ?y] => destruct (Rlt_dec x y); [try lra|try lra] end;
  repeat match type of B with context [Rlt_dec ?x ?y] => destruct (Rlt_dec x y); [try lra|try lra] end;
  repeat match type of C with context [Rlt_dec ?x ?y] => destruct (Rlt_dec x y); [try lra|try lra] end.
Qed.

(** * two series *)
Lemma yh_balanced : balanced ex_yh.
Proof.
  split.
  - cbn. repeat constructor; simpl; intuition discriminate.
  - intros p t I1 I2. cbn in I1, I2 |- *. intuition (subst; auto).
Qed.
Lemma docs_days2 : increasing (map (fun t => day (ex_ns t)) [0; 1]%Z).
Proof. cbn [map]. rewrite !ex_day. unfold increasing. repeat first [apply SSorted_nil | apply SSorted_cons | apply Forall_nil | apply Forall_cons]; lra. Qed.
Lemma docs_count2 : changepoint_count 2 25 (4 / 5) 1.
Proof.
  intros k. unfold range_end. destruct (Rlt_dec 0 (4 / 5)); [|lra]. destruct (Rlt_dec (4 / 5) 1); [|lra]. cbn [Nat.sub INR].
  destruct k as [|k]; [simpl; split; [lra|lia]|]. split; [lia|]. intros H. exfalso. rewrite S_INR in H. pose proof (pos_INR k). lra.
Qed.
