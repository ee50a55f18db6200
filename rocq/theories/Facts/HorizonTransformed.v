(** What a prediction reads of the exogenous data when a feature transformer is configured. *)
From Coq Require Import Reals String Bool ZArith List Lia.
From Verif.Model Require Import Base Num XFloat Regex Frame Arr Expand Aggregate Scale Predict Prog Likelihood Trend Effect TrendProg Engine Forecaster History.
From Verif.Spec Require Import FrameSpec ProgSpec EffectSpec ForecasterSpec AlignSpec HorizonSpec ResponseSpec.
From Verif.Facts Require Import BaseFacts FrameFacts ForecasterFacts ForecasterInv ForecasterProps HorizonFacts HorizonExamples ResponseHierarchical.
Import ListNotations.
Local Open Scope string_scope.

Section Forecaster.
Variable ns_of : Z -> Z.
Variable order : list string -> list string.
Variable keep : path -> bool.
Context {TS : Type}.
Variable tr_fit_transform : TS -> frame R -> TS * res (frame R).
Variable tr_transform : TS -> frame R -> res (frame R).
Context {P : Type}.
Variable svi_run : Z -> nat -> nat -> prog arr -> res (list xr * P).
Variable nuts_run : Z -> nat -> nat -> nat -> prog arr -> res (nat -> nat -> env).
Variable latent_sites : prog arr -> list string.
Variable guide_draw : P -> Z -> nat -> prog arr -> env.
Variable complete_draw : env -> Z -> nat -> prog arr -> env.
Notation fit_forecaster := (fit_forecaster ns_of order keep tr_fit_transform svi_run nuts_run latent_sites).
Notation call_method := (call_method ns_of keep tr_transform guide_draw complete_draw).

Lemma c75_transformed_univariate c ob (f : fitted (P := P)) : c_hier c = false ->
  forall y2 X X' fh cutoff m Xt Xt', max_time (map r_time (f_rows y2)) = Ok cutoff ->
  run_transform tr_transform ob X = Ok Xt -> run_transform tr_transform ob X' = Ok Xt' -> same_rows_at (to_absolute cutoff fh) Xt Xt' ->
  call_method c ob f y2 m (Some X) fh = call_method c ob f y2 m (Some X') fh.
Proof.
  intros Hc y2 X X' fh cutoff m Xt Xt' HM R R' S. apply same_rows_filter in S. apply method_draws. unfold predictive_samples_dict. rewrite Hc. do 2 f_equal.
  unfold univariate_predict_model. rewrite HM. cbn [bind]. rewrite R, R'. cbn [bind].
  now rewrite (trend_transform_filter ns_of (o_trend ob) _ Xt), (trend_transform_filter ns_of (o_trend ob) _ Xt'), (transform_effects_filter _ _ Xt), (transform_effects_filter _ _ Xt'), S.
Qed.

Lemma c75_transformed_panel c ob0 y X0 ob (f : fitted (P := P)) : fit_forecaster c ob0 y X0 = (ob, Ok f) -> c_hier c = true ->
  forall B0 ob1 Zt, given_training X0 y B0 -> run_fit_transform tr_fit_transform ob0 B0 = (ob1, Ok Zt) -> f_cols Zt <> [] ->
  forall y2 X X' B B' fh cutoff m Xt Xt', max_time (map snd (p_index (ft_prepared f))) = Ok cutoff -> with_columns X B -> with_columns X' B' ->
  (forall t, In t (to_absolute cutoff fh) -> (In t (map r_time (f_rows B)) <-> In t (map r_time (f_rows B')))) ->
  run_transform tr_transform ob B = Ok Xt -> run_transform tr_transform ob B' = Ok Xt' -> same_rows_at (to_absolute cutoff fh) Xt Xt' -> series_ids Xt = series_ids Xt' ->
  call_method c ob f y2 m X fh = call_method c ob f y2 m X' fh.
Proof.
  intros HF Hc B0 ob1 Zt GT RT CZ y2 X X' B B' fh cutoff m Xt Xt' HM (Z & -> & NZ & LB) (Z' & -> & NZ' & LB') HT R R' S SI. apply same_rows_filter in S. apply method_draws. unfold predictive_samples_dict. rewrite Hc.
  assert (HE : p_has_exogenous (ft_prepared f) = true).
  { apply fit_forecaster_inv in HF. destruct HF as (s & ys & p & pm & post & _ & HY & HD & _ & ->). cbn [ft_prepared]. unfold fit_data in HD. rewrite Hc in HD. apply hierarchical_fit_inv in HD.
    destruct HD as (yb & tens & XB & Z1 & X3 & ob2 & t1 & t & td0 & data0 & _ & _ & HB & HQ & HEX & _). rewrite (given_trained keep _ _ _ _ _ _ HY GT) in HB. injection HB as <-. rewrite RT in HQ. injection HQ as _ <-. rewrite HEX. unfold no_columns. now destruct (f_cols Zt). }
  assert (E : hierarchical_predict_model ns_of keep tr_transform c ob f y2 (Some Z) fh = hierarchical_predict_model ns_of keep tr_transform c ob f y2 (Some Z') fh); [|now rewrite E].
  unfold hierarchical_predict_model. rewrite HM. cbn [bind]. set (fh' := to_absolute cutoff fh) in *. unfold no_columns. destruct (f_cols Z); [congruence|]. destruct (f_cols Z'); [congruence|].
  rewrite LB, LB'. cbn [bind]. rewrite HE.
  assert (PT : forallb (fun t => existsb (Z.eqb t) (map r_time (f_rows B))) fh' = forallb (fun t => existsb (Z.eqb t) (map r_time (f_rows B'))) fh').
  { assert (I : forall l t, existsb (Z.eqb t) l = true <-> In t l) by (intros l' t; rewrite existsb_exists; split; [intros (u & Hu & E); apply Z.eqb_eq in E; now subst|intros Hu; exists t; split; [exact Hu|apply Z.eqb_refl]]).
    revert HT. generalize fh'. intros ts. induction ts as [|t ts IH]; intros HT; [reflexivity|]. cbn [forallb]. rewrite IH by (intros u Hu; apply HT; now right). f_equal.
    apply Bool.eq_iff_eq_true. rewrite !I. apply HT. now left. }
  rewrite PT. clear PT. destruct (forallb _ fh'); [|reflexivity]. rewrite R, R'. cbn [bind].
  destruct (attr (p_expander (ft_prepared f))) as [ex|]; [|reflexivity]. cbn [bind].
  pose proof (expand_transform_filter ex fh' Xt Xt' S SI) as G.
  destruct (expand_transform _ _ ex Xt) as [[Z1 e1]|]; destruct (expand_transform _ _ ex Xt') as [[Z2 e2]|]; try contradiction; cbn [bind]; [|congruence].
  destruct G as [FZ ->]. rewrite (trend_transform_filter ns_of (o_trend ob) fh' Z1), (trend_transform_filter ns_of (o_trend ob) fh' Z2), FZ.
  now rewrite (transform_effects_filter _ fh' Z1), (transform_effects_filter _ fh' Z2), FZ.
Qed.
End Forecaster.
