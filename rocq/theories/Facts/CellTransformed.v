(** The same series and dates with different exogenous data: panels with a feature transformer. *)
From Coq Require Import Reals Lra ZArith String Ascii Bool List Lia Sorted Permutation.
From Verif.Model Require Import Base Num XFloat Frame Arr Prog Likelihood Effect Trend TrendProg Aggregate Scale Expand Engine Forecaster.
From Verif.Spec Require Import FrameSpec ProgSpec EffectSpec AlignSpec ShapeSpec ForecasterSpec SiteSpec ResponseSpec OverlapSpec CellSpec.
From Verif.Facts Require Import BaseFacts FrameFacts ModelProps ForecasterFacts ForecasterInv ForecasterProps AlignFacts OverlapFacts OverlapFrames OverlapTrend OverlapModel OverlapForecaster ResponseHierarchical CellFacts CellFrames CellModel CellForecaster.
Import ListNotations.
Local Open Scope string_scope.

Section Final.
Variable ns_of : Z -> Z.
Variable order : list string -> list string.
Variable keep : path -> bool.
Context {TS : Type}.
Variable tr_fit_transform : TS -> frame R -> TS * res (frame R).
Variable tr_transform : TS -> frame R -> res (frame R).
Context {P : Type}.
Variable svi_run : Z -> nat -> nat -> prog arr -> res (list xr * P).
Variable nuts_run : Z -> nat -> nat -> nat -> prog arr -> res (nat -> nat -> env).
Variable latent_sites : prog arr -> list string.
Notation fit_forecaster := (fit_forecaster ns_of order keep tr_fit_transform svi_run nuts_run latent_sites).
Notation predict_model := (predict_model ns_of keep tr_transform).

Lemma c116_transformed : forall ts1 ts2, ts1 <> [] -> ts2 <> [] -> in_order ts1 -> in_order ts2 ->
  forall c ob y X0 ob' (f : fitted (P := P)), fit_forecaster c ob y X0 = (ob', Ok f) -> c_hier c = true -> f_levels y <> 0 -> frame_wf y ->
  (forall r, In r (f_rows y) -> ~ In "__total" (r_path r)) -> scalar_piecewise (o_trend ob') ->
  forall B0 ob1 Zt, given_training X0 y B0 -> run_fit_transform tr_fit_transform ob B0 = (ob1, Ok Zt) -> f_levels Zt <> 0 -> f_cols Zt <> [] ->
  forall y2 cutoff fh1 fh2, max_time (map snd (p_index (ft_prepared f))) = Ok cutoff -> to_absolute cutoff fh1 = ts1 -> to_absolute cutoff fh2 = ts2 ->
  forall X1 X2 B1 B2 Xt1 Xt2, given_forecast X1 y2 ts1 B1 -> given_forecast X2 y2 ts2 B2 -> run_transform tr_transform ob' B1 = Ok Xt1 -> run_transform tr_transform ob' B2 = Ok Xt2 ->
  f_levels Xt1 <> 0 -> same_frame Xt1 Xt2 -> covers Xt1 ts1 -> covers Xt2 ts2 -> frame_wf Xt1 -> frame_wf Xt2 ->
  forall e m1 m2 o1 tr1 o2 tr2, predict_model c ob' f y2 X1 fh1 = Ok m1 -> predict_model c ob' f y2 X2 fh2 = Ok m2 ->
  run e [] m1 = Ok (o1, tr1) -> run e [] m2 = Ok (o2, tr2) -> same_cells (List.length (series_ids y)) ts1 ts2 (unchanged (series_ids Xt1) Xt1 Xt2) tr1 tr2.
Proof.
  intros ts1 ts2 N1 N2 O1 O2 c ob y X0 ob' f HF Hc L W NT TT B0 ob1 Zt GT RT LZ CZ y2 cutoff fh1 fh2 HC H1 H2 X1 X2 B1 B2 Xt1 Xt2 G1 G2 R1 R2 LV SF C1 C2 W1 W2 e m1 m2 o1 tr1 o2 tr2 P1 P2. apply related_runs.
  assert (S : series_of Xt1 = series_ids Xt1) by (unfold series_of; destruct (f_levels Xt1); [congruence|reflexivity]). rewrite <- S.
  assert (SM : forall g, In g (p_fitted (ft_prepared f)) -> supports_multivariate (fe_effect g) = true).
  { apply (hierarchical_supports ns_of order keep tr_fit_transform svi_run nuts_run latent_sites c ob y X0 ob' f HF Hc L).
    intros s ys XB ob2 Z1 HS HB HQ. rewrite (given_trained keep _ _ _ _ _ _ HS GT) in HB. injection HB as <-. rewrite RT in HQ. injection HQ as _ <-. exact LZ. }
  assert (HE : p_has_exogenous (ft_prepared f) = true).
  { pose proof HF as H. apply fit_forecaster_inv in H. destruct H as (s & ys & p & m & post & _ & HY & HD & _ & ->). cbn [ft_prepared]. unfold fit_data in HD. rewrite Hc in HD. apply hierarchical_fit_inv in HD.
    destruct HD as (yb & tens & XB & Z1 & X3 & ob2 & t1 & t & td0 & data0 & _ & _ & HB & HQ & HEX & _). rewrite (given_trained keep _ _ _ _ _ _ HY GT) in HB. injection HB as <-. rewrite RT in HQ. injection HQ as _ <-. rewrite HEX. unfold no_columns. now destruct (f_cols Zt). }
  destruct (predict_transformed ns_of keep tr_transform _ _ _ _ _ _ _ _ _ P1 Hc HC H1) as (Xa & Xa' & Ea & td1 & d1 & HB1 & HU1 & T1 & D1 & ->). destruct (predict_transformed ns_of keep tr_transform _ _ _ _ _ _ _ _ _ P2 Hc HC H2) as (Xb & Xb' & Eb & td2 & d2 & HB2 & HU2 & T2 & D2 & ->).
  rewrite (given_predicted keep _ _ _ _ N1 O1 G1) in HB1. rewrite (given_predicted keep _ _ _ _ N2 O2 G2) in HB2. injection HB1 as <-. injection HB2 as <-. rewrite HE in HU1, HU2.
  destruct HU1 as (R1' & ex & ex' & E & E1). destruct HU2 as (R2' & ex2 & ex2' & E' & E2). rewrite R1 in R1'. injection R1' as <-. rewrite R2 in R2'. injection R2' as <-. rewrite E in E'. injection E' as <-.
  pose proof (agree_unchanged Xt1 Xt2 SF) as AG. set (cell := unchanged (series_of Xt1) Xt1 Xt2) in *. set (ids := series_of Xt1) in *. destruct SF as (_ & EB & _).
  pose proof (AlignForecaster.expand_transform_wf _ _ _ _ _ _ W1 E1) as WE1. pose proof (AlignForecaster.expand_transform_wf _ _ _ _ _ _ W2 E2) as WE2.
  pose proof (expand_transform_labels _ _ _ _ _ _ E1) as [L1 V1]. pose proof (expand_transform_labels _ _ _ _ _ _ E2) as [L2 V2].
  assert (IDS : f_levels Xt1 <> 0 -> series_ids Xt1 = series_ids Xt2) by (now apply (agree_ids cell ids)).
  assert (EE : f_cols Ea = f_cols Eb).
  { pose proof (agree_expand (fun _ _ => false) ex Xt1 Xt2 Ea Eb ex' ex2') as G.
    assert (K : pick (fun _ _ => false) Xt1 = pick (fun _ _ => false) Xt2).
    { destruct AG as (_ & _ & LV' & _). unfold pick, filter_rows. rewrite LV', EB. f_equal. clear. induction (f_rows Xt1) as [|? ? IH]; [|exact IH]. cbn. induction (f_rows Xt2) as [|? ? IH]; [reflexivity|exact IH]. }
    specialize (G K IDS E1 E2). exact (f_equal f_cols G). }
  apply (hierarchical_core ns_of order keep tr_fit_transform svi_run nuts_run latent_sites ts1 ts2 cell ids N1 N2 O1 O2 c ob y X0 ob' f e Ea Eb); auto; try (now apply (covers_same Xt1)) || (now apply (covers_same Xt2)).
  apply (agree_derived cell ids Xt1 Xt2); auto. intros p t Q. exact (agree_expand _ ex Xt1 Xt2 Ea Eb ex' ex2' Q IDS E1 E2).
Qed.
End Final.
