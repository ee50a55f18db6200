(** The same dates in different horizons: panels with a feature transformer. *)
From Coq Require Import Reals Lra ZArith String Ascii Bool List Lia Sorted Permutation.
From Verif.Model Require Import Base Num XFloat Frame Arr Prog Likelihood Effect Trend TrendProg Aggregate Scale Expand Engine Forecaster.
From Verif.Spec Require Import FrameSpec ProgSpec EffectSpec AlignSpec ShapeSpec ForecasterSpec SiteSpec ResponseSpec OverlapSpec.
From Verif.Facts Require Import BaseFacts FrameFacts ModelProps ForecasterFacts ForecasterInv ForecasterProps AlignFacts OverlapFacts OverlapFrames OverlapTrend OverlapModel OverlapForecaster ResponseHierarchical.
Import ListNotations.
Local Open Scope string_scope.

Section Final.
Variable ns_of : Z -> Z.
Variable order : list string -> list string.
Variable keep : path -> bool.
Context {TS : Type}.
Variable tr_fit_transform : TS -> frame R -> TS * res (frame R).
Variable tr_transform : TS -> frame R -> res (frame R).
Context {P : Type}.
Variable svi_run : Z -> nat -> nat -> prog arr -> res (list xr * P).
Variable nuts_run : Z -> nat -> nat -> nat -> prog arr -> res (nat -> nat -> env).
Variable latent_sites : prog arr -> list string.
Notation fit_forecaster := (fit_forecaster ns_of order keep tr_fit_transform svi_run nuts_run latent_sites).
Notation predict_model := (predict_model ns_of keep tr_transform).

Lemma c102_transformed : forall ts1 ts2, ts1 <> [] -> ts2 <> [] -> in_order ts1 -> in_order ts2 ->
  forall c ob y X0 ob' (f : fitted (P := P)), fit_forecaster c ob y X0 = (ob', Ok f) -> c_hier c = true -> f_levels y <> 0 -> frame_wf y ->
  (forall r, In r (f_rows y) -> ~ In "__total" (r_path r)) -> scalar_piecewise (o_trend ob') ->
  forall B0 ob1 Zt, given_training X0 y B0 -> run_fit_transform tr_fit_transform ob B0 = (ob1, Ok Zt) -> f_levels Zt <> 0 ->
  forall y2 cutoff fh1 fh2, max_time (map snd (p_index (ft_prepared f))) = Ok cutoff -> to_absolute cutoff fh1 = ts1 -> to_absolute cutoff fh2 = ts2 ->
  forall X B Xt, with_columns X B -> (f_cols Zt <> [] -> run_transform tr_transform ob' B = Ok Xt) -> (f_cols Zt = [] -> Xt = B) ->
  covers Xt ts1 -> covers Xt ts2 -> frame_wf Xt ->
  forall e m1 m2 o1 tr1 o2 tr2, predict_model c ob' f y2 X fh1 = Ok m1 -> predict_model c ob' f y2 X fh2 = Ok m2 ->
  run e [] m1 = Ok (o1, tr1) -> run e [] m2 = Ok (o2, tr2) -> same_overlap (List.length (series_ids y)) ts1 ts2 tr1 tr2.
Proof.
  intros ts1 ts2 N1 N2 O1 O2 c ob y X0 ob' f HF Hc L W NT TT B0 ob1 Zt GT RT LZ y2 cutoff fh1 fh2 HC H1 H2 X B Xt GB RX RB C1 C2 W1 e m1 m2 o1 tr1 o2 tr2 P1 P2. apply related_runs.
  assert (SM : forall g, In g (p_fitted (ft_prepared f)) -> supports_multivariate (fe_effect g) = true).
  { apply (hierarchical_supports ns_of order keep tr_fit_transform svi_run nuts_run latent_sites c ob y X0 ob' f HF Hc L).
    intros s ys XB ob2 Z1 HS HB HQ. rewrite (given_trained keep _ _ _ _ _ _ HS GT) in HB. injection HB as <-. rewrite RT in HQ. injection HQ as _ <-. exact LZ. }
  assert (HE : p_has_exogenous (ft_prepared f) = negb (no_columns Zt)).
  { pose proof HF as H. apply fit_forecaster_inv in H. destruct H as (s & ys & p & m & post & _ & HY & HD & _ & ->). cbn [ft_prepared]. unfold fit_data in HD. rewrite Hc in HD. apply hierarchical_fit_inv in HD.
    destruct HD as (yb & tens & XB & Z1 & X3 & ob2 & t1 & t & td0 & data0 & _ & _ & HB & HQ & HEX & _). rewrite (given_trained keep _ _ _ _ _ _ HY GT) in HB. injection HB as <-. rewrite RT in HQ. injection HQ as _ <-. exact HEX. }
  destruct (predict_transformed ns_of keep tr_transform _ _ _ _ _ _ _ _ _ P1 Hc HC H1) as (Xa & Xa' & Ea & td1 & d1 & HB1 & HU1 & T1 & D1 & ->). destruct (predict_transformed ns_of keep tr_transform _ _ _ _ _ _ _ _ _ P2 Hc HC H2) as (Xb & Xb' & Eb & td2 & d2 & HB2 & HU2 & T2 & D2 & ->).
  rewrite (given_predicted keep _ _ _ _ N1 O1 (or_introl GB)) in HB1. rewrite (given_predicted keep _ _ _ _ N2 O2 (or_introl GB)) in HB2. injection HB1 as <-. injection HB2 as <-. rewrite HE in HU1, HU2. unfold no_columns in HU1, HU2.
  assert (EE : Ea = Eb /\ frame_wf Ea /\ covers Ea ts1 /\ covers Ea ts2).
  { destruct (f_cols Zt); cbn [negb] in HU1, HU2; [rewrite (RB eq_refl) in *; subst; auto|]. specialize (RX ltac:(discriminate)).
    destruct HU1 as (R1' & ex & ex' & E & E1). destruct HU2 as (R2' & ex2 & ex2' & E' & E2). rewrite RX in R1', R2'. injection R1' as <-. injection R2' as <-. rewrite E in E'. injection E' as <-. rewrite E1 in E2. injection E2 as <- _. split; [reflexivity|].
    split; [exact (AlignForecaster.expand_transform_wf _ _ _ _ _ _ W1 E1)|]. apply expand_transform_labels in E1 as [EL EV]. split; apply (covers_same Xt); auto. }
  destruct EE as (<- & WE & CE1 & CE2). now apply (hierarchical_core ns_of order keep tr_fit_transform svi_run nuts_run latent_sites ts1 ts2 N1 N2 O1 O2 c ob y X0 ob' f e Ea).
Qed.
End Final.
