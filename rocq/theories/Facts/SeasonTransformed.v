(** Seasons: forecasts of panels a whole number of periods apart, with a feature transformer or without inputs. *)
From Coq Require Import Reals Lra ZArith String Ascii Bool List Lia Permutation.
From Verif.Model Require Import Base Num XFloat Frame Arr Prog Effect Expand Trend TrendProg Aggregate Scale Engine Forecaster.
From Verif.Spec Require Import RegexSpec FrameSpec ProgSpec EffectSpec ForecasterSpec SiteSpec ShapeSpec AlignSpec OverlapSpec ResponseSpec ObservedSpec ComponentSpec UpwardSpec SeasonSpec.
From Verif.Facts Require Import BaseFacts FrameFacts NumFacts ArrFacts ProgFacts EffectFacts EffectPredict EffectFourier AlignFacts AlignForecaster ExpandFacts ForecasterFacts ForecasterInv ForecasterProps ModelProps TotalFacts HorizonFacts OverlapFacts OverlapFrames OverlapForecaster SiteFacts ComponentFacts PosteriorFacts OverlapNone CompleteFacts OrderFacts DensityFacts DocsForecaster ResponseFacts ResponseEffects ResponseForecaster ResponsePanel ResponseRead ResponseHierarchical ObservedForecaster UpwardFacts UpwardForecaster UpwardPanel UpwardTransformed SeasonForecaster SeasonPanel.
From Verif.Facts Require CellForecaster InsampleFacts ShapeFacts FrameProps PredictFacts.
Import ListNotations.
Local Open Scope string_scope.

Section Any.
Variable ns_of : Z -> Z.
Variable order : list string -> list string.
Variable Order : forall l, Permutation (order l) l.
Variable keep : path -> bool.
Context {TS : Type}.
Variable tr_fit_transform : TS -> frame R -> TS * res (frame R).
Variable tr_transform : TS -> frame R -> res (frame R).
Context {P : Type}.
Variable svi_run : Z -> nat -> nat -> prog arr -> res (list xr * P).
Variable nuts_run : Z -> nat -> nat -> nat -> prog arr -> res (nat -> nat -> env).
Variable latent_sites : prog arr -> list string.
Notation fit_forecaster := (fit_forecaster ns_of order keep tr_fit_transform svi_run nuts_run latent_sites).
Notation predict_model := (predict_model ns_of keep tr_transform).

Section Fitted.
Variables (c : config) (ob ob' : objects (TS := TS)) (y : frame R) (X0 : option (frame R)) (f : fitted (P := P)).
Hypothesis HF : fit_forecaster c ob y X0 = (ob', Ok f).
Hypothesis Hc : c_hier c = true.
Hypothesis L : f_levels y <> 0.
Hypothesis Wy : frame_wf y.
Hypothesis NT : forall r, In r (f_rows y) -> ~ In "__total" (r_path r).
Hypothesis HC : clean_config c.
Hypothesis SP : scalar_piecewise (o_trend ob').
Variables (B0 Zt : frame R) (ob1 : objects (TS := TS)).
Hypotheses (GT : given_training X0 y B0) (RF : run_fit_transform tr_fit_transform ob B0 = (ob1, Ok Zt)).
Hypotheses (WZ : frame_wf Zt) (LZ : f_levels Zt <> 0) (NR : f_rows Zt <> []) (NZ : f_cols Zt <> []).
Variable shared : list string.
Hypothesis SH : (match c_shared c with None => [] | Some l => l end) = shared.
Hypothesis CP : copyable shared (f_cols Zt) (series_ids Zt).

Section Pair.
Variables (y1 y2 : frame R) (given1 given2 : option (frame R)) (below1 below2 X1 X2 : frame R) (fh1 fh2 : horizon) (m1 m2 : prog arr) (cutoff : Z) (ts1 ts2 : list Z).
Hypotheses (M1 : predict_model c ob' f y1 given1 fh1 = Ok m1) (M2 : predict_model c ob' f y2 given2 fh2 = Ok m2).
Hypotheses (KC : max_time (map snd (p_index (ft_prepared f))) = Ok cutoff).
Hypotheses (H1 : to_absolute cutoff fh1 = ts1) (H2 : to_absolute cutoff fh2 = ts2).
Hypotheses (GA1 : given_forecast given1 y1 ts1 below1) (GA2 : given_forecast given2 y2 ts2 below2) (RX1 : run_transform tr_transform ob' below1 = Ok X1) (RX2 : run_transform tr_transform ob' below2 = Ok X2).
Hypotheses (W1 : frame_wf X1) (W2 : frame_wf X2) (L1 : f_levels X1 <> 0) (L2 : f_levels X2 <> 0) (Q1 : f_cols X1 = f_cols Zt) (Q2 : f_cols X2 = f_cols Zt).
Hypotheses (B1 : series_ids X1 = series_ids Zt) (B2 : series_ids X2 = series_ids Zt) (C1 : covers X1 ts1) (C2 : covers X2 ts2).
Hypotheses (O1 : in_order ts1) (O2 : in_order ts2).
Variables (e : env) (o1 o2 : arr) (tr1 tr2 : trace).
Hypotheses (R1 : run e [] m1 = Ok (o1, tr1)) (R2 : run e [] m2 = Ok (o2, tr2)).
Variables (i : nat) (p t1 t2 : Z) (j1 j2 : nat) (r1 r2 : row R).
Hypothesis (Hi : (i < List.length (series_ids y))%nat).
Hypotheses (J1 : nth_error ts1 j1 = Some t1) (J2 : nth_error ts2 j2 = Some t2) (I1 : In r1 (f_rows X1)) (I2 : In r2 (f_rows X2)) (D1 : r_time r1 = t1) (D2 : r_time r2 = t2).
Hypotheses (P1 : nth_error (series_ids Zt) i = Some (r_path r1)) (P2 : nth_error (series_ids Zt) i = Some (r_path r2)).

Hypothesis PD : t2 = (t1 + p)%Z.
Definition unchanged_transformed name : Prop := forall ef ef0 cols x1 x2, In (name, ef, cols) (p_fitted (ft_prepared f)) -> configured c name ef0 ->
  Forall2 (seen shared (series_ids X1) X1 r1) cols x1 -> Forall2 (seen shared (series_ids X2) X2 r2) cols x2 -> recurs p ef0 x1 x2.
Notation k1 := (i * List.length ts1 + j1).
Notation k2 := (i * List.length ts2 + j2).

Lemma c120_transformed : exists trend1 trend2, component_at tr1 "trend" k1 trend1 /\ component_at tr2 "trend" k2 trend2 /\
  (forall name, In name (map fst (p_effects (ft_prepared f))) -> unchanged_transformed name ->
    exists ef0 m u, configured c name ef0 /\ effect_mode ef0 m /\ component_at tr1 name k1 (modal m trend1 u) /\ component_at tr2 name k2 (modal m trend2 u)) /\
  ((forall name, In name (map fst (p_effects (ft_prepared f))) -> unchanged_transformed name) ->
    exists x1 x2, (List.length (series_ids y) = 1 -> expected tr1 j1 x1 /\ expected tr2 j2 x2) /\ (List.length (series_ids y) <> 1 -> expected_at tr1 i j1 x1 /\ expected_at tr2 i j2 x2) /\ (trend1 = trend2 -> x1 = x2) /\
    ((forall name ef0, In name (map fst (p_effects (ft_prepared f))) -> configured c name ef0 -> effect_mode ef0 Additive) -> (x2 - x1 = trend2 - trend1)%R)).
Proof.
  assert (N1 : ts1 <> []) by (intros E; rewrite E in J1; destruct j1; discriminate). assert (N2 : ts2 <> []) by (intros E; rewrite E in J2; destruct j2; discriminate).
  destruct (fitted_transformed ns_of order Order keep tr_fit_transform svi_run nuts_run latent_sites c ob ob' y X0 f HF Hc B0 Zt ob1 GT RF WZ LZ NR NZ shared SH CP) as (Ut & s0 & ex & WUt & LUt & NRU & NDJ & SUt & HFE & HNS & HEX & EPX & SK & NDM & MIN & _).
  destruct (forecast_transformed ns_of keep tr_transform c ob' f Hc Zt shared CP Ut ex SUt HEX EPX SK NDM MIN _ _ _ _ _ _ _ _ M1 KC H1 GA1 RX1 W1 L1 Q1 B1 C1 N1 O1) as (U1 & td1 & data1 & EM1 & WU1 & LU1 & CU1 & SU1 & TD1 & TE1 & SE1).
  destruct (forecast_transformed ns_of keep tr_transform c ob' f Hc Zt shared CP Ut ex SUt HEX EPX SK NDM MIN _ _ _ _ _ _ _ _ M2 KC H2 GA2 RX2 W2 L2 Q2 B2 C2 N2 O2) as (U2 & td2 & data2 & EM2 & WU2 & LU2 & CU2 & SU2 & TD2 & TE2 & SE2).
  pose proof R1 as R1'. pose proof R2 as R2'. rewrite EM1 in R1'. rewrite EM2 in R2'.
  destruct (panel_replies ns_of order Order keep tr_fit_transform svi_run nuts_run latent_sites c ob ob' y X0 f HF Hc L Wy NT HC SP Ut s0 WUt LUt NRU NDJ HFE HNS U1 ts1 td1 data1 WU1 LU1 CU1 SU1 N1 O1 TD1 TE1 _ _ _ R1') as (tv1 & lt1 & E1 & G1 & A1).
  destruct (panel_replies ns_of order Order keep tr_fit_transform svi_run nuts_run latent_sites c ob ob' y X0 f HF Hc L Wy NT HC SP Ut s0 WUt LUt NRU NDJ HFE HNS U2 ts2 td2 data2 WU2 LU2 CU2 SU2 N2 O2 TD2 TE2 _ _ _ R2') as (tv2 & lt2 & E2 & G2 & A2).
  destruct (panel_trend_common ns_of order keep tr_fit_transform svi_run nuts_run latent_sites c ob ob' y X0 f HF Hc L Wy NT SP _ _ _ _ _ _ _ _ _ _ _ O1 O1 TD1 TD1 E1 E1 _ _ _ _ Hi J1 J1) as (trend1 & V1 & _).
  destruct (panel_trend_common ns_of order keep tr_fit_transform svi_run nuts_run latent_sites c ob ob' y X0 f HF Hc L Wy NT SP _ _ _ _ _ _ _ _ _ _ _ O2 O2 TD2 TD2 E2 E2 _ _ _ _ Hi J2 J2) as (trend2 & V2 & _).
  assert (TA : component_at tr1 "trend" k1 trend1) by (exists tv1; auto). assert (TB : component_at tr2 "trend" k2 trend2) by (exists tv2; auto).
  destruct (SE1 r1 I1) as (q1 & IQ1 & PQ1 & TQ1 & SQ1). destruct (SE2 r2 I2) as (q2 & IQ2 & PQ2 & TQ2 & SQ2).
  assert (CO : forall name, In name (map fst (p_effects (ft_prepared f))) -> unchanged_transformed name ->
    exists ef0 m u, configured c name ef0 /\ effect_mode ef0 m /\ component_at tr1 name k1 (modal m trend1 u) /\ component_at tr2 name k2 (modal m trend2 u)).
  { intros name I UN. apply in_map_iff in I as ((nm & ef) & <- & I). cbn [fst] in *.
    destruct (A1 _ _ I) as (ef0 & cols & n1 & w1 & CF & OP & KN1 & IF & DG1 & F1). destruct (A2 _ _ I) as (ef0' & cols2 & n2 & w2 & _ & _ & KN2 & _ & DG2 & F2).
    pose proof (knows_panel_input _ _ _ _ KN1) as Q. rewrite (knows_panel_input _ _ _ _ KN2) in Q. injection Q as ->.
    destruct (F1 i j1 t1 q1) as (x1 & z1 & tk1 & v1 & VA1 & RD1 & NT1 & NV1 & RP1); [rewrite SUt, PQ1; exact P1|exact J1|exact IQ1|congruence|].
    destruct (F2 i j2 t2 q2) as (x2 & z2 & tk2 & v2 & VA2 & RD2 & NT2 & NV2 & RP2); [rewrite SUt, PQ2; exact P2|exact J2|exact IQ2|congruence|].
    rewrite V1 in NT1. injection NT1 as <-. rewrite V2 in NT2. injection NT2 as <-.
    assert (IU : In (r_path q1) (series_ids Ut)) by (rewrite SUt, PQ1; now apply nth_error_In in P1). destruct (raises_panel_first Ut _ WUt IU) as (t0 & FD).
    destruct (recurs_panel (own_env e nm) U1 U2 Ut cols n1 n2 p ef0 ef q1 q2 x1 x2 z1 z2 trend1 trend2 v1 v2 i t0 OP ltac:(eapply UN; eauto) ltac:(congruence) ltac:(congruence) ltac:(rewrite SUt, PQ1; exact P1) FD KN1 KN2 VA1 VA2 RD1 RD2 RP1 RP2) as (m & u & MO & -> & ->).
    exists ef0, m, u. split; [exact CF|]. split; [exact MO|]. split; [exists w1; auto|exists w2; auto]. }
  exists trend1, trend2. split; [exact TA|]. split; [exact TB|]. split; [exact CO|]. intros UN.
  destruct (c105_panel_forecast _ _ _ _ _ _ _ _ _ _ _ _ _ _ HF HC Hc L Wy NT SP _ _ _ _ _ _ M1 KC H1 O1 _ _ _ _ R1 eq_refl) as (S1 & S1').
  destruct (c105_panel_forecast _ _ _ _ _ _ _ _ _ _ _ _ _ _ HF HC Hc L Wy NT SP _ _ _ _ _ _ M2 KC H2 O2 _ _ _ _ R2 eq_refl) as (S2 & S2').
  assert (JL1 : (j1 < List.length ts1)%nat) by (apply nth_error_Some; congruence). assert (JL2 : (j2 < List.length ts2)%nat) by (apply nth_error_Some; congruence).
  assert (LL : forall s1 s2, level tr1 (map fst (p_effects (ft_prepared f))) k1 s1 -> level tr2 (map fst (p_effects (ft_prepared f))) k2 s2 ->
    (trend1 = trend2 -> s1 = s2) /\ ((forall name ef0, In name (map fst (p_effects (ft_prepared f))) -> configured c name ef0 -> effect_mode ef0 Additive) -> (s2 - s1 = trend2 - trend1)%R)).
  { intros s1 s2 LV1 LV2. split.
    - intros E. enough (s2 - s1 = 0)%R by lra. rewrite (level_trend _ _ _ _ _ _ _ _ _ LV1 LV2 TA TB); [lra|]. intros n I. destruct (CO n I (UN n I)) as (ef0 & m & u & _ & _ & CA & CB). rewrite E in CA. eauto.
    - intros AD. apply (level_trend _ _ _ _ _ _ _ _ _ LV1 LV2 TA TB). intros n I. destruct (CO n I (UN n I)) as (ef0 & m & u & CF & MO & CA & CB). rewrite (effect_mode_unique _ _ _ MO (AD _ _ I CF)) in CA, CB. exists u. auto. }
  destruct (Nat.eq_dec (List.length (series_ids y)) 1) as [E|E].
  - destruct (S1 E) as (_ & d1 & GO1 & LW1). destruct (S2 E) as (_ & d2 & GO2 & LW2). destruct (LW1 j1 JL1) as (s1 & LV1 & W1'). destruct (LW2 j2 JL2) as (s2 & LV2 & W2').
    assert (I0 : i = 0) by lia. rewrite I0 in *. cbn [Nat.mul Nat.add] in *. exists s1, s2. split; [|split; [congruence|now apply LL]]. intros _. split.
    + exact (law_expected _ _ _ _ _ _ _ _ _ GO1 W1' ltac:(discriminate)).
    + exact (law_expected _ _ _ _ _ _ _ _ _ GO2 W2' ltac:(discriminate)).
  - destruct (S1' E) as (_ & d1 & sum1 & GO1 & LW1 & JL1'). destruct (S2' E) as (_ & d2 & sum2 & GO2 & LW2 & JL2'). exists (sum1 i j1), (sum2 i j2).
    split; [congruence|]. split; [|apply LL; [now apply LW1|now apply LW2]]. intros _. split; [exact (joint_expected _ _ _ _ _ _ _ _ _ _ GO1 JL1' Hi JL1)|exact (joint_expected _ _ _ _ _ _ _ _ _ _ GO2 JL2' Hi JL2)].
Qed.
End Pair.
End Fitted.
End Any.
