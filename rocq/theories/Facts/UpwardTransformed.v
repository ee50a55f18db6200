(** Raised inputs: forecasts of panels with a feature transformer, or without inputs. *)
From Coq Require Import Reals Lra ZArith String Ascii Bool List Lia Permutation.
From Verif.Model Require Import Base Num XFloat Frame Arr Prog Effect Expand Trend TrendProg Aggregate Scale Engine Forecaster.
From Verif.Spec Require Import RegexSpec FrameSpec ProgSpec EffectSpec ForecasterSpec SiteSpec ShapeSpec AlignSpec OverlapSpec ResponseSpec ObservedSpec ComponentSpec UpwardSpec.
From Verif.Facts Require Import BaseFacts FrameFacts NumFacts ArrFacts ProgFacts EffectFacts EffectPredict EffectFourier AlignFacts AlignForecaster ExpandFacts ForecasterFacts ForecasterInv ForecasterProps ModelProps TotalFacts HorizonFacts OverlapFacts OverlapFrames OverlapForecaster SiteFacts ComponentFacts PosteriorFacts OverlapNone CompleteFacts OrderFacts DensityFacts DocsForecaster ResponseFacts ResponseEffects ResponseForecaster ResponsePanel ResponseRead ResponseHierarchical ObservedForecaster UpwardFacts UpwardForecaster UpwardPanel.
From Verif.Facts Require CellForecaster InsampleFacts ShapeFacts FrameProps PredictFacts.
Import ListNotations.
Local Open Scope string_scope.

Section Any.
Variable ns_of : Z -> Z.
Variable order : list string -> list string.
Variable Order : forall l, Permutation (order l) l.
Variable keep : path -> bool.
Context {TS : Type}.
Variable tr_fit_transform : TS -> frame R -> TS * res (frame R).
Variable tr_transform : TS -> frame R -> res (frame R).
Context {P : Type}.
Variable svi_run : Z -> nat -> nat -> prog arr -> res (list xr * P).
Variable nuts_run : Z -> nat -> nat -> nat -> prog arr -> res (nat -> nat -> env).
Variable latent_sites : prog arr -> list string.
Notation fit_forecaster := (fit_forecaster ns_of order keep tr_fit_transform svi_run nuts_run latent_sites).
Notation predict_model := (predict_model ns_of keep tr_transform).

Section Fitted.
Variables (c : config) (ob ob' : objects (TS := TS)) (y : frame R) (X0 : option (frame R)) (f : fitted (P := P)).
Hypothesis HF : fit_forecaster c ob y X0 = (ob', Ok f).
Hypothesis Hc : c_hier c = true.
Hypothesis L : f_levels y <> 0.
Hypothesis Wy : frame_wf y.
Hypothesis NT : forall r, In r (f_rows y) -> ~ In "__total" (r_path r).
Hypothesis HC : clean_config c.
Hypothesis SP : scalar_piecewise (o_trend ob').
Variables (B0 Zt : frame R) (ob1 : objects (TS := TS)).
Hypotheses (GT : given_training X0 y B0) (RF : run_fit_transform tr_fit_transform ob B0 = (ob1, Ok Zt)).
Hypotheses (WZ : frame_wf Zt) (LZ : f_levels Zt <> 0) (NR : f_rows Zt <> []) (NZ : f_cols Zt <> []).
Variable shared : list string.
Hypothesis SH : (match c_shared c with None => [] | Some l => l end) = shared.
Hypothesis CP : copyable shared (f_cols Zt) (series_ids Zt).

(** what the fit stored *)
Lemma fitted_transformed : exists (Ut : frame R) s0 ex, frame_wf Ut /\ f_levels Ut <> 0 /\ f_rows Ut <> [] /\ NoDup (map (String.concat "-") (series_ids Ut)) /\ series_ids Ut = series_ids Zt /\
  fit_effects order (c_default c) (effects_of c) (Some Ut) s0 = Ok (p_fitted (ft_prepared f)) /\ non_skipped (p_fitted (ft_prepared f)) = Ok (p_effects (ft_prepared f)) /\
  p_has_exogenous (ft_prepared f) = true /\ p_expander (ft_prepared f) = Some ex /\
  ex_skip ex = false /\ NoDup (ex_matched ex) /\ (forall col, In col (ex_matched ex) <-> In col (f_cols Zt) /\ ~ In col shared) /\
  (forall p t0, first_date (dates Zt p) t0 -> first_date (dates_of Ut p) t0).
Proof.
  pose proof HF as HF'. apply fit_forecaster_inv in HF'. destruct HF' as (s & ys & p & m0 & post & _ & HSY & HD & _ & EFt). unfold fit_data in HD. rewrite Hc in HD. apply hierarchical_fit_inv in HD.
  destruct HD as (yb & tensor & B0' & B1 & Ut & ob1' & t00 & t & td0 & data0 & _ & _ & HB0 & HRF & HEX & HIF & _ & _ & EOB & _ & HFE & _ & HNS & _). assert (EP : ft_prepared f = p) by (rewrite EFt; reflexivity).
  rewrite (given_trained _ _ _ _ _ _ _ HSY GT) in HB0. injection HB0 as <-. rewrite RF in HRF. injection HRF as <- <-.
  assert (NCB : no_columns Zt = false) by (unfold no_columns; destruct (f_cols Zt); [congruence|reflexivity]). rewrite HEX, NCB in HIF. cbn [negb] in HIF. destruct HIF as (ex & EXB & EPX). rewrite SH in EXB.
  destruct (expand_bottom_state order Order shared Zt Ut ex (series_ids Zt) EXB LZ CP) as (SK & NDM & MIN).
  pose proof EXB as EXB'. unfold expand_bottom in EXB'. destruct (expand_fit _ _ Zt) as [eb|]; [|discriminate]. cbn [bind] in EXB'.
  pose proof (expand_transform_wf _ _ _ _ _ _ WZ EXB') as WUt. pose proof (expand_transform_labels _ _ _ _ _ _ EXB') as [LBT LVT].
  assert (SUt : series_ids Ut = series_ids Zt) by (apply series_ids_labels; exact LBT).
  exists Ut, (scale_number s), ex. split; [exact WUt|]. split; [congruence|].
  split; [intros Q; unfold labels in LBT; rewrite Q in LBT; destruct (f_rows Zt); [congruence|discriminate]|].
  split; [rewrite SUt; eapply joins_distinct; [exact NZ|apply paths_unique_NoDup|exact CP]|]. split; [exact SUt|]. rewrite EP. split; [exact HFE|]. split; [exact HNS|].
  split; [rewrite HEX, NCB; reflexivity|]. split; [exact EPX|]. split; [exact SK|]. split; [exact NDM|]. split; [intros col; apply MIN|]. intros q t0 FD. rewrite (dates_labels _ _ q LBT), dates_same. exact FD.
Qed.

(** what a forecast prepares *)
Lemma forecast_transformed (Ut : frame R) ex : series_ids Ut = series_ids Zt -> p_has_exogenous (ft_prepared f) = true -> p_expander (ft_prepared f) = Some ex ->
  ex_skip ex = false -> NoDup (ex_matched ex) -> (forall col, In col (ex_matched ex) <-> In col (f_cols Zt) /\ ~ In col shared) ->
  forall y2 G fh m cutoff ts B X2, predict_model c ob' f y2 G fh = Ok m -> max_time (map snd (p_index (ft_prepared f))) = Ok cutoff -> to_absolute cutoff fh = ts ->
  given_forecast G y2 ts B -> run_transform tr_transform ob' B = Ok X2 ->
  frame_wf X2 -> f_levels X2 <> 0 -> f_cols X2 = f_cols Zt -> series_ids X2 = series_ids Zt -> covers X2 ts -> ts <> [] -> in_order ts ->
  exists (U : frame R) td data, m = model_call c (ft_scale f) (ft_prepared f) (o_trend ob') td None (Some data) /\ frame_wf U /\ f_levels U <> 0 /\ covers U ts /\ series_ids U = series_ids Ut /\
    trend_transform ns_of (o_trend ob') U ts = Ok td /\ transform_effects (p_fitted (ft_prepared f)) U ts = Ok data /\
    forall r, In r (f_rows X2) -> exists r', In r' (f_rows U) /\ r_path r' = r_path r /\ r_time r' = r_time r /\
      forall cols x, values_at U r' cols x -> Forall2 (seen shared (series_ids X2) X2 r) cols x.
Proof.
  intros SUt HEX EPX SK NDM MIN y2 G fh m cutoff ts B X2 Hm Hcut Hts GB RX WX LX CX BX CV N O.
  destruct (predict_transformed _ _ _ _ _ _ _ _ _ _ _ _ Hm Hc Hcut Hts) as (Xb & Xt & Xe & td & data & HB & HU & TD & TE & EM).
  rewrite (given_predicted _ _ _ _ _ N O GB) in HB. injection HB as <-.
  rewrite HEX in HU. destruct HU as (RT & ex0 & ex' & EX0 & EXT). rewrite RX in RT. injection RT as <-. rewrite EPX in EX0. injection EX0 as <-.
  pose proof (expand_transform_wf _ _ _ _ _ _ WX EXT) as WU. pose proof (expand_transform_labels _ _ _ _ _ _ EXT) as [LBU LVU].
  exists Xe, td, data. split; [exact EM|]. split; [exact WU|]. split; [congruence|]. split; [apply (covers_same X2); auto|].
  split; [rewrite (series_ids_labels _ _ LBU); congruence|]. split; [exact TD|]. split; [exact TE|]. intros r Hr.
  pose proof (expanded_seen shared X2 Xe ex ex' WX LX ltac:(rewrite CX, BX; exact CP) SK NDM ltac:(intros q; rewrite CX; apply MIN) EXT) as ES. apply Forall2_In_both in ES. destruct (proj1 ES _ Hr) as (r' & Hr' & P' & T' & V').
  exists r'. do 3 (split; [assumption|]). intros cols x VX.
  unfold values_at in VX. revert x VX. induction cols as [|col cols IH]; intros [|u x] VX; try discriminate; constructor; [|apply IH; now injection VX]. injection VX as VX _. now apply V' in VX.
Qed.

Section Pair.
Variables (y1 y2 : frame R) (given1 given2 : option (frame R)) (below1 below2 X1 X2 : frame R) (fh1 fh2 : horizon) (m1 m2 : prog arr) (cutoff : Z) (ts1 ts2 : list Z).
Hypotheses (M1 : predict_model c ob' f y1 given1 fh1 = Ok m1) (M2 : predict_model c ob' f y2 given2 fh2 = Ok m2).
Hypotheses (KC : max_time (map snd (p_index (ft_prepared f))) = Ok cutoff).
Hypotheses (H1 : to_absolute cutoff fh1 = ts1) (H2 : to_absolute cutoff fh2 = ts2).
Hypotheses (GA1 : given_forecast given1 y1 ts1 below1) (GA2 : given_forecast given2 y2 ts2 below2) (RX1 : run_transform tr_transform ob' below1 = Ok X1) (RX2 : run_transform tr_transform ob' below2 = Ok X2).
Hypotheses (W1 : frame_wf X1) (W2 : frame_wf X2) (L1 : f_levels X1 <> 0) (L2 : f_levels X2 <> 0) (Q1 : f_cols X1 = f_cols Zt) (Q2 : f_cols X2 = f_cols Zt).
Hypotheses (B1 : series_ids X1 = series_ids Zt) (B2 : series_ids X2 = series_ids Zt) (C1 : covers X1 ts1) (C2 : covers X2 ts2).
Hypotheses (O1 : in_order ts1) (O2 : in_order ts2).
Variables (e : env) (o1 o2 : arr) (tr1 tr2 : trace).
Hypotheses (R1 : run e [] m1 = Ok (o1, tr1)) (R2 : run e [] m2 = Ok (o2, tr2)).
Variables (i : nat) (t : Z) (j1 j2 : nat) (r1 r2 : row R).
Hypothesis (Hi : (i < List.length (series_ids y))%nat).
Hypotheses (J1 : nth_error ts1 j1 = Some t) (J2 : nth_error ts2 j2 = Some t) (I1 : In r1 (f_rows X1)) (I2 : In r2 (f_rows X2)) (D1 : r_time r1 = t) (D2 : r_time r2 = t).
Hypotheses (P1 : nth_error (series_ids Zt) i = Some (r_path r1)) (P2 : nth_error (series_ids Zt) i = Some (r_path r2)).

Lemma c118_transformed :
  (forall name ef ef0 cols trend x1 x2, In (name, ef, cols) (p_fitted (ft_prepared f)) -> configured c name ef0 -> component_at tr1 "trend" (i * List.length ts1 + j1) trend ->
     Forall2 (seen shared (series_ids X1) X1 r1) cols x1 -> Forall2 (seen shared (series_ids X2) X2 r2) cols x2 -> raises e name trend ef0 x1 x2) ->
  (exists trend, component_at tr1 "trend" (i * List.length ts1 + j1) trend /\ component_at tr2 "trend" (i * List.length ts2 + j2) trend) /\
  (forall name, In name (map fst (p_effects (ft_prepared f))) -> exists v1 v2, component_at tr1 name (i * List.length ts1 + j1) v1 /\ component_at tr2 name (i * List.length ts2 + j2) v2 /\ (v1 <= v2)%R) /\
  exists x1 x2, (x1 <= x2)%R /\
    (List.length (series_ids y) = 1 -> expected tr1 j1 x1 /\ expected tr2 j2 x2) /\
    (List.length (series_ids y) <> 1 -> expected_at tr1 i j1 x1 /\ expected_at tr2 i j2 x2).
Proof.
  intros HR. assert (N1 : ts1 <> []) by (intros E; rewrite E in J1; destruct j1; discriminate). assert (N2 : ts2 <> []) by (intros E; rewrite E in J2; destruct j2; discriminate).
  destruct fitted_transformed as (Ut & s0 & ex & WUt & LUt & NRU & NDJ & SUt & HFE & HNS & HEX & EPX & SK & NDM & MIN & _).
  destruct (forecast_transformed Ut ex SUt HEX EPX SK NDM MIN _ _ _ _ _ _ _ _ M1 KC H1 GA1 RX1 W1 L1 Q1 B1 C1 N1 O1) as (U1 & td1 & data1 & EM1 & WU1 & LU1 & CU1 & SU1 & TD1 & TE1 & SE1).
  destruct (forecast_transformed Ut ex SUt HEX EPX SK NDM MIN _ _ _ _ _ _ _ _ M2 KC H2 GA2 RX2 W2 L2 Q2 B2 C2 N2 O2) as (U2 & td2 & data2 & EM2 & WU2 & LU2 & CU2 & SU2 & TD2 & TE2 & SE2).
  pose proof R1 as R1'. pose proof R2 as R2'. rewrite EM1 in R1'. rewrite EM2 in R2'.
  destruct (panel_replies ns_of order Order keep tr_fit_transform svi_run nuts_run latent_sites c ob ob' y X0 f HF Hc L Wy NT HC SP Ut s0 WUt LUt NRU NDJ HFE HNS U1 ts1 td1 data1 WU1 LU1 CU1 SU1 N1 O1 TD1 TE1 _ _ _ R1') as (tv1 & lt1 & E1 & G1 & A1).
  destruct (panel_replies ns_of order Order keep tr_fit_transform svi_run nuts_run latent_sites c ob ob' y X0 f HF Hc L Wy NT HC SP Ut s0 WUt LUt NRU NDJ HFE HNS U2 ts2 td2 data2 WU2 LU2 CU2 SU2 N2 O2 TD2 TE2 _ _ _ R2') as (tv2 & lt2 & E2 & G2 & A2).
  destruct (panel_trend_common ns_of order keep tr_fit_transform svi_run nuts_run latent_sites c ob ob' y X0 f HF Hc L Wy NT SP _ _ _ _ _ _ _ _ _ _ _ O1 O2 TD1 TD2 E1 E2 _ _ _ _ Hi J1 J2) as (trend & V1 & V2).
  assert (TA : component_at tr1 "trend" (i * List.length ts1 + j1) trend) by (exists tv1; auto). assert (TB : component_at tr2 "trend" (i * List.length ts2 + j2) trend) by (exists tv2; auto).
  destruct (SE1 r1 I1) as (q1 & IQ1 & PQ1 & TQ1 & SQ1). destruct (SE2 r2 I2) as (q2 & IQ2 & PQ2 & TQ2 & SQ2).
  assert (CO : forall name, In name (map fst (p_effects (ft_prepared f))) -> exists v1 v2, component_at tr1 name (i * List.length ts1 + j1) v1 /\ component_at tr2 name (i * List.length ts2 + j2) v2 /\ (v1 <= v2)%R).
  { intros name I. apply in_map_iff in I as ((nm & ef) & <- & I). cbn [fst].
    destruct (A1 _ _ I) as (ef0 & cols & n1 & w1 & CF & OP & KN1 & IF & DG1 & F1). destruct (A2 _ _ I) as (ef0' & cols2 & n2 & w2 & _ & _ & KN2 & _ & DG2 & F2).
    pose proof (knows_panel_input _ _ _ _ KN1) as Q. rewrite (knows_panel_input _ _ _ _ KN2) in Q. injection Q as ->.
    destruct (F1 i j1 t q1) as (x1 & z1 & tk1 & v1 & VA1 & RD1 & NT1 & NV1 & RP1); [rewrite SUt, PQ1; exact P1|exact J1|exact IQ1|congruence|].
    destruct (F2 i j2 t q2) as (x2 & z2 & tk2 & v2 & VA2 & RD2 & NT2 & NV2 & RP2); [rewrite SUt, PQ2; exact P2|exact J2|exact IQ2|congruence|].
    rewrite V1 in NT1. injection NT1 as <-. rewrite V2 in NT2. injection NT2 as <-.
    exists v1, v2. split; [exists w1; auto|]. split; [exists w2; auto|].
    assert (IU : In (r_path q1) (series_ids Ut)) by (rewrite SUt, PQ1; now apply nth_error_In in P1). destruct (raises_panel_first Ut _ WUt IU) as (t0 & FD).
    refine (raises_panel e nm trend U1 U2 Ut cols n1 n2 ef0 ef q1 q2 x1 x2 z1 z2 v1 v2 i t0 OP _ _ _ _ FD KN1 KN2 VA1 VA2 RD1 RD2 RP1 RP2); [eapply HR; eauto|congruence|congruence|rewrite SUt, PQ1; exact P1]. }
  split; [eauto|]. split; [exact CO|].
  destruct (c105_panel_forecast _ _ _ _ _ _ _ _ _ _ _ _ _ _ HF HC Hc L Wy NT SP _ _ _ _ _ _ M1 KC H1 O1 _ _ _ _ R1 eq_refl) as (S1 & S1').
  destruct (c105_panel_forecast _ _ _ _ _ _ _ _ _ _ _ _ _ _ HF HC Hc L Wy NT SP _ _ _ _ _ _ M2 KC H2 O2 _ _ _ _ R2 eq_refl) as (S2 & S2').
  assert (JL1 : (j1 < List.length ts1)%nat) by (apply nth_error_Some; congruence). assert (JL2 : (j2 < List.length ts2)%nat) by (apply nth_error_Some; congruence).
  assert (LL : forall s1 s2, level tr1 (map fst (p_effects (ft_prepared f))) (i * List.length ts1 + j1) s1 -> level tr2 (map fst (p_effects (ft_prepared f))) (i * List.length ts2 + j2) s2 -> (s1 <= s2)%R).
  { intros s1 s2 LV1 LV2. refine (level_le _ _ _ _ _ _ _ LV1 LV2 _). intros n v1 v2 [<-|I] CA CB.
    - rewrite (component_unique _ _ _ _ _ CA TA), (component_unique _ _ _ _ _ CB TB). apply Rle_refl.
    - destruct (CO _ I) as (w1 & w2 & CA' & CB' & LE). now rewrite (component_unique _ _ _ _ _ CA CA'), (component_unique _ _ _ _ _ CB CB'). }
  destruct (Nat.eq_dec (List.length (series_ids y)) 1) as [E|E].
  - destruct (S1 E) as (_ & d1 & GO1 & LW1). destruct (S2 E) as (_ & d2 & GO2 & LW2). destruct (LW1 j1 JL1) as (s1 & LV1 & W1'). destruct (LW2 j2 JL2) as (s2 & LV2 & W2').
    assert (I0 : i = 0) by lia. rewrite I0 in *. cbn [Nat.mul Nat.add] in *. exists s1, s2. split; [now apply LL|]. split; [|congruence]. intros _. split.
    + exact (law_expected _ _ _ _ _ _ _ _ _ GO1 W1' ltac:(discriminate)).
    + exact (law_expected _ _ _ _ _ _ _ _ _ GO2 W2' ltac:(discriminate)).
  - destruct (S1' E) as (_ & d1 & sum1 & GO1 & LW1 & JL1'). destruct (S2' E) as (_ & d2 & sum2 & GO2 & LW2 & JL2'). exists (sum1 i j1), (sum2 i j2).
    split; [apply LL; [now apply LW1|now apply LW2]|]. split; [congruence|]. intros _. split; [exact (joint_expected _ _ _ _ _ _ _ _ _ _ GO1 JL1' Hi JL1)|exact (joint_expected _ _ _ _ _ _ _ _ _ _ GO2 JL2' Hi JL2)].
Qed.
End Pair.
End Fitted.
End Any.
