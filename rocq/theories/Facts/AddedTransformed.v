(** Adding effects: forecasts of panels with a feature transformer, or without inputs. *)
From Coq Require Import Reals Lra ZArith String Ascii Bool List Lia Permutation Sorted.
From Verif.Model Require Import Base Num XFloat Regex Frame Arr Prog Effect Expand Trend TrendProg Aggregate Scale Engine Forecaster.
From Verif.Spec Require Import RegexSpec FrameSpec ProgSpec EffectSpec ForecasterSpec SiteSpec ShapeSpec AlignSpec OverlapSpec ResponseSpec ObservedSpec ComponentSpec TrendSpec DocsSpec UpwardSpec AddedSpec.
From Verif.Spec Require Import ResponseSpec.
From Verif.Facts Require Import BaseFacts FrameFacts NumFacts ArrFacts ProgFacts EffectFacts EffectPredict EffectFourier AlignFacts AlignForecaster ExpandFacts ForecasterFacts ForecasterInv ForecasterProps ModelProps TotalFacts HorizonFacts OverlapFacts OverlapFrames OverlapForecaster SiteFacts ComponentFacts PosteriorFacts OverlapNone CompleteFacts OrderFacts DensityFacts DocsTrend DocsForecaster ResponseFacts ResponseEffects ResponseForecaster ResponsePanel ResponseRead ResponseHierarchical ObservedForecaster UpwardFacts UpwardForecaster UpwardPanel UpwardTransformed SeasonForecaster AddedForecaster AddedPanel.
From Verif.Facts Require CellForecaster InsampleFacts ShapeFacts FrameProps PredictFacts.
Import ListNotations.
Local Open Scope string_scope.

Section Any.
Variable ns_of : Z -> Z.
Variable order : list string -> list string.
Variable Order : forall l, Permutation (order l) l.
Variable keep : path -> bool.
Context {TS : Type}.
Variable tr_fit_transform : TS -> frame R -> TS * res (frame R).
Variable tr_transform : TS -> frame R -> res (frame R).
Context {P : Type}.
Variable svi_run : Z -> nat -> nat -> prog arr -> res (list xr * P).
Variable nuts_run : Z -> nat -> nat -> nat -> prog arr -> res (nat -> nat -> env).
Variable latent_sites : prog arr -> list string.
Notation fit_forecaster := (fit_forecaster ns_of order keep tr_fit_transform svi_run nuts_run latent_sites).
Notation predict_model := (predict_model ns_of keep tr_transform).

Lemma c122_transformed : forall c1 c2 ob1 ob2 y1 y2 G1 G2 ob1' ob2' (f1 f2 : fitted (P := P)) ds iv rg lg, fit_forecaster c1 ob1 y1 G1 = (ob1', Ok f1) -> fit_forecaster c2 ob2 y2 G2 = (ob2', Ok f2) ->
  c_hier c1 = true -> c_hier c2 = true -> f_levels y1 <> 0 -> f_levels y2 <> 0 -> frame_wf y1 -> frame_wf y2 -> (forall r, In r (f_rows y1) \/ In r (f_rows y2) -> ~ In "__total" (r_path r)) -> clean_config c1 -> clean_config c2 ->
  balanced y1 -> balanced y2 -> List.length (series_ids y1) = List.length (series_ids y2) -> StronglySorted Z.lt ds -> (forall t, In t ds <-> In t (map r_time (f_rows y1))) -> (forall t, In t ds <-> In t (map r_time (f_rows y2))) ->
  increasing (map (fun t => day (ns_of t)) ds) -> piecewise_options (o_trend ob1') iv rg lg -> piecewise_options (o_trend ob2') iv rg lg -> (0 < iv)%R ->
  forall A1 A2 Z1 Z2 obt1 obt2, given_training G1 y1 A1 -> given_training G2 y2 A2 -> run_fit_transform tr_fit_transform ob1 A1 = (obt1, Ok Z1) -> run_fit_transform tr_fit_transform ob2 A2 = (obt2, Ok Z2) ->
  frame_wf Z1 -> frame_wf Z2 -> f_rows Z1 <> [] -> f_rows Z2 <> [] -> f_levels Z1 <> 0 -> f_levels Z2 <> 0 -> f_cols Z1 <> [] -> f_cols Z2 <> [] -> series_ids Z1 = series_ids Z2 ->
  forall shared1 shared2, (match c_shared c1 with None => [] | Some l => l end) = shared1 -> (match c_shared c2 with None => [] | Some l => l end) = shared2 ->
  copyable shared1 (f_cols Z1) (series_ids Z1) -> copyable shared2 (f_cols Z2) (series_ids Z2) ->
  forall z1 z2 Y1 Y2 fh1 fh2 m1 m2 cut1 cut2 ts1 ts2, predict_model c1 ob1' f1 z1 Y1 fh1 = Ok m1 -> predict_model c2 ob2' f2 z2 Y2 fh2 = Ok m2 ->
  max_time (map snd (p_index (ft_prepared f1))) = Ok cut1 -> max_time (map snd (p_index (ft_prepared f2))) = Ok cut2 -> to_absolute cut1 fh1 = ts1 -> to_absolute cut2 fh2 = ts2 ->
  forall V1 V2 X1 X2, given_forecast Y1 z1 ts1 V1 -> given_forecast Y2 z2 ts2 V2 -> run_transform tr_transform ob1' V1 = Ok X1 -> run_transform tr_transform ob2' V2 = Ok X2 ->
  frame_wf X1 -> frame_wf X2 -> f_levels X1 <> 0 -> f_levels X2 <> 0 -> f_cols X1 = f_cols Z1 -> f_cols X2 = f_cols Z2 -> series_ids X1 = series_ids Z1 -> series_ids X2 = series_ids Z2 -> covers X1 ts1 -> covers X2 ts2 -> in_order ts1 -> in_order ts2 ->
  forall e1 e2 o1 o2 tr1 tr2, run e1 [] m1 = Ok (o1, tr1) -> run e2 [] m2 = Ok (o2, tr2) -> same_trend_parameters e1 e2 ->
  forall i j1 j2 t t0 r1 r2 k1 k2, i < List.length (series_ids y1) -> nth_error ts1 j1 = Some t -> nth_error ts2 j2 = Some t -> In r1 (f_rows X1) -> In r2 (f_rows X2) -> r_time r1 = t -> r_time r2 = t ->
  nth_error (series_ids X1) i = Some (r_path r1) -> r_path r2 = r_path r1 -> first_date (dates Z1 (r_path r1)) t0 -> first_date (dates Z2 (r_path r1)) t0 -> i * List.length ts1 + j1 = k1 -> i * List.length ts2 + j2 = k2 ->
  forall names1 names2, map fst (p_effects (ft_prepared f1)) = names1 -> map fst (p_effects (ft_prepared f2)) = names2 ->
  let both := common c1 c2 (p_fitted (ft_prepared f1)) (p_fitted (ft_prepared f2)) (Forall2 (seen shared1 (series_ids X1) X1 r1)) (Forall2 (seen shared2 (series_ids X2) X2 r2)) e1 e2 in
  exists trend s1 s2, component_at tr1 "trend" k1 trend /\ component_at tr2 "trend" k2 trend /\ level tr1 names1 k1 s1 /\ level tr2 names2 k2 s2 /\
    (List.length (series_ids y1) = 1 -> expected tr1 j1 s1 /\ expected tr2 j2 s2) /\ (List.length (series_ids y1) <> 1 -> expected_at tr1 i j1 s1 /\ expected_at tr2 i j2 s2) /\
    (forall name, In name names1 -> In name names2 -> both name -> exists v, component_at tr1 name k1 v /\ component_at tr2 name k2 v) /\
    (forall extra, Permutation names2 (extra ++ names1) -> (forall name, In name names1 -> both name) ->
       exists vs, Forall2 (fun name v => component_at tr2 name k2 v) extra vs /\ s2 = (s1 + Rsum vs)%R).
Proof.
  intros c1 c2 ob1 ob2 y1 y2 G1 G2 ob1' ob2' f1 f2 ds iv rg lg HF1 HF2 Hc1 Hc2 L1 L2 Wy1 Wy2 NTO HC1 HC2 BA1 BA2 NS SD DS1 DS2 INC PA PB IV A1 A2 Z1 Z2 obt1 obt2 GT1 GT2 RF1 RF2 WZ1 WZ2 NR1 NR2 LZ1 LZ2 NZ1 NZ2 BZ shared1 shared2 SH1 SH2 CP1 CP2 z1 z2 Y1 Y2 fh1 fh2 m1 m2 cut1 cut2 ts1 ts2
    M1 M2 K1 K2 H1 H2 VB1 VB2 X1 X2 GA1 GA2 RX1 RX2 W1 W2 LX1 LX2 QX1 QX2 BX1 BX2 C1 C2 O1 O2 e1 e2 o1 o2 tr1 tr2 RU1 RU2 SE i j1 j2 t t0 r1 r2 k1 k2 Hi J1 J2 I1 I2 D1 D2 P1 P2 FD1 FD2 EK1 EK2 names1 names2 NM1 NM2 both.
  assert (NE1 : ts1 <> []) by (intros E; rewrite E in J1; destruct j1; discriminate). assert (NE2 : ts2 <> []) by (intros E; rewrite E in J2; destruct j2; discriminate).
  pose proof (options_scalar _ _ _ _ PA) as SP1. pose proof (options_scalar _ _ _ _ PB) as SP2.
  assert (NT1 : forall r, In r (f_rows y1) -> ~ In "__total" (r_path r)) by auto. assert (NT2 : forall r, In r (f_rows y2) -> ~ In "__total" (r_path r)) by auto.
  destruct (fitted_transformed ns_of order Order keep tr_fit_transform svi_run nuts_run latent_sites c1 ob1 ob1' y1 G1 f1 HF1 Hc1 A1 Z1 obt1 GT1 RF1 WZ1 LZ1 NR1 NZ1 shared1 SH1 CP1) as (Ut1 & s01 & ex1 & WUt1 & LUt1 & NRU1 & NDJ1 & SUt1 & HFE1 & HNS1 & HEX1 & EPX1 & SK1 & NDM1 & MIN1 & DA1).
  destruct (fitted_transformed ns_of order Order keep tr_fit_transform svi_run nuts_run latent_sites c2 ob2 ob2' y2 G2 f2 HF2 Hc2 A2 Z2 obt2 GT2 RF2 WZ2 LZ2 NR2 NZ2 shared2 SH2 CP2) as (Ut2 & s02 & ex2 & WUt2 & LUt2 & NRU2 & NDJ2 & SUt2 & HFE2 & HNS2 & HEX2 & EPX2 & SK2 & NDM2 & MIN2 & DA2).
  destruct (forecast_transformed ns_of keep tr_transform c1 ob1' f1 Hc1 Z1 shared1 CP1 Ut1 ex1 SUt1 HEX1 EPX1 SK1 NDM1 MIN1 _ _ _ _ _ _ _ _ M1 K1 H1 GA1 RX1 W1 LX1 QX1 BX1 C1 NE1 O1) as (U1 & td1 & data1 & EM1 & WU1 & LU1 & CU1 & SU1 & TD1 & TE1 & SE1).
  destruct (forecast_transformed ns_of keep tr_transform c2 ob2' f2 Hc2 Z2 shared2 CP2 Ut2 ex2 SUt2 HEX2 EPX2 SK2 NDM2 MIN2 _ _ _ _ _ _ _ _ M2 K2 H2 GA2 RX2 W2 LX2 QX2 BX2 C2 NE2 O2) as (U2 & td2 & data2 & EM2 & WU2 & LU2 & CU2 & SU2 & TD2 & TE2 & SE2).
  pose proof RU1 as RU1'. pose proof RU2 as RU2'. rewrite EM1 in RU1'. rewrite EM2 in RU2'.
  destruct (panel_replies ns_of order Order keep tr_fit_transform svi_run nuts_run latent_sites c1 ob1 ob1' y1 G1 f1 HF1 Hc1 L1 Wy1 NT1 HC1 SP1 Ut1 s01 WUt1 LUt1 NRU1 NDJ1 HFE1 HNS1 U1 ts1 td1 data1 WU1 LU1 CU1 SU1 NE1 O1 TD1 TE1 _ _ _ RU1') as (tv1 & lt1 & E1 & GG1 & AA1).
  destruct (panel_replies ns_of order Order keep tr_fit_transform svi_run nuts_run latent_sites c2 ob2 ob2' y2 G2 f2 HF2 Hc2 L2 Wy2 NT2 HC2 SP2 Ut2 s02 WUt2 LUt2 NRU2 NDJ2 HFE2 HNS2 U2 ts2 td2 data2 WU2 LU2 CU2 SU2 NE2 O2 TD2 TE2 _ _ _ RU2') as (tv2 & lt2 & E2 & GG2 & AA2).
  pose proof (count_exists _ (List.length ds) iv rg IV eq_refl) as CC.
  destruct (c103_hierarchical ns_of order keep tr_fit_transform tr_transform svi_run nuts_run latent_sites _ _ _ _ _ _ _ _ _ _ HF1 Hc1 L1 Wy1 NT1 BA1 HC1 PA IV _ SD DS1 INC CC _ _ _ _ _ _ M1 K1 H1 (in_order_nodup _ O1) _ _ _ RU1) as (tw1 & TG1 & B1 & _).
  destruct (c103_hierarchical ns_of order keep tr_fit_transform tr_transform svi_run nuts_run latent_sites _ _ _ _ _ _ _ _ _ _ HF2 Hc2 L2 Wy2 NT2 BA2 HC2 PB IV _ SD DS2 INC CC _ _ _ _ _ _ M2 K2 H2 (in_order_nodup _ O2) _ _ _ RU2) as (tw2 & TG2 & B2 & _).
  rewrite GG1 in TG1. injection TG1 as TG1. rewrite <- TG1 in B1. rewrite GG2 in TG2. injection TG2 as TG2. rewrite <- TG2 in B2.
  assert (TR : exists trend, nth_error (a_flat tv1) k1 = Some trend /\ nth_error (a_flat tv2) k2 = Some trend).
  { rewrite <- EK1, <- EK2. eexists. split; [exact (B1 _ _ _ Hi J1)|]. rewrite (B2 i _ _ ltac:(lia) J2). f_equal. symmetry.
    assert (LA : forall u K, line_at e1 K iv i u = line_at e2 K iv i u).
    { intros u K. unfold line_at. rewrite (SE "offset" i) by (simpl; auto). f_equal. unfold sum_to. f_equal. apply map_ext. intros k. rewrite (SE "changepoint_coefficients") by (simpl; auto). reflexivity. }
    unfold trend_at. rewrite LA, (SE "capacity" i) by (simpl; auto). reflexivity. }
  destruct TR as (trend & V1 & V2). assert (TA : component_at tr1 "trend" k1 trend) by (exists tv1; auto). assert (TB : component_at tr2 "trend" k2 trend) by (exists tv2; auto).
  assert (P1' : nth_error (series_ids Z1) i = Some (r_path r1)) by congruence. assert (P2' : nth_error (series_ids Z2) i = Some (r_path r2)) by congruence.
  destruct (SE1 r1 I1) as (q1 & IQ1 & PQ1 & TQ1 & SQ1). destruct (SE2 r2 I2) as (q2 & IQ2 & PQ2 & TQ2 & SQ2).
  assert (CO : forall name, In name names1 -> In name names2 -> both name -> exists v, component_at tr1 name k1 v /\ component_at tr2 name k2 v).
  { intros name IN1 IN2 (PR & CM). rewrite <- NM1 in IN1. rewrite <- NM2 in IN2. apply in_map_iff in IN1 as ((n1 & ef1) & E & IN1). cbn [fst] in E. subst n1. apply in_map_iff in IN2 as ((n2 & ef2) & E & IN2). cbn [fst] in E. subst n2.
    destruct (AA1 _ _ IN1) as (ef01 & cols1 & n1 & w1 & CF1 & OP1 & KN1 & IF1 & DG1 & F1). destruct (AA2 _ _ IN2) as (ef02 & cols2 & n2 & w2 & CF2 & OP2 & KN2 & IF2 & DG2 & F2).
    destruct (F1 i j1 t q1) as (x1 & zz1 & tk1 & v1 & VA1 & RD1 & NK1 & NV1 & RP1); [rewrite SUt1, PQ1; exact P1'|exact J1|exact IQ1|congruence|].
    destruct (F2 i j2 t q2) as (x2 & zz2 & tk2 & v2 & VA2 & RD2 & NK2 & NV2 & RP2); [rewrite SUt2, PQ2; exact P2'|exact J2|exact IQ2|congruence|].
    rewrite EK1 in NK1, NV1. rewrite EK2 in NK2, NV2. rewrite V1 in NK1. injection NK1 as <-. rewrite V2 in NK2. injection NK2 as <-. destruct (CM _ _ _ _ _ _ _ _ IF1 IF2 CF1 CF2 (SQ1 _ _ VA1) (SQ2 _ _ VA2)) as [SF SI].
    apply (replies_ext _ (own_env e2 name)) in RP1; [|exact PR].
    assert (v1 = v2) as ->.
    { assert (HI : nth_error (series_ids Ut1) i = Some (r_path q1)) by (rewrite SUt1, PQ1; exact P1').
      assert (HD1 : first_date (dates_of Ut1 (r_path q1)) t0) by (rewrite PQ1; apply DA1; exact FD1).
      assert (HD2 : first_date (dates_of Ut2 (r_path q2)) t0) by (rewrite PQ2, P2; apply DA2; exact FD2).
      exact (same_panel (own_env e2 name) order U1 U2 Ut1 Ut2 cols1 cols2 n1 n2 ef01 ef02 ef1 ef2 q1 q2 x1 x2 zz1 zz2 trend v1 v2 i t0 OP1 OP2 SF SI ltac:(congruence) ltac:(congruence) ltac:(congruence) HI HD1 HD2 KN1 KN2
        (fitted_waves _ _ _ _ _ LUt1 NRU1 HFE1 _ _ _ IF1) (fitted_waves _ _ _ _ _ LUt2 NRU2 HFE2 _ _ _ IF2) VA1 VA2 RD1 RD2 RP1 RP2). }
    exists v2. split; [exists w1|exists w2]; auto. }
  assert (JL1 : (j1 < List.length ts1)%nat) by (apply nth_error_Some; congruence). assert (JL2 : (j2 < List.length ts2)%nat) by (apply nth_error_Some; congruence).
  assert (LS : exists s1 s2, level tr1 names1 k1 s1 /\ level tr2 names2 k2 s2 /\ (List.length (series_ids y1) = 1 -> expected tr1 j1 s1 /\ expected tr2 j2 s2) /\ (List.length (series_ids y1) <> 1 -> expected_at tr1 i j1 s1 /\ expected_at tr2 i j2 s2)).
  { destruct (c105_panel_forecast _ _ _ _ _ _ _ _ _ _ _ _ _ _ HF1 HC1 Hc1 L1 Wy1 NT1 SP1 _ _ _ _ _ _ M1 K1 H1 O1 _ _ _ _ RU1 eq_refl) as (S1 & S1').
    destruct (c105_panel_forecast _ _ _ _ _ _ _ _ _ _ _ _ _ _ HF2 HC2 Hc2 L2 Wy2 NT2 SP2 _ _ _ _ _ _ M2 K2 H2 O2 _ _ _ _ RU2 eq_refl) as (S2 & S2').
    rewrite <- EK1, <- EK2, <- NM1, <- NM2. destruct (Nat.eq_dec (List.length (series_ids y1)) 1) as [E|E].
    - destruct (S1 E) as (_ & d1 & GO1 & LW1). destruct (S2 ltac:(congruence)) as (_ & d2 & GO2 & LW2). destruct (LW1 j1 JL1) as (s1 & LV1 & W1'). destruct (LW2 j2 JL2) as (s2 & LV2 & W2').
      assert (I0 : i = 0) by lia. rewrite I0 in *. cbn [Nat.mul Nat.add] in *. exists s1, s2. split; [exact LV1|]. split; [exact LV2|]. split; [|congruence]. intros _.
      split; [exact (law_expected _ _ _ _ _ _ _ _ _ GO1 W1' ltac:(discriminate))|exact (law_expected _ _ _ _ _ _ _ _ _ GO2 W2' ltac:(discriminate))].
    - destruct (S1' E) as (_ & d1 & sum1 & GO1 & LW1 & JL1'). destruct (S2' ltac:(congruence)) as (_ & d2 & sum2 & GO2 & LW2 & JL2'). exists (sum1 i j1), (sum2 i j2).
      split; [now apply LW1|]. assert (Hi2 : i < List.length (series_ids y2)) by lia. split; [now apply LW2|]. split; [congruence|]. intros _. split; [exact (joint_expected _ _ _ _ _ _ _ _ _ _ GO1 JL1' Hi JL1)|exact (joint_expected _ _ _ _ _ _ _ _ _ _ GO2 JL2' Hi2 JL2)]. }
  destruct LS as (s1 & s2 & LV1 & LV2 & X1' & X2'). exists trend, s1, s2. split; [exact TA|]. split; [exact TB|]. split; [exact LV1|]. split; [exact LV2|]. split; [exact X1'|]. split; [exact X2'|].
  split; [exact CO|]. intros extra PE BO. eapply level_added; eauto. intros n I. apply CO; auto. eapply Permutation_in; [symmetry; exact PE|]. apply in_app_iff. now right.
Qed.
End Any.
