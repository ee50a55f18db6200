(** Adding effects: forecasts of panels. *)
From Coq Require Import Reals Lra ZArith String Ascii Bool List Lia Permutation Sorted.
From Verif.Model Require Import Base Num XFloat Regex Frame Arr Prog Effect Expand Trend TrendProg Aggregate Scale Engine Forecaster.
From Verif.Spec Require Import RegexSpec FrameSpec ProgSpec EffectSpec ForecasterSpec SiteSpec ShapeSpec AlignSpec OverlapSpec ResponseSpec ObservedSpec ComponentSpec TrendSpec DocsSpec UpwardSpec AddedSpec.
From Verif.Spec Require Import ResponseSpec.
From Verif.Facts Require Import BaseFacts FrameFacts NumFacts ArrFacts ProgFacts EffectFacts EffectPredict EffectFourier AlignFacts AlignForecaster ExpandFacts ForecasterFacts ForecasterInv ForecasterProps ModelProps TotalFacts HorizonFacts OverlapFacts OverlapFrames OverlapForecaster SiteFacts ComponentFacts PosteriorFacts OverlapNone CompleteFacts OrderFacts DensityFacts DocsTrend DocsForecaster ResponseFacts ResponseEffects ResponseForecaster ResponsePanel ResponseRead ResponseHierarchical ObservedForecaster UpwardFacts UpwardForecaster UpwardPanel SeasonForecaster AddedForecaster.
From Verif.Facts Require CellForecaster InsampleFacts ShapeFacts FrameProps PredictFacts.
Import ListNotations.
Local Open Scope string_scope.

(** * The numbering of the waves is given by the periods and the number of series *)
Definition waves_numbered (order : list string -> list string) (n : nat) (ef : effect) : Prop :=
  match ef with
  | Fourier sp terms _ _ _ _ x _ => match x with Some ex => 1 < n /\ ex_matched ex = order (fourier_cols (fourier_pairs sp terms)) | None => n <= 1 end
  | _ => True
  end.
Lemma fit_waves order e : forall (X : frame R) s e', f_levels X <> 0 -> f_rows X <> [] -> fit order (clone e) (Some X) s = (e', None) -> waves_numbered order (List.length (series_ids X)) e'.
Proof.
  intros X s e' L N H. destruct e as [m p b|m p q b|m p q r b|inner tab ps b sc|sp terms ps m b ff x l].
  1-4: pose proof (fit_options order _ _ _ _ H) as O; cbn [clone options] in O; destruct e'; try contradiction; exact I.
  cbn [clone fit mk_fourier] in H. unfold base_fit in H. cbn [supports_multivariate negb andb set_cols set_base get_base inner_fit] in H.
  destruct (fourier_fit sp terms (Some X)) as [f|] eqn:EF; [|discriminate].
  assert (FP : ff_pairs f = fourier_pairs sp terms).
  { unfold fourier_fit in EF. destruct (negb _); [discriminate|]. destruct (existsb _ _); [discriminate|]. destruct (f_rows X) as [|r0 rows] eqn:ER; [congruence|]. injection EF as <-. reflexivity. }
  destruct (fourier_transform f X) as [XF|] eqn:FT; [|discriminate]. pose proof (fourier_series_ids _ _ _ FT) as SI. apply fourier_transform_rows in FT as (FL & FCo & FR).
  assert (NL : negb (Nat.eqb (f_levels XF) 0) = true) by (rewrite FL; apply negb_true_iff, Nat.eqb_neq; exact L). rewrite NL, SI in H. cbn [andb] in H.
  destruct (Nat.ltb_spec 1 (List.length (series_ids X))) as [TWO|ONE].
  - unfold expand_fit in H. cbn [mapM] in H. destruct (compile ".*") as [rx|] eqn:ERX; [|discriminate]. cbn [bind] in H. destruct (f_levels XF) as [|lv] eqn:ELV; [discriminate|]. cbv zeta in H. rewrite <- ELV in *.
    rewrite (FrameFacts.filter_all _ (strs_unique (f_cols XF))) in H by (intros c _; cbn [existsb]; now rewrite (dot_star _ _ ERX)). rewrite SI in H.
    cbn [bind] in H. match type of H with context [expand_transform 0%R _ ?e0 XF] => set (ex := e0) in * end.
    destruct (expand_transform 0%R _ ex XF) as [[XE ex']|] eqn:EE; [|discriminate]. cbn [bind] in H. destruct (check_mode m) as [mm|] eqn:CM; [|discriminate]. injection H as <-. cbn [waves_numbered]. split; [exact TWO|].
    unfold expand_transform in EE. cbn [ex_skip ex] in EE. destruct (f_levels XF); [discriminate|]. destruct (copy_columns _ _ _ _ _ _); [|discriminate]. cbn [bind] in EE. injection EE as _ <-. cbn [ex_matched ex].
    rewrite FCo, strs_unique_id by apply fourier_cols_nodup. now rewrite FP.
  - destruct (check_mode m) as [mm|] eqn:CM; [|discriminate]. injection H as <-. exact ONE.
Qed.
Lemma fitted_waves order c (Ut : frame R) s fitted : f_levels Ut <> 0 -> f_rows Ut <> [] -> fit_effects order (c_default c) (effects_of c) (Some Ut) s = Ok fitted ->
  forall name ef cols, In (name, ef, cols) fitted -> waves_numbered order (List.length (series_ids Ut)) ef.
Proof.
  intros L N HE name ef cols I.
  assert (S2 : forall e0 XC, select_columns 0%R Ut cols = Ok XC -> fit order (clone e0) (Some XC) s = (ef, None) -> waves_numbered order (List.length (series_ids Ut)) ef).
  { intros e0 XC SC FT. pose proof (OverlapFrames.select_labels _ _ _ SC) as (Q1 & Q2 & _). rewrite <- (series_ids_labels _ _ Q1). eapply fit_waves; [congruence| |exact FT]. intros E. unfold labels in Q1. rewrite E in Q1. destruct (f_rows Ut); [congruence|discriminate]. }
  apply fit_effects_inv in HE as (main & dflt & EF & F & D). rewrite EF in I. apply in_app_iff in I as [I|I].
  - apply Forall2_In_both in F. destruct (proj2 F _ I) as (l & Hl & NM & _ & XC & SC & FT). cbn [fe_name fe_cols fe_effect fst snd] in *. eauto.
  - destruct D as [[-> _]|(g & -> & NM & _ & _ & XC & SC & FT)]; [contradiction|]. destruct I as [->|[]]. cbn [fe_name fe_cols fe_effect fst snd] in *. eauto.
Qed.
Lemma same_numbers order n sp terms p1 a1 b1 f1 x1 l1 p2 a2 b2 f2 x2 l2 : waves_numbered order n (Fourier sp terms p1 a1 b1 f1 x1 l1) -> waves_numbered order n (Fourier sp terms p2 a2 b2 f2 x2 l2) ->
  wave_numbers (Fourier sp terms p1 a1 b1 f1 x1 l1) = wave_numbers (Fourier sp terms p2 a2 b2 f2 x2 l2).
Proof.
  cbn [waves_numbered]. unfold wave_numbers. cbn [sigma_of]. destruct x1 as [e1|], x2 as [e2|].
  - intros [_ H1] [_ H2]. unfold sigma_of. now rewrite H1, H2.
  - intros [H1 _] H2. lia.
  - intros H1 [H2 _]. lia.
  - reflexivity.
Qed.

(** * Single effects *)
Lemma same_panel env order U1 U2 Ut1 Ut2 cols1 cols2 n1 n2 ef01 ef02 ef1 ef2 r1 r2 x1 x2 z1 z2 trend v1 v2 i t0 : options ef01 ef1 -> options ef02 ef2 -> same_formula ef01 ef02 -> same_input ef01 x1 x2 ->
  r_time r1 = r_time r2 -> r_path r1 = r_path r2 -> series_ids Ut1 = series_ids Ut2 -> nth_error (series_ids Ut1) i = Some (r_path r1) -> first_date (dates_of Ut1 (r_path r1)) t0 -> first_date (dates_of Ut2 (r_path r2)) t0 ->
  knows_panel Ut1 cols1 ef1 n1 -> knows_panel Ut2 cols2 ef2 n2 -> waves_numbered order (List.length (series_ids Ut1)) ef1 -> waves_numbered order (List.length (series_ids Ut2)) ef2 ->
  values_at U1 r1 cols1 x1 -> values_at U2 r2 cols2 x2 -> reads_panel U1 Ut1 cols1 n1 ef1 r1 z1 -> reads_panel U2 Ut2 cols2 n2 ef2 r2 z2 ->
  replies env ef1 z1 trend v1 -> replies env ef2 z2 trend v2 -> v1 = v2.
Proof.
  intros O1 O2 SF SI T PE SID Hi FD1 FD2 K1 K2 N1 N2 V1 V2 R1 R2 P1 P2. pose proof (sigma_fixed _ _ _ _ K1) as S1. pose proof (sigma_fixed _ _ _ _ K2) as S2.
  destruct ef1 as [m3 ? ?|m3 ? ? ?|m3 ? ? ? ?|? ? ? ? ?|sp3 te3 sg3 a3 b3 ff3 xx3 l3]; try (exfalso; exact (proj2 K1)); destruct ef2 as [m4 ? ?|m4 ? ? ?|m4 ? ? ? ?|? ? ? ? ?|sp4 te4 sg4 a4 b4 ff4 xx4 l4]; try (exfalso; exact (proj2 K2));
    destruct ef01 as [m1 ? ?|m1 ? ? ?|m1 ? ? ? ?|? ? ? ? ?|sp1 te1 sg1 a1 b1 ff1 xx1 l1]; try (destruct O1; fail); destruct ef02 as [m2 ? ?|m2 ? ? ?|m2 ? ? ? ?|? ? ? ? ?|sp2 te2 sg2 a2 b2 ff2 xx2 l2]; try (destruct O2; fail);
    unfold same_formula, same_input in *; cbn [bare] in *; try contradiction; cbn [options reads_panel replies] in *.
  - destruct O1 as [-> _]. destruct O2 as [-> _]. subst m4. rewrite (values_unique _ _ _ _ _ R1 V1) in P1. rewrite (values_unique _ _ _ _ _ R2 V2), <- SI in P2. congruence.
  - destruct O1 as (-> & -> & _ & ->). destruct O2 as (-> & -> & _ & ->). destruct SF as (-> & -> & ->). rewrite SID in N1. pose proof (same_numbers _ _ _ _ _ _ _ _ _ _ _ _ _ _ _ _ N1 N2) as NU.
    destruct K1 as (_ & f1 & mo1 & _ & _ & _ & MN1 & _ & LQ1). destruct K2 as (_ & f2 & mo2 & _ & _ & _ & MN2 & _ & LQ2). assert (mo1 = mo2) as -> by (unfold mode_named in *; destruct mo1, mo2; congruence).
    destruct P1 as (p1 & q1 & E1 & ->). destruct P2 as (p2 & q2 & E2 & ->).
    assert (p1 = mo2) as -> by (destruct xx3; [destruct LQ1 as (_ & _ & LQ1)|destruct LQ1 as (_ & _ & LQ1)]; congruence). assert (p2 = mo2) as -> by (destruct xx4; [destruct LQ2 as (_ & _ & LQ2)|destruct LQ2 as (_ & _ & LQ2)]; congruence).
    f_equal. destruct R1 as [_ R1]. destruct R2 as [_ R2]. rewrite (R1 i t0 Hi FD1), (R2 i t0) by (rewrite <- ?SID, <- ?PE; assumption || (rewrite PE; assumption)). rewrite T, SID. apply ResponsePanel.weighted_ext. intros k _.
    rewrite <- S1, <- S2 in NU. pose proof (f_equal (fun g => g k) NU) as Q. cbn beta iota delta [sigma_of] in Q. now rewrite Q.
Qed.

Section Any.
Variable ns_of : Z -> Z.
Variable order : list string -> list string.
Variable Order : forall l, Permutation (order l) l.
Variable keep : path -> bool.
Context {TS : Type}.
Variable tr_fit_transform : TS -> frame R -> TS * res (frame R).
Variable tr_transform : TS -> frame R -> res (frame R).
Context {P : Type}.
Variable svi_run : Z -> nat -> nat -> prog arr -> res (list xr * P).
Variable nuts_run : Z -> nat -> nat -> nat -> prog arr -> res (nat -> nat -> env).
Variable latent_sites : prog arr -> list string.
Notation fit_forecaster := (fit_forecaster ns_of order keep tr_fit_transform svi_run nuts_run latent_sites).
Notation predict_model := (predict_model ns_of keep tr_transform).

Section Fitted.
Variables (c : config) (ob ob' : objects (TS := TS)) (y Z0 : frame R) (f : fitted (P := P)).
Hypothesis HF : fit_forecaster c ob y (Some Z0) = (ob', Ok f).
Hypothesis Hc : c_hier c = true.
Hypothesis OT : o_transformer ob = None.
Hypotheses (WZ : frame_wf Z0) (LZ : f_levels Z0 <> 0) (NZ : f_cols Z0 <> []).
Variable shared : list string.
Hypothesis SH : (match c_shared c with None => [] | Some l => l end) = shared.
Hypothesis CP : copyable shared (f_cols Z0) (bottom_series Z0).

Lemma fitted_dated : exists (Ut : frame R) s0 ex, frame_wf Ut /\ f_levels Ut <> 0 /\ f_rows Ut <> [] /\ NoDup (map (String.concat "-") (series_ids Ut)) /\ series_ids Ut = bottom_series Z0 /\
  fit_effects order (c_default c) (effects_of c) (Some Ut) s0 = Ok (p_fitted (ft_prepared f)) /\ non_skipped (p_fitted (ft_prepared f)) = Ok (p_effects (ft_prepared f)) /\
  o_transformer ob' = None /\ p_has_exogenous (ft_prepared f) = true /\ p_expander (ft_prepared f) = Some ex /\
  ex_skip ex = false /\ NoDup (ex_matched ex) /\ (forall col, In col (ex_matched ex) <-> In col (f_cols Z0) /\ ~ In col shared) /\
  (forall p t0, In p (bottom_series Z0) -> first_date (dates Z0 p) t0 -> first_date (dates_of Ut p) t0).
Proof.
  pose proof HF as HF'. apply fit_forecaster_inv in HF'. destruct HF' as (s & ys & p & m0 & post & _ & _ & HD & _ & EFt). unfold fit_data in HD. rewrite Hc in HD. apply hierarchical_fit_inv in HD.
  destruct HD as (yb & tensor & B0 & B1 & Ut & ob1 & t00 & t & td0 & data0 & _ & _ & HB0 & HRF & HEX & HIF & _ & _ & EOB & _ & HFE & _ & HNS & _). assert (EP : ft_prepared f = p) by (rewrite EFt; reflexivity).
  assert (NCZ : no_columns Z0 = false) by (unfold no_columns; destruct (f_cols Z0); [congruence|reflexivity]). rewrite NCZ in HB0.
  apply run_fit_transform_inv in HRF as [_ HRF]. rewrite OT in HRF. destruct HRF as [OT1 EB]. subst B1 ob1.
  destruct (bottom_series_ids _ _ WZ LZ HB0) as (S0 & C0 & L0 & NR0 & _). pose proof (loc_bottom_wf _ _ WZ HB0) as WB0.
  assert (OTP : o_transformer ob' = None) by (rewrite EOB; cbn [o_transformer]; exact OT).
  assert (NCB : no_columns B0 = false) by (unfold no_columns; rewrite C0; destruct (f_cols Z0); [congruence|reflexivity]). rewrite HEX, NCB in HIF. cbn [negb] in HIF. destruct HIF as (ex & EXB & EPX). rewrite SH in EXB.
  destruct (expand_bottom_state order Order shared B0 Ut ex (series_ids B0) EXB ltac:(congruence) ltac:(rewrite C0, S0; exact CP)) as (SK & NDM & MIN).
  pose proof EXB as EXB'. unfold expand_bottom in EXB'. destruct (expand_fit _ _ B0) as [eb|]; [|discriminate]. cbn [bind] in EXB'.
  pose proof (expand_transform_wf _ _ _ _ _ _ WB0 EXB') as WUt. pose proof (expand_transform_labels _ _ _ _ _ _ EXB') as [LBT LVT].
  assert (SUt : series_ids Ut = series_ids B0) by (apply series_ids_labels; exact LBT).
  exists Ut, (scale_number s), ex. split; [exact WUt|]. split; [congruence|].
  split; [intros Q; unfold labels in LBT; rewrite Q in LBT; destruct (f_rows B0); [congruence|discriminate]|].
  split; [rewrite SUt, S0; eapply joins_distinct; [exact NZ| |exact CP]; rewrite <- S0; apply paths_unique_NoDup|]. split; [congruence|]. rewrite EP. split; [exact HFE|]. split; [exact HNS|]. split; [exact OTP|].
  split; [rewrite HEX, NCB; reflexivity|]. split; [exact EPX|]. split; [exact SK|]. split; [exact NDM|]. split; [intros col; rewrite MIN, C0; reflexivity|].
  intros q t0 IQ FD. rewrite (dates_labels _ _ q LBT), (bottom_dates _ _ _ WZ LZ HB0 IQ). exact FD.
Qed.
End Fitted.

Lemma c122_panel : forall c1 c2 ob1 ob2 y1 y2 Z1 Z2 ob1' ob2' (f1 f2 : fitted (P := P)) ds iv rg lg, fit_forecaster c1 ob1 y1 (Some Z1) = (ob1', Ok f1) -> fit_forecaster c2 ob2 y2 (Some Z2) = (ob2', Ok f2) ->
  c_hier c1 = true -> c_hier c2 = true -> f_levels y1 <> 0 -> f_levels y2 <> 0 -> frame_wf y1 -> frame_wf y2 -> (forall r, In r (f_rows y1) \/ In r (f_rows y2) -> ~ In "__total" (r_path r)) -> clean_config c1 -> clean_config c2 ->
  balanced y1 -> balanced y2 -> List.length (series_ids y1) = List.length (series_ids y2) -> StronglySorted Z.lt ds -> (forall t, In t ds <-> In t (map r_time (f_rows y1))) -> (forall t, In t ds <-> In t (map r_time (f_rows y2))) ->
  increasing (map (fun t => day (ns_of t)) ds) -> piecewise_options (o_trend ob1') iv rg lg -> piecewise_options (o_trend ob2') iv rg lg -> (0 < iv)%R -> o_transformer ob1 = None -> o_transformer ob2 = None ->
  frame_wf Z1 -> frame_wf Z2 -> f_levels Z1 <> 0 -> f_levels Z2 <> 0 -> f_cols Z1 <> [] -> f_cols Z2 <> [] -> bottom_series Z1 = bottom_series Z2 ->
  forall shared1 shared2, (match c_shared c1 with None => [] | Some l => l end) = shared1 -> (match c_shared c2 with None => [] | Some l => l end) = shared2 ->
  copyable shared1 (f_cols Z1) (bottom_series Z1) -> copyable shared2 (f_cols Z2) (bottom_series Z2) ->
  forall z1 z2 X1 X2 fh1 fh2 m1 m2 cut1 cut2 ts1 ts2, predict_model c1 ob1' f1 z1 (Some X1) fh1 = Ok m1 -> predict_model c2 ob2' f2 z2 (Some X2) fh2 = Ok m2 ->
  max_time (map snd (p_index (ft_prepared f1))) = Ok cut1 -> max_time (map snd (p_index (ft_prepared f2))) = Ok cut2 -> to_absolute cut1 fh1 = ts1 -> to_absolute cut2 fh2 = ts2 ->
  frame_wf X1 -> frame_wf X2 -> f_levels X1 <> 0 -> f_levels X2 <> 0 -> f_cols X1 = f_cols Z1 -> f_cols X2 = f_cols Z2 -> bottom_series X1 = bottom_series Z1 -> bottom_series X2 = bottom_series Z2 -> covers X1 ts1 -> covers X2 ts2 -> in_order ts1 -> in_order ts2 ->
  forall e1 e2 o1 o2 tr1 tr2, run e1 [] m1 = Ok (o1, tr1) -> run e2 [] m2 = Ok (o2, tr2) -> same_trend_parameters e1 e2 ->
  forall i j1 j2 t t0 r1 r2 k1 k2, i < List.length (series_ids y1) -> nth_error ts1 j1 = Some t -> nth_error ts2 j2 = Some t -> In r1 (f_rows X1) -> In r2 (f_rows X2) -> r_time r1 = t -> r_time r2 = t ->
  nth_error (bottom_series X1) i = Some (r_path r1) -> r_path r2 = r_path r1 -> first_date (dates Z1 (r_path r1)) t0 -> first_date (dates Z2 (r_path r1)) t0 -> i * List.length ts1 + j1 = k1 -> i * List.length ts2 + j2 = k2 ->
  forall names1 names2, map fst (p_effects (ft_prepared f1)) = names1 -> map fst (p_effects (ft_prepared f2)) = names2 ->
  let both := common c1 c2 (p_fitted (ft_prepared f1)) (p_fitted (ft_prepared f2)) (Forall2 (seen shared1 (bottom_series X1) X1 r1)) (Forall2 (seen shared2 (bottom_series X2) X2 r2)) e1 e2 in
  exists trend s1 s2, component_at tr1 "trend" k1 trend /\ component_at tr2 "trend" k2 trend /\ level tr1 names1 k1 s1 /\ level tr2 names2 k2 s2 /\
    (List.length (series_ids y1) = 1 -> expected tr1 j1 s1 /\ expected tr2 j2 s2) /\ (List.length (series_ids y1) <> 1 -> expected_at tr1 i j1 s1 /\ expected_at tr2 i j2 s2) /\
    (forall name, In name names1 -> In name names2 -> both name -> exists v, component_at tr1 name k1 v /\ component_at tr2 name k2 v) /\
    (forall extra, Permutation names2 (extra ++ names1) -> (forall name, In name names1 -> both name) ->
       exists vs, Forall2 (fun name v => component_at tr2 name k2 v) extra vs /\ s2 = (s1 + Rsum vs)%R).
Proof.
  intros c1 c2 ob1 ob2 y1 y2 Z1 Z2 ob1' ob2' f1 f2 ds iv rg lg HF1 HF2 Hc1 Hc2 L1 L2 Wy1 Wy2 NTO HC1 HC2 BA1 BA2 NS SD DS1 DS2 INC PA PB IV OT1 OT2 WZ1 WZ2 LZ1 LZ2 NZ1 NZ2 BZ shared1 shared2 SH1 SH2 CP1 CP2 z1 z2 X1 X2 fh1 fh2 m1 m2 cut1 cut2 ts1 ts2
    M1 M2 K1 K2 H1 H2 W1 W2 LX1 LX2 QX1 QX2 BX1 BX2 C1 C2 O1 O2 e1 e2 o1 o2 tr1 tr2 RU1 RU2 SE i j1 j2 t t0 r1 r2 k1 k2 Hi J1 J2 I1 I2 D1 D2 P1 P2 FD1 FD2 EK1 EK2 names1 names2 NM1 NM2 both.
  assert (NE1 : ts1 <> []) by (intros E; rewrite E in J1; destruct j1; discriminate). assert (NE2 : ts2 <> []) by (intros E; rewrite E in J2; destruct j2; discriminate).
  pose proof (options_scalar _ _ _ _ PA) as SP1. pose proof (options_scalar _ _ _ _ PB) as SP2.
  assert (NT1 : forall r, In r (f_rows y1) -> ~ In "__total" (r_path r)) by auto. assert (NT2 : forall r, In r (f_rows y2) -> ~ In "__total" (r_path r)) by auto.
  destruct (fitted_dated c1 ob1 ob1' y1 Z1 f1 HF1 Hc1 OT1 WZ1 LZ1 NZ1 shared1 SH1 CP1) as (Ut1 & s01 & ex1 & WUt1 & LUt1 & NRU1 & NDJ1 & SUt1 & HFE1 & HNS1 & OTP1 & HEX1 & EPX1 & SK1 & NDM1 & MIN1 & DA1).
  destruct (fitted_dated c2 ob2 ob2' y2 Z2 f2 HF2 Hc2 OT2 WZ2 LZ2 NZ2 shared2 SH2 CP2) as (Ut2 & s02 & ex2 & WUt2 & LUt2 & NRU2 & NDJ2 & SUt2 & HFE2 & HNS2 & OTP2 & HEX2 & EPX2 & SK2 & NDM2 & MIN2 & DA2).
  destruct (forecast_panel ns_of keep tr_transform c1 ob1' Z1 f1 Hc1 NZ1 shared1 CP1 Ut1 ex1 SUt1 OTP1 HEX1 EPX1 SK1 NDM1 MIN1 _ _ _ _ _ _ M1 K1 H1 W1 LX1 QX1 BX1 C1 NE1) as (U1 & td1 & data1 & EM1 & WU1 & LU1 & CU1 & SU1 & TD1 & TE1 & SE1).
  destruct (forecast_panel ns_of keep tr_transform c2 ob2' Z2 f2 Hc2 NZ2 shared2 CP2 Ut2 ex2 SUt2 OTP2 HEX2 EPX2 SK2 NDM2 MIN2 _ _ _ _ _ _ M2 K2 H2 W2 LX2 QX2 BX2 C2 NE2) as (U2 & td2 & data2 & EM2 & WU2 & LU2 & CU2 & SU2 & TD2 & TE2 & SE2).
  pose proof RU1 as RU1'. pose proof RU2 as RU2'. rewrite EM1 in RU1'. rewrite EM2 in RU2'.
  destruct (panel_replies ns_of order Order keep tr_fit_transform svi_run nuts_run latent_sites c1 ob1 ob1' y1 (Some Z1) f1 HF1 Hc1 L1 Wy1 NT1 HC1 SP1 Ut1 s01 WUt1 LUt1 NRU1 NDJ1 HFE1 HNS1 U1 ts1 td1 data1 WU1 LU1 CU1 SU1 NE1 O1 TD1 TE1 _ _ _ RU1') as (tv1 & lt1 & E1 & G1 & A1).
  destruct (panel_replies ns_of order Order keep tr_fit_transform svi_run nuts_run latent_sites c2 ob2 ob2' y2 (Some Z2) f2 HF2 Hc2 L2 Wy2 NT2 HC2 SP2 Ut2 s02 WUt2 LUt2 NRU2 NDJ2 HFE2 HNS2 U2 ts2 td2 data2 WU2 LU2 CU2 SU2 NE2 O2 TD2 TE2 _ _ _ RU2') as (tv2 & lt2 & E2 & G2 & A2).
  pose proof (count_exists _ (List.length ds) iv rg IV eq_refl) as CC.
  destruct (c103_hierarchical ns_of order keep tr_fit_transform tr_transform svi_run nuts_run latent_sites _ _ _ _ _ _ _ _ _ _ HF1 Hc1 L1 Wy1 NT1 BA1 HC1 PA IV _ SD DS1 INC CC _ _ _ _ _ _ M1 K1 H1 (in_order_nodup _ O1) _ _ _ RU1) as (tw1 & TG1 & B1 & _).
  destruct (c103_hierarchical ns_of order keep tr_fit_transform tr_transform svi_run nuts_run latent_sites _ _ _ _ _ _ _ _ _ _ HF2 Hc2 L2 Wy2 NT2 BA2 HC2 PB IV _ SD DS2 INC CC _ _ _ _ _ _ M2 K2 H2 (in_order_nodup _ O2) _ _ _ RU2) as (tw2 & TG2 & B2 & _).
  rewrite G1 in TG1. injection TG1 as TG1. rewrite <- TG1 in B1. rewrite G2 in TG2. injection TG2 as TG2. rewrite <- TG2 in B2.
  assert (TR : exists trend, nth_error (a_flat tv1) k1 = Some trend /\ nth_error (a_flat tv2) k2 = Some trend).
  { rewrite <- EK1, <- EK2. eexists. split; [exact (B1 _ _ _ Hi J1)|]. rewrite (B2 i _ _ ltac:(lia) J2). f_equal. symmetry.
    assert (LA : forall u K, line_at e1 K iv i u = line_at e2 K iv i u).
    { intros u K. unfold line_at. rewrite (SE "offset" i) by (simpl; auto). f_equal. unfold sum_to. f_equal. apply map_ext. intros k. rewrite (SE "changepoint_coefficients") by (simpl; auto). reflexivity. }
    unfold trend_at. rewrite LA, (SE "capacity" i) by (simpl; auto). reflexivity. }
  destruct TR as (trend & V1 & V2). assert (TA : component_at tr1 "trend" k1 trend) by (exists tv1; auto). assert (TB : component_at tr2 "trend" k2 trend) by (exists tv2; auto).
  assert (P1' : nth_error (bottom_series Z1) i = Some (r_path r1)) by congruence. assert (P2' : nth_error (bottom_series Z2) i = Some (r_path r2)) by congruence.
  destruct (SE1 r1 I1 (nth_error_In _ _ P1')) as (q1 & IQ1 & PQ1 & TQ1 & SQ1). destruct (SE2 r2 I2 (nth_error_In _ _ P2')) as (q2 & IQ2 & PQ2 & TQ2 & SQ2).
  assert (CO : forall name, In name names1 -> In name names2 -> both name -> exists v, component_at tr1 name k1 v /\ component_at tr2 name k2 v).
  { intros name IN1 IN2 (PR & CM). rewrite <- NM1 in IN1. rewrite <- NM2 in IN2. apply in_map_iff in IN1 as ((n1 & ef1) & E & IN1). cbn [fst] in E. subst n1. apply in_map_iff in IN2 as ((n2 & ef2) & E & IN2). cbn [fst] in E. subst n2.
    destruct (A1 _ _ IN1) as (ef01 & cols1 & n1 & w1 & CF1 & OP1 & KN1 & IF1 & DG1 & F1). destruct (A2 _ _ IN2) as (ef02 & cols2 & n2 & w2 & CF2 & OP2 & KN2 & IF2 & DG2 & F2).
    destruct (F1 i j1 t q1) as (x1 & zz1 & tk1 & v1 & VA1 & RD1 & NK1 & NV1 & RP1); [rewrite SUt1, PQ1; exact P1'|exact J1|exact IQ1|congruence|].
    destruct (F2 i j2 t q2) as (x2 & zz2 & tk2 & v2 & VA2 & RD2 & NK2 & NV2 & RP2); [rewrite SUt2, PQ2; exact P2'|exact J2|exact IQ2|congruence|].
    rewrite EK1 in NK1, NV1. rewrite EK2 in NK2, NV2. rewrite V1 in NK1. injection NK1 as <-. rewrite V2 in NK2. injection NK2 as <-. destruct (CM _ _ _ _ _ _ _ _ IF1 IF2 CF1 CF2 (SQ1 _ _ VA1) (SQ2 _ _ VA2)) as [SF SI].
    apply (replies_ext _ (own_env e2 name)) in RP1; [|exact PR].
    assert (v1 = v2) as ->.
    { assert (HI : nth_error (series_ids Ut1) i = Some (r_path q1)) by (rewrite SUt1, PQ1; exact P1').
      assert (HD1 : first_date (dates_of Ut1 (r_path q1)) t0) by (rewrite PQ1; apply DA1; [exact (nth_error_In _ _ P1')|exact FD1]).
      assert (HD2 : first_date (dates_of Ut2 (r_path q2)) t0) by (rewrite PQ2, P2; apply DA2; [rewrite <- P2; exact (nth_error_In _ _ P2')|exact FD2]).
      exact (same_panel (own_env e2 name) order U1 U2 Ut1 Ut2 cols1 cols2 n1 n2 ef01 ef02 ef1 ef2 q1 q2 x1 x2 zz1 zz2 trend v1 v2 i t0 OP1 OP2 SF SI ltac:(congruence) ltac:(congruence) ltac:(congruence) HI HD1 HD2 KN1 KN2
        (fitted_waves _ _ _ _ _ LUt1 NRU1 HFE1 _ _ _ IF1) (fitted_waves _ _ _ _ _ LUt2 NRU2 HFE2 _ _ _ IF2) VA1 VA2 RD1 RD2 RP1 RP2). }
    exists v2. split; [exists w1|exists w2]; auto. }
  assert (JL1 : (j1 < List.length ts1)%nat) by (apply nth_error_Some; congruence). assert (JL2 : (j2 < List.length ts2)%nat) by (apply nth_error_Some; congruence).
  assert (LS : exists s1 s2, level tr1 names1 k1 s1 /\ level tr2 names2 k2 s2 /\ (List.length (series_ids y1) = 1 -> expected tr1 j1 s1 /\ expected tr2 j2 s2) /\ (List.length (series_ids y1) <> 1 -> expected_at tr1 i j1 s1 /\ expected_at tr2 i j2 s2)).
  { destruct (c105_panel_forecast _ _ _ _ _ _ _ _ _ _ _ _ _ _ HF1 HC1 Hc1 L1 Wy1 NT1 SP1 _ _ _ _ _ _ M1 K1 H1 O1 _ _ _ _ RU1 eq_refl) as (S1 & S1').
    destruct (c105_panel_forecast _ _ _ _ _ _ _ _ _ _ _ _ _ _ HF2 HC2 Hc2 L2 Wy2 NT2 SP2 _ _ _ _ _ _ M2 K2 H2 O2 _ _ _ _ RU2 eq_refl) as (S2 & S2').
    rewrite <- EK1, <- EK2, <- NM1, <- NM2. destruct (Nat.eq_dec (List.length (series_ids y1)) 1) as [E|E].
    - destruct (S1 E) as (_ & d1 & GO1 & LW1). destruct (S2 ltac:(congruence)) as (_ & d2 & GO2 & LW2). destruct (LW1 j1 JL1) as (s1 & LV1 & W1'). destruct (LW2 j2 JL2) as (s2 & LV2 & W2').
      assert (I0 : i = 0) by lia. rewrite I0 in *. cbn [Nat.mul Nat.add] in *. exists s1, s2. split; [exact LV1|]. split; [exact LV2|]. split; [|congruence]. intros _.
      split; [exact (law_expected _ _ _ _ _ _ _ _ _ GO1 W1' ltac:(discriminate))|exact (law_expected _ _ _ _ _ _ _ _ _ GO2 W2' ltac:(discriminate))].
    - destruct (S1' E) as (_ & d1 & sum1 & GO1 & LW1 & JL1'). destruct (S2' ltac:(congruence)) as (_ & d2 & sum2 & GO2 & LW2 & JL2'). exists (sum1 i j1), (sum2 i j2).
      split; [now apply LW1|]. assert (Hi2 : i < List.length (series_ids y2)) by lia. split; [now apply LW2|]. split; [congruence|]. intros _. split; [exact (joint_expected _ _ _ _ _ _ _ _ _ _ GO1 JL1' Hi JL1)|exact (joint_expected _ _ _ _ _ _ _ _ _ _ GO2 JL2' Hi2 JL2)]. }
  destruct LS as (s1 & s2 & LV1 & LV2 & X1' & X2'). exists trend, s1, s2. split; [exact TA|]. split; [exact TB|]. split; [exact LV1|]. split; [exact LV2|]. split; [exact X1'|]. split; [exact X2'|].
  split; [exact CO|]. intros extra PE BO. eapply level_added; eauto. intros n I. apply CO; auto. eapply Permutation_in; [symmetry; exact PE|]. apply in_app_iff. now right.
Qed.
End Any.
