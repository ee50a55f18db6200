(** Adding effects: forecasts of one series. *)
From Coq Require Import Reals Lra ZArith String Ascii Bool List Lia Permutation.
From Verif.Model Require Import Base Num XFloat Frame Arr Prog Effect Expand Trend TrendProg Scale Engine Forecaster.
From Verif.Spec Require Import FrameSpec ProgSpec EffectSpec ForecasterSpec SiteSpec ShapeSpec AlignSpec OverlapSpec ResponseSpec ObservedSpec ComponentSpec TrendSpec DocsSpec UpwardSpec AddedSpec.
From Verif.Spec Require Import ResponseSpec.
From Verif.Facts Require Import BaseFacts ForecasterFacts ForecasterInv ModelProps DocsTrend DocsForecaster ResponseFacts ResponseEffects ResponseForecaster ResponsePanel ObservedForecaster UpwardFacts UpwardForecaster SeasonForecaster.
Import ListNotations.
Local Open Scope string_scope.

(** * Single effects *)
Lemma bare_replies e : forall ef z trend v, replies e ef z trend v -> replies e (bare ef) z trend v.
Proof. induction ef; intros z trend v H; try exact H. cbn [replies bare] in *. now apply IHef. Qed.
Lemma bare_reads X cols t0 : forall ef r z, reads X cols t0 ef r z -> reads X cols t0 (bare ef) r z.
Proof. induction ef; intros r z H; try exact H. cbn [reads bare] in *. now apply IHef. Qed.
Lemma bare_knows cols t0 : forall ef, knows cols t0 ef -> knows cols t0 (bare ef).
Proof. induction ef; intros H; try exact H. cbn [knows bare] in *. now apply IHef. Qed.
Lemma bare_options : forall ef0 ef, options ef0 ef -> options (bare ef0) (bare ef).
Proof. induction ef0; intros ef H; destruct ef; try (destruct H; fail); try exact H. cbn [options bare] in *. now apply IHef0. Qed.

Lemma replies_ext e1 e2 : (forall p k, e1 p k = e2 p k) -> forall ef z trend v, replies e1 ef z trend v -> replies e2 ef z trend v.
Proof.
  intros E. assert (W : forall z p, weighted z (e1 p) = weighted z (e2 p)) by (intros z p; apply ResponsePanel.weighted_ext; intros k _; apply E).
  induction ef; intros z trend v H; cbn [replies] in *; rewrite <- ?W, <- ?E; auto.
Qed.

Lemma same_replies env U1 U2 cols1 cols2 t0 ef01 ef02 ef1 ef2 r1 r2 x1 x2 z1 z2 trend v1 v2 : options ef01 ef1 -> options ef02 ef2 -> knows cols1 t0 ef1 -> knows cols2 t0 ef2 ->
  same_formula ef01 ef02 -> same_input ef01 x1 x2 -> r_time r1 = r_time r2 -> values_at U1 r1 cols1 x1 -> values_at U2 r2 cols2 x2 -> reads U1 cols1 t0 ef1 r1 z1 -> reads U2 cols2 t0 ef2 r2 z2 ->
  replies env ef1 z1 trend v1 -> replies env ef2 z2 trend v2 -> v1 = v2.
Proof.
  intros O1 O2 K1 K2 SF SI T V1 V2 R1 R2 P1 P2. apply bare_options in O1. apply bare_options in O2. apply bare_knows in K1. apply bare_knows in K2. apply bare_reads in R1. apply bare_reads in R2. apply bare_replies in P1. apply bare_replies in P2.
  unfold same_formula, same_input in *.
  destruct (bare ef01) as [m1 ? ?|m1 ? ? ?|m1 ? ? ? ?| |sp1 te1 sg1 a1 b1 ff1 xx1 l1]; destruct (bare ef02) as [m2 ? ?|m2 ? ? ?|m2 ? ? ? ?| |sp2 te2 sg2 a2 b2 ff2 xx2 l2]; try contradiction;
    destruct (bare ef1) as [m3 ? ?|m3 ? ? ?|m3 ? ? ? ?| |sp3 te3 sg3 a3 b3 ff3 xx3 l3]; try contradiction; destruct (bare ef2) as [m4 ? ?|m4 ? ? ?|m4 ? ? ? ?| |sp4 te4 sg4 a4 b4 ff4 xx4 l4]; try contradiction; cbn [options knows reads replies] in *.
  - destruct O1 as [-> _]. destruct O2 as [-> _]. subst m4. rewrite (values_unique _ _ _ _ _ R1 V1) in P1. rewrite (values_unique _ _ _ _ _ R2 V2), <- SI in P2. congruence.
  - destruct O1 as [-> _]. destruct O2 as [-> _]. subst m4. destruct P1 as (u1 & E1 & ->). destruct P2 as (u2 & E2 & ->). rewrite (values_unique _ _ _ _ _ R1 V1), SI, <- (values_unique _ _ _ _ _ R2 V2), E2 in E1. injection E1 as <-. reflexivity.
  - destruct O1 as [-> _]. destruct O2 as [-> _]. subst m4. destruct P1 as (u1 & q1 & E1 & H1 & ->). destruct P2 as (u2 & q2 & E2 & H2 & ->). rewrite (values_unique _ _ _ _ _ R1 V1), SI, <- (values_unique _ _ _ _ _ R2 V2), E2 in E1. injection E1 as <-. rewrite H2 in H1. injection H1 as <-. reflexivity.
  - destruct O1 as (-> & -> & _ & ->). destruct O2 as (-> & -> & _ & ->). destruct SF as (-> & -> & ->). destruct K1 as (_ & f1 & n1 & _ & _ & _ & _ & MN1 & L1). destruct K2 as (_ & f2 & n2 & _ & _ & _ & _ & MN2 & L2).
    destruct P1 as (p1 & q1 & E1 & ->). destruct P2 as (p2 & q2 & E2 & ->). rewrite L1 in E1. injection E1 as <- _. rewrite L2 in E2. injection E2 as <- _. assert (n1 = n2) as -> by (unfold mode_named in *; destruct n1, n2; congruence).
    rewrite R1, R2, T. reflexivity.
Qed.

(** * Sums *)
Lemma Forall2_perm {A B} (Q : A -> B -> Prop) l l' : Permutation l l' -> forall v, Forall2 Q l v -> exists v', Permutation v v' /\ Forall2 Q l' v'.
Proof.
  induction 1 as [|a l l' PE IH|a b l|l l' l'' P1 IH1 P2 IH2]; intros v F.
  - exists v. auto.
  - inversion F as [|? x ? vs H F']; subst. destruct (IH _ F') as (v' & PV & F2). exists (x :: v'). auto.
  - inversion F as [|? x ? vs H F']; subst. inversion F' as [|? x' ? vs' H' F'']; subst. exists (x' :: x :: vs'). split; [constructor|]. auto.
  - destruct (IH1 _ F) as (v1 & PV1 & F1). destruct (IH2 _ F1) as (v2 & PV2 & F2). exists v2. split; [now transitivity v1|exact F2].
Qed.
Lemma Rsum_perm l l' : Permutation l l' -> Rsum l = Rsum l'.
Proof. unfold Rsum. induction 1; cbn [fold_right]; lra. Qed.
Lemma Rsum_two l l' : Rsum (l ++ l')%list = (Rsum l + Rsum l')%R.
Proof. unfold Rsum. induction l as [|a l IH]; cbn [fold_right app]; lra. Qed.
Lemma level_added tr1 tr2 names1 names2 extra k1 k2 s1 s2 trend : level tr1 names1 k1 s1 -> level tr2 names2 k2 s2 -> Permutation names2 (extra ++ names1) -> component_at tr1 "trend" k1 trend -> component_at tr2 "trend" k2 trend ->
  (forall n, In n names1 -> exists v, component_at tr1 n k1 v /\ component_at tr2 n k2 v) -> exists vs, Forall2 (fun n v => component_at tr2 n k2 v) extra vs /\ s2 = (s1 + Rsum vs)%R.
Proof.
  intros (vs1 & F1 & ->) (vs2 & F2 & ->) PE TA TB H. inversion F1 as [|? a ? vs1' CA F1']; inversion F2 as [|? b ? vs2' CB F2']; subst.
  assert (a = trend) as -> by (eapply component_unique; [exact CA|exact TA]). assert (b = trend) as -> by (eapply component_unique; [exact CB|exact TB]).
  destruct (Forall2_perm _ _ _ PE _ F2') as (w & PW & FW). apply Forall2_app_inv_l in FW as (we & wn & FE & FN & ->). exists we. split; [exact FE|].
  assert (E : wn = vs1'). { clear -FN F1' H. revert wn vs1' FN F1'. induction names1 as [|n l IH]; intros wn vs FN F; inversion FN; inversion F; subst; [reflexivity|]. f_equal; [|apply IH; auto; intros m I; apply H; now right].
    destruct (H n) as (v & C1 & C2); [now left|]. transitivity v; [|symmetry]; eapply component_unique; eauto. }
  subst wn. change (trend + Rsum vs2' = trend + Rsum vs1' + Rsum we)%R. rewrite (Rsum_perm _ _ PW), Rsum_two. lra.
Qed.

Section Any.
Variable ns_of : Z -> Z.
Variable order : list string -> list string.
Variable keep : path -> bool.
Context {TS : Type}.
Variable tr_fit_transform : TS -> frame R -> TS * res (frame R).
Variable tr_transform : TS -> frame R -> res (frame R).
Context {P : Type}.
Variable svi_run : Z -> nat -> nat -> prog arr -> res (list xr * P).
Variable nuts_run : Z -> nat -> nat -> nat -> prog arr -> res (nat -> nat -> env).
Variable latent_sites : prog arr -> list string.
Notation fit_forecaster := (fit_forecaster ns_of order keep tr_fit_transform svi_run nuts_run latent_sites).
Notation predict_model := (predict_model ns_of keep tr_transform).

Lemma options_scalar t iv rg lg : piecewise_options t iv rg lg -> scalar_piecewise t.
Proof. destruct t; try contradiction. intros (A & B & _). split; eauto. Qed.

Lemma c122_forecast : forall c1 c2 ob1 ob2 y1 y2 X1 X2 ob1' ob2' (f1 f2 : fitted (P := P)) ds, fit_forecaster c1 ob1 y1 X1 = (ob1', Ok f1) -> fit_forecaster c2 ob2 y2 X2 = (ob2', Ok f2) ->
  c_hier c1 = false -> c_hier c2 = false -> f_levels y1 = 0 -> f_levels y2 = 0 -> frame_wf y1 -> frame_wf y2 -> clean_config c1 -> clean_config c2 ->
  map r_time (f_rows y1) = ds -> map r_time (f_rows y2) = ds -> ds <> [] -> increasing (map (fun t => day (ns_of t)) ds) -> same_trend (o_trend ob1') (o_trend ob2') ->
  (forall Z, X1 = Some Z \/ X2 = Some Z -> frame_wf Z) -> (forall s Z s' Z', frame_wf Z -> tr_fit_transform s Z = (s', Ok Z') -> frame_wf Z') ->
  forall z1 z2 N1 N2 fh1 fh2 m1 m2 cut1 cut2 ts1 ts2 U1 U2, predict_model c1 ob1' f1 z1 N1 fh1 = Ok m1 -> predict_model c2 ob2' f2 z2 N2 fh2 = Ok m2 ->
  max_time (map r_time (f_rows z1)) = Ok cut1 -> max_time (map r_time (f_rows z2)) = Ok cut2 -> to_absolute cut1 fh1 = ts1 -> to_absolute cut2 fh2 = ts2 ->
  run_transform tr_transform ob1' (supplied N1 ts1) = Ok U1 -> run_transform tr_transform ob2' (supplied N2 ts2) = Ok U2 -> covers U1 ts1 -> covers U2 ts2 -> frame_wf U1 -> frame_wf U2 -> f_levels U1 = 0 -> f_levels U2 = 0 ->
  in_order ts1 -> in_order ts2 ->
  forall e1 e2 o1 o2 tr1 tr2, run e1 [] m1 = Ok (o1, tr1) -> run e2 [] m2 = Ok (o2, tr2) -> same_trend_parameters e1 e2 ->
  forall j1 j2 t r1 r2, nth_error ts1 j1 = Some t -> nth_error ts2 j2 = Some t -> In r1 (f_rows U1) -> In r2 (f_rows U2) -> r_time r1 = t -> r_time r2 = t ->
  forall names1 names2, map fst (p_effects (ft_prepared f1)) = names1 -> map fst (p_effects (ft_prepared f2)) = names2 ->
  let both := common c1 c2 (p_fitted (ft_prepared f1)) (p_fitted (ft_prepared f2)) (values_at U1 r1) (values_at U2 r2) e1 e2 in
  exists trend s1 s2, component_at tr1 "trend" j1 trend /\ component_at tr2 "trend" j2 trend /\
    level tr1 names1 j1 s1 /\ level tr2 names2 j2 s2 /\ (c_likelihood c1 = "normal" -> expected tr1 j1 s1) /\ (c_likelihood c2 = "normal" -> expected tr2 j2 s2) /\
    (forall name, In name names1 -> In name names2 -> both name -> exists v, component_at tr1 name j1 v /\ component_at tr2 name j2 v) /\
    (forall extra, Permutation names2 (extra ++ names1) -> (forall name, In name names1 -> both name) ->
       exists vs, Forall2 (fun name v => component_at tr2 name j2 v) extra vs /\ s2 = (s1 + Rsum vs)%R).
Proof.
  intros c1 c2 ob1 ob2 y1 y2 X1 X2 ob1' ob2' f1 f2 ds HF1 HF2 Hc1 Hc2 L1 L2 Wy1 Wy2 HC1 HC2 DS1 DS2 ND INC ST WX WT z1 z2 N1 N2 fh1 fh2 m1 m2 cut1 cut2 ts1 ts2 U1 U2 M1 M2 K1 K2 H1 H2 T1 T2 C1 C2 W1 W2 LX1 LX2 O1 O2
    e1 e2 o1 o2 tr1 tr2 RU1 RU2 SE j1 j2 t r1 r2 J1 J2 I1 I2 D1 D2 names1 names2 NM1 NM2 both.
  assert (NE1 : ts1 <> []) by (intros E; rewrite E in J1; destruct j1; discriminate). assert (NE2 : ts2 <> []) by (intros E; rewrite E in J2; destruct j2; discriminate).
  destruct (first_exists ds ND) as (t0 & FD). pose proof FD as FD1. rewrite <- DS1 in FD1. pose proof FD as FD2. rewrite <- DS2 in FD2.
  assert (TT1 : scalar_piecewise (o_trend ob1') \/ flat_trend (o_trend ob1')) by (destruct ST as [(iv & rg & lg & A & B & _)|[A B]]; [left; eapply options_scalar; eauto|auto]).
  assert (TT2 : scalar_piecewise (o_trend ob2') \/ flat_trend (o_trend ob2')) by (destruct ST as [(iv & rg & lg & A & B & _)|[A B]]; [left; eapply options_scalar; eauto|auto]).
  destruct (univariate_replies ns_of order keep tr_fit_transform tr_transform svi_run nuts_run latent_sites c1 ob1 ob1' y1 X1 f1 HF1 Hc1 L1 Wy1 HC1 TT1 ltac:(auto) WT _ FD1 _ _ _ _ _ _ _ M1 K1 H1 T1 C1 W1 LX1 NE1 O1 _ _ _ RU1) as (td1 & tv1 & lt1 & TD1 & E1 & G1 & LN1 & A1).
  destruct (univariate_replies ns_of order keep tr_fit_transform tr_transform svi_run nuts_run latent_sites c2 ob2 ob2' y2 X2 f2 HF2 Hc2 L2 Wy2 HC2 TT2 ltac:(auto) WT _ FD2 _ _ _ _ _ _ _ M2 K2 H2 T2 C2 W2 LX2 NE2 O2 _ _ _ RU2) as (td2 & tv2 & lt2 & TD2 & E2 & G2 & LN2 & A2).
  assert (TR : exists trend, nth_error (a_flat tv1) j1 = Some trend /\ nth_error (a_flat tv2) j2 = Some trend).
  { destruct ST as [(iv & rg & lg & PA & PB & IV)|[FA FB]].
    - pose proof (count_exists _ (List.length ds) iv rg IV eq_refl) as CC.
      destruct (c103_univariate ns_of order keep tr_fit_transform tr_transform svi_run nuts_run latent_sites _ _ _ _ _ _ _ _ _ _ HF1 Hc1 L1 HC1 PA IV _ DS1 INC CC _ _ _ _ _ _ M1 K1 H1 _ _ _ RU1) as (tw1 & TG1 & B1 & _).
      destruct (c103_univariate ns_of order keep tr_fit_transform tr_transform svi_run nuts_run latent_sites _ _ _ _ _ _ _ _ _ _ HF2 Hc2 L2 HC2 PB IV _ DS2 INC CC _ _ _ _ _ _ M2 K2 H2 _ _ _ RU2) as (tw2 & TG2 & B2 & _).
      rewrite G1 in TG1. injection TG1 as <-. rewrite G2 in TG2. injection TG2 as <-. eexists. split; [exact (B1 _ _ J1)|]. rewrite (B2 _ _ J2). f_equal. symmetry.
      assert (LA : forall u K, line_at e1 K iv 0 u = line_at e2 K iv 0 u).
      { intros u K. unfold line_at. rewrite (SE "offset" 0%nat) by (simpl; auto). f_equal. unfold sum_to. f_equal. apply map_ext. intros k. rewrite (SE "changepoint_coefficients") by (simpl; auto). reflexivity. }
      unfold trend_at. rewrite LA, (SE "capacity" 0%nat) by (simpl; auto). reflexivity.
    - assert (V1 : exists v, nth_error (a_flat tv1) j1 = Some v) by (destruct (nth_error (a_flat tv1) j1) eqn:Q; [eauto|]; apply nth_error_None in Q; assert (j1 < List.length ts1) by (apply nth_error_Some; congruence); lia).
      assert (V2 : exists v, nth_error (a_flat tv2) j2 = Some v) by (destruct (nth_error (a_flat tv2) j2) eqn:Q; [eauto|]; apply nth_error_None in Q; assert (j2 < List.length ts2) by (apply nth_error_Some; congruence); lia).
      destruct V1 as (v1 & V1). destruct V2 as (v2 & V2). exists v1. split; [exact V1|]. rewrite V2. f_equal.
      rewrite (flat_everywhere _ _ _ _ _ _ _ _ _ _ FA TD1 E1 V1), (flat_everywhere _ _ _ _ _ _ _ _ _ _ FB TD2 E2 V2). symmetry. apply SE. simpl. auto. }
  destruct TR as (trend & V1 & V2). assert (TA : component_at tr1 "trend" j1 trend) by (exists tv1; auto). assert (TB : component_at tr2 "trend" j2 trend) by (exists tv2; auto).
  destruct (c105_forecast _ _ _ _ _ _ _ _ _ _ _ _ _ _ HF1 HC1 Hc1 L1 TT1 _ _ _ _ _ _ _ M1 K1 H1 T1 C1 LX1 _ _ _ RU1) as (_ & d1 & GD1 & Q1).
  destruct (c105_forecast _ _ _ _ _ _ _ _ _ _ _ _ _ _ HF2 HC2 Hc2 L2 TT2 _ _ _ _ _ _ _ M2 K2 H2 T2 C2 LX2 _ _ _ RU2) as (_ & d2 & GD2 & Q2).
  destruct (Q1 j1) as (s1 & LV1 & LW1); [apply nth_error_Some; congruence|]. destruct (Q2 j2) as (s2 & LV2 & LW2); [apply nth_error_Some; congruence|]. rewrite NM1 in LV1. rewrite NM2 in LV2.
  assert (CO : forall name, In name names1 -> In name names2 -> both name -> exists v, component_at tr1 name j1 v /\ component_at tr2 name j2 v).
  { intros name IN1 IN2 (PR & CM). rewrite <- NM1 in IN1. rewrite <- NM2 in IN2. apply in_map_iff in IN1 as ((n1 & ef1) & E & IN1). cbn [fst] in E. subst n1. apply in_map_iff in IN2 as ((n2 & ef2) & E & IN2). cbn [fst] in E. subst n2.
    destruct (A1 _ _ IN1) as (ef01 & cols1 & w1 & CF1 & OP1 & KN1 & IF1 & DG1 & B1). destruct (A2 _ _ IN2) as (ef02 & cols2 & w2 & CF2 & OP2 & KN2 & IF2 & DG2 & B2).
    destruct (B1 _ _ _ J1 I1 D1) as (x1 & zz1 & tk1 & v1 & VA1 & RD1 & NT1 & NV1 & RP1). destruct (B2 _ _ _ J2 I2 D2) as (x2 & zz2 & tk2 & v2 & VA2 & RD2 & NT2 & NV2 & RP2).
    rewrite V1 in NT1. injection NT1 as <-. rewrite V2 in NT2. injection NT2 as <-. destruct (CM _ _ _ _ _ _ _ _ IF1 IF2 CF1 CF2 VA1 VA2) as [SF SI].
    apply (replies_ext _ (own_env e2 name)) in RP1; [|exact PR].
    assert (v1 = v2) as -> by (eapply (same_replies _ U1 U2 cols1 cols2 t0 ef01 ef02 ef1 ef2 r1 r2 x1 x2); eauto; congruence). exists v2. split; [exists w1|exists w2]; auto. }
  exists trend, s1, s2. split; [exact TA|]. split; [exact TB|]. split; [exact LV1|]. split; [exact LV2|].
  split; [intros LN; pose proof (law_expected _ _ _ _ _ _ _ _ _ GD1 LW1 ltac:(congruence)) as Q; rewrite LN in Q; exact Q|].
  split; [intros LN; pose proof (law_expected _ _ _ _ _ _ _ _ _ GD2 LW2 ltac:(congruence)) as Q; rewrite LN in Q; exact Q|].
  split; [exact CO|]. intros extra PE BO. eapply level_added; eauto. intros n I. apply CO; auto. eapply Permutation_in; [symmetry; exact PE|]. apply in_app_iff. now right.
Qed.
End Any.
