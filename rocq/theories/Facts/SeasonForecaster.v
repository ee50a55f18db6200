(** Seasons: forecasts of one series a whole number of periods apart. *)
From Coq Require Import Reals Lra ZArith String Ascii Bool List Lia Permutation.
From Verif.Model Require Import Base Num XFloat Frame Arr Prog Effect Expand Trend TrendProg Scale Engine Forecaster.
From Verif.Spec Require Import FrameSpec ProgSpec EffectSpec ForecasterSpec SiteSpec ShapeSpec AlignSpec OverlapSpec ResponseSpec ObservedSpec ComponentSpec UpwardSpec SeasonSpec.
From Verif.Facts Require Import BaseFacts FrameFacts NumFacts ArrFacts ProgFacts EffectFacts EffectPredict EffectFourier AlignFacts ExpandFacts ForecasterFacts ForecasterInv ForecasterProps ModelProps TotalFacts HorizonFacts OverlapFacts OverlapFrames OverlapForecaster SiteFacts ComponentFacts PosteriorFacts ResponseFacts ResponseEffects ResponseForecaster ObservedForecaster UpwardFacts UpwardForecaster.
From Verif.Facts Require CellForecaster.
Import ListNotations.
Local Open Scope string_scope.

Lemma waves_recur sp terms p t : common_period sp p -> waves (fourier_pairs sp terms) (t + p) = waves (fourier_pairs sp terms) t.
Proof.
  intros CP. rewrite <- !vals_waves. apply fourier_vals_periodic. intros s k I. apply CP. eapply fourier_pairs_sp; eauto.
Qed.

Lemma values_unique (U : frame R) r cols x x' : values_at U r cols x -> values_at U r cols x' -> x = x'.
Proof.
  unfold values_at. intros A B. rewrite A in B. clear A. revert x' B. induction x as [|a x IH]; intros [|a' x'] B; try discriminate; [reflexivity|]. injection B as -> B. f_equal. now apply IH.
Qed.

(** the relative value of the component is the same *)
Lemma recurs_replies env U1 U2 cols t0 p : forall ef0 ef r1 r2 x1 x2 z1 z2 trend1 trend2 v1 v2, options ef0 ef -> knows cols t0 ef -> recurs p ef0 x1 x2 -> r_time r2 = (r_time r1 + p)%Z ->
  values_at U1 r1 cols x1 -> values_at U2 r2 cols x2 -> reads U1 cols t0 ef r1 z1 -> reads U2 cols t0 ef r2 z2 ->
  replies env ef z1 trend1 v1 -> replies env ef z2 trend2 v2 -> exists m u, effect_mode ef0 m /\ v1 = modal m trend1 u /\ v2 = modal m trend2 u.
Proof.
  induction ef0 as [m d b|m d r b|m h s q b|inner IH tab ps b sc|sp terms sg arg b ff x l]; intros ef r1 r2 x1 x2 z1 z2 trend1 trend2 v1 v2 O K H T V1 V2 R1 R2 P1 P2;
    destruct ef as [m' d' b'|m' d' r' b'|m' h' s' q' b'|inner' tab' ps' b' sc'|sp' terms' sg' arg' b' ff' x' l']; try (destruct O; fail); cbn [options knows recurs reads replies effect_mode] in *.
  - destruct O as [<- _]. rewrite (values_unique _ _ _ _ _ R1 V1) in P1. rewrite (values_unique _ _ _ _ _ R2 V2), <- H in P2. eauto.
  - destruct O as [<- _]. destruct P1 as (u1 & E1 & ->). destruct P2 as (u2 & E2 & ->). assert (E : u1 = u2); [|subst u2; eauto].
    rewrite (values_unique _ _ _ _ _ R1 V1), H, <- (values_unique _ _ _ _ _ R2 V2) in E1. congruence.
  - destruct O as [<- _]. destruct P1 as (u1 & q1 & E1 & H1 & ->). destruct P2 as (u2 & q2 & E2 & H2 & ->). assert (E : u1 = u2).
    { rewrite (values_unique _ _ _ _ _ R1 V1), H, <- (values_unique _ _ _ _ _ R2 V2) in E1. congruence. }
    rewrite E, H2 in H1. injection H1 as <-. eauto.
  - destruct K as [_ K]. eapply IH; eauto.
  - destruct O as (-> & -> & _ & ->). destruct K as (_ & f0 & mo & _ & _ & _ & _ & MN & LQ). destruct P1 as (n1 & b1 & E1 & ->). destruct P2 as (n2 & b2 & E2 & ->). rewrite E1 in LQ. injection LQ as -> _. rewrite E1 in E2. injection E2 as <- _.
    exists mo. exists (weighted z1 (env "coefs")). split; [exact MN|]. split; [reflexivity|]. rewrite R1, R2, T. f_equal. f_equal. replace (r_time r1 + p - t0)%Z with (r_time r1 - t0 + p)%Z by lia. now apply waves_recur.
Qed.

Lemma effect_mode_unique : forall ef m m', effect_mode ef m -> effect_mode ef m' -> m = m'.
Proof.
  induction ef; intros m' m'' A B; cbn [effect_mode] in *; try congruence; [now apply IHef|]. unfold mode_named in *. destruct m', m''; congruence.
Qed.

(** sums whose trends differ and whose other parts are the same *)
Lemma level_trend tr1 tr2 names k1 k2 s1 s2 trend1 trend2 : level tr1 names k1 s1 -> level tr2 names k2 s2 -> component_at tr1 "trend" k1 trend1 -> component_at tr2 "trend" k2 trend2 ->
  (forall n, In n names -> exists v, component_at tr1 n k1 v /\ component_at tr2 n k2 v) -> (s2 - s1 = trend2 - trend1)%R.
Proof.
  intros (vs1 & F1 & ->) (vs2 & F2 & ->) TA TB H. inversion F1 as [|? a ? vs1' CA F1']; inversion F2 as [|? b ? vs2' CB F2']; subst.
  rewrite (component_unique _ _ _ _ _ CA TA), (component_unique _ _ _ _ _ CB TB). assert (E : vs1' = vs2'); [|subst vs2'; unfold Rsum; cbn [fold_right]; ring].
  clear F1 F2. revert vs1' vs2' F1' F2' H. induction names as [|n names IH]; intros vs1 vs2 F1 F2 H; inversion F1; inversion F2; subst; [reflexivity|]. f_equal; [|apply IH; auto; intros m I; apply H; now right].
  destruct (H n) as (v & CV1 & CV2); [now left|]. transitivity v; [|symmetry]; eapply component_unique; eauto.
Qed.

Section Any.
Variable ns_of : Z -> Z.
Variable order : list string -> list string.
Variable keep : path -> bool.
Context {TS : Type}.
Variable tr_fit_transform : TS -> frame R -> TS * res (frame R).
Variable tr_transform : TS -> frame R -> res (frame R).
Context {P : Type}.
Variable svi_run : Z -> nat -> nat -> prog arr -> res (list xr * P).
Variable nuts_run : Z -> nat -> nat -> nat -> prog arr -> res (nat -> nat -> env).
Variable latent_sites : prog arr -> list string.
Notation fit_forecaster := (fit_forecaster ns_of order keep tr_fit_transform svi_run nuts_run latent_sites).
Notation predict_model := (predict_model ns_of keep tr_transform).

(** a flat trend has the same value everywhere *)
Lemma flat_everywhere e t X fh td tv lt j v : flat_trend t -> trend_transform ns_of t X fh = Ok td -> eval e (trend_predict t td) = Ok (tv, lt) -> nth_error (a_flat tv) j = Some v -> v = e "trend_flat_coefficient" 0%nat.
Proof.
  intros F T E N. destruct t as [| sc b loc|]; try contradiction. cbn [trend_transform] in T. inv_bind T. injection T as <-. cbn [trend_predict] in E. destruct loc as [loc|]; [|discriminate].
  pose proof (proj2 (eval_yields _ _ _) (ex_intro _ _ E)) as Y. clear E. unfold flat_prog in Y. destruct (flat_prior loc sc) as [cc rr]. apply yields_bind in Y as (co & Yc & Y). apply yields_ret in Y. subst tv. apply yields_sample in Yc. subst co.
  unfold flat_predict, arr_map, flat_transform in N. cbn [a_flat] in N. apply nth_error_In in N. apply in_map_iff in N as (u & <- & I). apply repeat_spec in I. subst u. apply Rmult_1_l.
Qed.

Section Fitted.
Variables (c : config) (ob ob' : objects (TS := TS)) (y : frame R) (X : option (frame R)) (f : fitted (P := P)).
Hypothesis HF : fit_forecaster c ob y X = (ob', Ok f).
Hypothesis Hc : c_hier c = false.
Hypothesis L : f_levels y = 0.
Hypothesis Wy : frame_wf y.
Hypothesis HC : clean_config c.
Hypothesis TT : scalar_piecewise (o_trend ob') \/ flat_trend (o_trend ob').
Hypothesis WX : forall Z, X = Some Z -> frame_wf Z.
Hypothesis WT : forall s Z s' Z', frame_wf Z -> tr_fit_transform s Z = (s', Ok Z') -> frame_wf Z'.

Section Pair.
Variables (y1 y2 : frame R) (X1 X2 : option (frame R)) (fh1 fh2 : horizon) (m1 m2 : prog arr) (cut1 cut2 : Z) (ts1 ts2 : list Z) (U1 U2 : frame R).
Hypotheses (M1 : predict_model c ob' f y1 X1 fh1 = Ok m1) (M2 : predict_model c ob' f y2 X2 fh2 = Ok m2).
Hypotheses (K1 : max_time (map r_time (f_rows y1)) = Ok cut1) (K2 : max_time (map r_time (f_rows y2)) = Ok cut2).
Hypotheses (H1 : to_absolute cut1 fh1 = ts1) (H2 : to_absolute cut2 fh2 = ts2).
Hypotheses (T1 : run_transform tr_transform ob' (supplied X1 ts1) = Ok U1) (T2 : run_transform tr_transform ob' (supplied X2 ts2) = Ok U2).
Hypotheses (C1 : covers U1 ts1) (C2 : covers U2 ts2) (W1 : frame_wf U1) (W2 : frame_wf U2) (L1 : f_levels U1 = 0) (L2 : f_levels U2 = 0).
Hypotheses (O1 : in_order ts1) (O2 : in_order ts2).
Variables (e : env) (o1 o2 : arr) (tr1 tr2 : trace).
Hypotheses (R1 : run e [] m1 = Ok (o1, tr1)) (R2 : run e [] m2 = Ok (o2, tr2)).
Variables (p t1 t2 : Z) (j1 j2 : nat) (r1 r2 : row R).
Hypotheses (J1 : nth_error ts1 j1 = Some t1) (J2 : nth_error ts2 j2 = Some t2) (I1 : In r1 (f_rows U1)) (I2 : In r2 (f_rows U2)) (D1 : r_time r1 = t1) (D2 : r_time r2 = t2).
Hypothesis PD : t2 = (t1 + p)%Z.
Hypothesis NY : f_rows y <> [].

Definition unchanged name : Prop := forall ef ef0 cols x1 x2, In (name, ef, cols) (p_fitted (ft_prepared f)) -> configured c name ef0 -> values_at U1 r1 cols x1 -> values_at U2 r2 cols x2 -> recurs p ef0 x1 x2.

Lemma season_components : exists trend1 trend2, component_at tr1 "trend" j1 trend1 /\ component_at tr2 "trend" j2 trend2 /\ (flat_trend (o_trend ob') -> trend1 = trend2) /\
  forall name, In name (map fst (p_effects (ft_prepared f))) -> unchanged name ->
    exists ef0 m u, configured c name ef0 /\ effect_mode ef0 m /\ component_at tr1 name j1 (modal m trend1 u) /\ component_at tr2 name j2 (modal m trend2 u).
Proof.
  assert (N1 : ts1 <> []) by (intros E; rewrite E in J1; destruct j1; discriminate). assert (N2 : ts2 <> []) by (intros E; rewrite E in J2; destruct j2; discriminate).
  destruct (first_exists (map r_time (f_rows y))) as (t0 & FD); [destruct (f_rows y); [congruence|discriminate]|].
  destruct (univariate_replies ns_of order keep tr_fit_transform tr_transform svi_run nuts_run latent_sites c ob ob' y X f HF Hc L Wy HC TT WX WT _ FD _ _ _ _ _ _ _ M1 K1 H1 T1 C1 W1 L1 N1 O1 _ _ _ R1) as (td1 & tv1 & lt1 & TD1 & E1 & G1 & LN1 & A1).
  destruct (univariate_replies ns_of order keep tr_fit_transform tr_transform svi_run nuts_run latent_sites c ob ob' y X f HF Hc L Wy HC TT WX WT _ FD _ _ _ _ _ _ _ M2 K2 H2 T2 C2 W2 L2 N2 O2 _ _ _ R2) as (td2 & tv2 & lt2 & TD2 & E2 & G2 & LN2 & A2).
  assert (V1 : exists v, nth_error (a_flat tv1) j1 = Some v) by (destruct (nth_error (a_flat tv1) j1) eqn:Q; [eauto|]; apply nth_error_None in Q; assert (j1 < List.length ts1) by (apply nth_error_Some; congruence); lia).
  assert (V2 : exists v, nth_error (a_flat tv2) j2 = Some v) by (destruct (nth_error (a_flat tv2) j2) eqn:Q; [eauto|]; apply nth_error_None in Q; assert (j2 < List.length ts2) by (apply nth_error_Some; congruence); lia).
  destruct V1 as (trend1 & V1). destruct V2 as (trend2 & V2).
  exists trend1, trend2. split; [exists tv1; auto|]. split; [exists tv2; auto|].
  split; [intros FT; rewrite (flat_everywhere _ _ _ _ _ _ _ _ _ FT TD1 E1 V1); symmetry; exact (flat_everywhere _ _ _ _ _ _ _ _ _ FT TD2 E2 V2)|].
  intros name I UN. apply in_map_iff in I as ((nm & ef) & <- & I). cbn [fst] in *.
  destruct (A1 _ _ I) as (ef0 & cols & w1 & CF & OP & KN1 & IF & DG1 & B1). destruct (A2 _ _ I) as (_ & cols2 & w2 & _ & _ & KN2 & _ & DG2 & B2).
  pose proof (knows_input _ _ _ KN1) as Q. rewrite (knows_input _ _ _ KN2) in Q. injection Q as ->.
  destruct (B1 _ _ _ J1 I1 D1) as (x1 & z1 & tk1 & v1 & VA1 & RD1 & NT1 & NV1 & RP1). destruct (B2 _ _ _ J2 I2 D2) as (x2 & z2 & tk2 & v2 & VA2 & RD2 & NT2 & NV2 & RP2).
  rewrite V1 in NT1. injection NT1 as <-. rewrite V2 in NT2. injection NT2 as <-.
  destruct (recurs_replies _ U1 U2 cols t0 p ef0 ef r1 r2 x1 x2 z1 z2 _ _ v1 v2 OP KN1 (UN _ _ _ _ _ IF CF VA1 VA2) ltac:(congruence) VA1 VA2 RD1 RD2 RP1 RP2) as (m & u & MO & -> & ->).
  exists ef0, m, u. split; [exact CF|]. split; [exact MO|]. split; [exists w1; auto|exists w2; auto].
Qed.

Lemma c120_forecast : (c_likelihood c = "gamma" -> 0 < e "noise_scale" 0%nat)%R ->
  exists trend1 trend2, component_at tr1 "trend" j1 trend1 /\ component_at tr2 "trend" j2 trend2 /\ (flat_trend (o_trend ob') -> trend1 = trend2) /\
  (forall name, In name (map fst (p_effects (ft_prepared f))) -> unchanged name ->
    exists ef0 m u, configured c name ef0 /\ effect_mode ef0 m /\ component_at tr1 name j1 (modal m trend1 u) /\ component_at tr2 name j2 (modal m trend2 u)) /\
  ((forall name, In name (map fst (p_effects (ft_prepared f))) -> unchanged name) -> exists x1 x2, expected tr1 j1 x1 /\ expected tr2 j2 x2 /\ (trend1 = trend2 -> x1 = x2) /\
    (c_likelihood c = "normal" -> (forall name ef0, In name (map fst (p_effects (ft_prepared f))) -> configured c name ef0 -> effect_mode ef0 Additive) -> (x2 - x1 = trend2 - trend1)%R)).
Proof.
  intros NS. destruct season_components as (trend1 & trend2 & TA & TB & FL & A). exists trend1, trend2. split; [exact TA|]. split; [exact TB|]. split; [exact FL|]. split; [exact A|]. intros UN.
  destruct (c105_forecast _ _ _ _ _ _ _ _ _ _ _ _ _ _ HF HC Hc L TT _ _ _ _ _ _ _ M1 K1 H1 T1 C1 L1 _ _ _ R1) as (_ & d1 & G1 & Q1).
  destruct (c105_forecast _ _ _ _ _ _ _ _ _ _ _ _ _ _ HF HC Hc L TT _ _ _ _ _ _ _ M2 K2 H2 T2 C2 L2 _ _ _ R2) as (_ & d2 & G2 & Q2).
  destruct (Q1 j1) as (s1 & LV1 & LW1); [apply nth_error_Some; congruence|]. destruct (Q2 j2) as (s2 & LV2 & LW2); [apply nth_error_Some; congruence|].
  eexists _, _. split; [exact (law_expected _ _ _ _ _ _ _ _ _ G1 LW1 NS)|]. split; [exact (law_expected _ _ _ _ _ _ _ _ _ G2 LW2 NS)|]. split.
  - intros E. assert (S : s1 = s2); [|now rewrite S]. enough (s2 - s1 = 0)%R by lra. rewrite (level_trend _ _ _ _ _ _ _ _ _ LV1 LV2 TA TB); [lra|].
    intros n I. destruct (A n I (UN n I)) as (ef0 & m & u & _ & _ & CA & CB). rewrite E in CA. eauto.
  - intros LN AD. rewrite LN. change (String.eqb "normal" "normal") with true. cbv iota. apply (level_trend _ _ _ _ _ _ _ _ _ LV1 LV2 TA TB).
    intros n I. destruct (A n I (UN n I)) as (ef0 & m & u & CF & MO & CA & CB). rewrite (effect_mode_unique _ _ _ MO (AD _ _ I CF)) in CA, CB. exists u. auto.
Qed.
End Pair.
End Fitted.
End Any.
