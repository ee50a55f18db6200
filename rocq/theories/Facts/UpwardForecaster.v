(** Raised inputs: forecasts of one series. *)
From Coq Require Import Reals Lra ZArith String Ascii Bool List Lia Permutation.
From Verif.Model Require Import Base Num XFloat Frame Arr Prog Effect Expand Trend TrendProg Scale Engine Forecaster.
From Verif.Spec Require Import FrameSpec ProgSpec EffectSpec ForecasterSpec SiteSpec ShapeSpec AlignSpec OverlapSpec ResponseSpec ObservedSpec ComponentSpec UpwardSpec.
From Verif.Facts Require Import BaseFacts FrameFacts NumFacts ArrFacts ProgFacts EffectFacts EffectPredict EffectFourier AlignFacts ExpandFacts ForecasterFacts ForecasterInv ForecasterProps ModelProps TotalFacts HorizonFacts OverlapFacts OverlapFrames OverlapForecaster CellForecaster SiteFacts ComponentFacts PosteriorFacts DensityFacts DocsForecaster ResponseFacts ResponseEffects ResponseForecaster ObservedForecaster UpwardFacts.
Import ListNotations.
Local Open Scope string_scope.

Lemma first_exists l : l <> [] -> exists t0, first_date l t0.
Proof.
  induction l as [|a l IH]; [congruence|]. intros _. destruct l as [|b l]; [exists a; split; [now left|intros t [->|[]]; lia]|]. destruct IH as (t0 & I & M); [discriminate|].
  destruct (Z.le_ge_cases a t0) as [L|L].
  - exists a. split; [now left|]. intros t [->|H]; [lia|]. specialize (M t H). lia.
  - exists t0. split; [now right|]. intros t [->|H]; [lia|]. now apply M.
Qed.

Section Any.
Variable ns_of : Z -> Z.
Variable order : list string -> list string.
Variable keep : path -> bool.
Context {TS : Type}.
Variable tr_fit_transform : TS -> frame R -> TS * res (frame R).
Variable tr_transform : TS -> frame R -> res (frame R).
Context {P : Type}.
Variable svi_run : Z -> nat -> nat -> prog arr -> res (list xr * P).
Variable nuts_run : Z -> nat -> nat -> nat -> prog arr -> res (nat -> nat -> env).
Variable latent_sites : prog arr -> list string.
Notation fit_forecaster := (fit_forecaster ns_of order keep tr_fit_transform svi_run nuts_run latent_sites).
Notation predict_model := (predict_model ns_of keep tr_transform).

Section Fitted.
Variables (c : config) (ob ob' : objects (TS := TS)) (y : frame R) (X : option (frame R)) (f : fitted (P := P)).
Hypothesis HF : fit_forecaster c ob y X = (ob', Ok f).
Hypothesis Hc : c_hier c = false.
Hypothesis L : f_levels y = 0.
Hypothesis Wy : frame_wf y.
Hypothesis HC : clean_config c.
Hypothesis TT : scalar_piecewise (o_trend ob') \/ flat_trend (o_trend ob').
Hypothesis WX : forall Z, X = Some Z -> frame_wf Z.
Hypothesis WT : forall s Z s' Z', frame_wf Z -> tr_fit_transform s Z = (s', Ok Z') -> frame_wf Z'.

(** what the components of one forecast are *)
Lemma univariate_replies t0 : first_date (map r_time (f_rows y)) t0 ->
  forall y2 X2 fh m cutoff ts Xt, predict_model c ob' f y2 X2 fh = Ok m -> max_time (map r_time (f_rows y2)) = Ok cutoff -> to_absolute cutoff fh = ts ->
  run_transform tr_transform ob' (supplied X2 ts) = Ok Xt -> covers Xt ts -> frame_wf Xt -> f_levels Xt = 0 -> ts <> [] -> in_order ts ->
  forall e o tr, run e [] m = Ok (o, tr) ->
  exists td tv lt, trend_transform ns_of (o_trend ob') Xt ts = Ok td /\ eval e (trend_predict (o_trend ob') td) = Ok (tv, lt) /\ dict_get tr "trend" = Some (SDet tv) /\ List.length (a_flat tv) = List.length ts /\
  forall name ef, In (name, ef) (p_effects (ft_prepared f)) ->
    exists ef0 cols w, configured c name ef0 /\ options ef0 ef /\ knows cols t0 ef /\ In (name, ef, cols) (p_fitted (ft_prepared f)) /\ dict_get tr name = Some (SDet w) /\
    (forall j t r, nth_error ts j = Some t -> In r (f_rows Xt) -> r_time r = t ->
       exists x z trend v, values_at Xt r cols x /\ reads Xt cols t0 ef r z /\ nth_error (a_flat tv) j = Some trend /\ nth_error (a_flat w) j = Some v /\ replies (own_env e name) ef z trend v).
Proof.
  intros FD y2 X2 fh m cutoff ts Xt Hm Hcut Hts RX CV WV LV N O e o tr RU.
  pose proof (univariate_state ns_of order keep tr_fit_transform svi_run nuts_run latent_sites _ _ _ _ _ _ _ HF Hc L FD WX WT Wy) as ST. destruct (forecaster_clean _ _ _ _ _ _ _ _ _ _ _ _ _ HF HC) as (C1 & C2 & HX).
  destruct (predict_univariate _ _ _ _ _ _ _ _ _ _ _ _ Hm Hc (HX Hc) Hcut Hts) as (Xa & td & data & RX2 & TD & TE & ->).
  assert (XS : supplied X2 ts = match X2 with None => empty_frame 0 (map (fun t => ([], t)) ts) | Some X => X end) by (unfold supplied, empty_frame; destruct X2; [reflexivity|now rewrite map_map]). rewrite XS in RX. rewrite RX in RX2. injection RX2 as <-.
  destruct (one_run (fun _ _ => 0%R) c (ft_scale f) (ft_prepared f) (o_trend ob') td None data HX C1 C2) as (k & _ & ONE). destruct (ONE _ _ _ RU) as (mm & tv & lt & gs & l2 & ND & T & GS & _ & _ & E).
  destruct (univariate_trend_length ns_of order keep tr_fit_transform svi_run nuts_run latent_sites _ _ _ _ _ _ _ _ _ _ _ HF Hc L TT CV LV TD (proj2 (eval_yields _ _ _) (ex_intro _ _ T))) as [WTV LTV].
  exists td, tv, lt. split; [exact TD|]. split; [exact T|]. split; [apply dict_get_nodup; [exact ND|]; rewrite E; apply in_app_iff; right; now left|]. split; [exact LTV|]. intros name ef I.
  assert (HN : non_skipped (p_fitted (ft_prepared f)) = Ok (p_effects (ft_prepared f))).
  { pose proof HF as HF'. apply fit_forecaster_inv in HF'. destruct HF' as (s & ys & p & m & post & _ & _ & HF' & _ & EF). unfold fit_data in HF'. rewrite Hc in HF'. apply univariate_fit_inv in HF'. rewrite EF. cbn [ft_prepared].
    now destruct HF' as (tr0 & t & yt & X1 & Xe & td' & data' & _ & _ & _ & _ & _ & _ & _ & _ & _ & HN & _). }
  destruct (prepared_entry _ _ _ _ _ HN TE name ef I) as (cols & XC & d & IF & SC & TR & SK & DG). destruct (ST _ _ _ IF) as [K (ef0 & CF & OP)].
  assert (GI : exists w l, eval (own_env e name) (predict ef d [("trend", tv)]) = Ok (w, l) /\ incl (own_sites (name, ef) (w, l)) tr).
  { rewrite E. clear -GS I DG. revert I GS. generalize (p_effects (ft_prepared f)). intros effs I. revert gs. induction effs as [|ne effs IH]; intros gs GS; [destruct I|]. inversion GS as [|? g ? gs' (x & Dx & Ex) GS']; subst. destruct I as [->|I].
    - cbn [fst snd] in *. rewrite DG in Dx. injection Dx as <-. destruct g as [w l]. exists w, l. split; [exact Ex|]. intros z Hz. apply in_or_app. right. right. apply in_or_app. left. cbn [combine map concat fst snd]. apply in_or_app. now left.
    - destruct (IH I gs' GS') as (w & l & H1 & H2). exists w, l. split; [exact H1|]. intros z Hz. apply H2 in Hz. apply in_app_or in Hz as [Hz|[Hz|Hz]]; apply in_or_app; [now left|right; now left|]. right. right. apply in_app_or in Hz as [Hz|Hz]; apply in_or_app; [left|now right].
      cbn [combine map concat fst snd]. apply in_or_app. now right. }
  destruct GI as (w & l & EV & IN). pose proof (proj2 (eval_yields _ _ _) (ex_intro _ _ EV)) as YV.
  destruct (transform_reads cols t0 ts N O Xt XC WV LV CV ef d _ _ _ SC K SK TR YV) as (rows & kk & INP & RD). pose proof (Forall2_len _ _ _ RD) as LR.
  assert (SO : List.length (series_of Xt) = 1) by (unfold series_of; now rewrite LV). rewrite (covered_rows _ _ CV), SO, Nat.mul_1_l in LR.
  assert (RN : rows <> []) by (intros ->; destruct ts; [congruence|discriminate]).
  exists ef0, cols, w. split; [exact CF|]. split; [exact OP|]. split; [exact K|]. split; [exact IF|]. split. { apply dict_get_nodup; [exact ND|]. apply IN. unfold own_sites. cbn [fst snd]. apply in_or_app. right. now left. }
  intros j t r Hj Hr Ht. assert (NJ : nth_error (f_rows (filter_fh ts Xt)) j = Some r).
  { assert (S0 : nth_error (series_of Xt) 0 = Some []) by (unfold series_of; now rewrite LV). destruct (covered_nth _ _ _ _ _ _ CV S0 Hj) as (r' & E' & P' & T'). cbn [Nat.mul Nat.add] in E'.
    assert (r = r'); [|now subst]. apply (nodup_map_inj (fun r => (r_path r, r_time r)) (f_rows (filter_fh ts Xt))).
    - change (NoDup (labels (filter_fh ts Xt))). rewrite (covers_labels _ _ CV). apply nodup_pairs; [apply series_of_nodup|now apply in_order_nodup].
    - unfold filter_fh, filter_rows. cbn [f_rows]. apply filter_In. split; [exact Hr|]. apply existsb_exists. exists t. split; [now apply nth_error_In in Hj|]. apply Z.eqb_eq. exact Ht.
    - now apply nth_error_In in E'.
    - destruct (WV r Hr) as [_ PR]. rewrite LV in PR. destruct (r_path r); [|discriminate]. congruence. }
  destruct (Forall2_nth_error_l _ _ _ RD j r NJ) as (z & HZ & RZ). destruct (predict_replies _ tv WTV ef rows kk d w RN INP ltac:(congruence) YV j z HZ) as (tk & v & HT & HV & RP).
  assert (VX : exists x, values_at Xt r cols x).
  { destruct (select_value Xt XC cols WV SC) as (g & _ & _ & _ & G). exists (r_vals (g r)). destruct (G r Hr) as (_ & _ & LG & VG). apply (nth_ext _ _ None None); [now rewrite !map_length|]. intros q Hq. rewrite map_length in Hq.
    destruct (nth_error cols q) as [cq|] eqn:EC; [|apply nth_error_None in EC; lia]. rewrite (nth_error_nth _ q None (map_nth_error _ q cols EC)). rewrite (VG q cq EC). symmetry. rewrite (nth_indep _ None (Some 0%R)) by (rewrite map_length; lia). apply (map_nth Some). }
  destruct VX as (x & VX). exists x, z, tk, v. auto.
Qed.

(** the trend at a common date *)
Lemma trend_common e ts1 ts2 U1 U2 td1 td2 tv1 tv2 lt1 lt2 : in_order ts1 -> in_order ts2 -> covers U1 ts1 -> covers U2 ts2 -> f_levels U1 = 0 -> f_levels U2 = 0 ->
  trend_transform ns_of (o_trend ob') U1 ts1 = Ok td1 -> trend_transform ns_of (o_trend ob') U2 ts2 = Ok td2 ->
  eval e (trend_predict (o_trend ob') td1) = Ok (tv1, lt1) -> eval e (trend_predict (o_trend ob') td2) = Ok (tv2, lt2) ->
  forall t j1 j2, nth_error ts1 j1 = Some t -> nth_error ts2 j2 = Some t -> exists v, nth_error (a_flat tv1) j1 = Some v /\ nth_error (a_flat tv2) j2 = Some v.
Proof.
  intros O1 O2 C1 C2 L1 L2 T1 T2 E1 E2 t j1 j2 J1 J2.
  destruct (univariate_trend_fit _ _ _ _ _ _ _ _ _ _ _ _ _ HF Hc) as (tr0 & X1 & yt & HT & LT & _).
  assert (S1 : List.length (series_of U1) = 1) by (unfold series_of; now rewrite L1). assert (S2 : List.length (series_of U2) = 1) by (unfold series_of; now rewrite L2).
  assert (NS : n_series_of yt = 1) by (unfold n_series_of; now rewrite LT, L).
  assert (G : same_there 1 ts1 ts2 (a_flat tv1) (a_flat tv2)).
  { destruct TT as [SP|FT].
    - destruct (CellForecaster.piecewise_trend_same ns_of order e ts1 ts2 O1 O2 _ _ _ _ _ _ _ _ _ HT SP ltac:(rewrite NS; discriminate) T1 T2) as (sq & RT). rewrite NS in RT. destruct (RT _ _ _ _ E1 E2) as [(_ & _ & _ & _ & Q) _]. exact Q.
    - pose proof (CellForecaster.flat_trend_same ns_of order e ts1 ts2 _ _ _ _ _ _ _ _ _ HT FT C1 C2 S1 S2 T1 T2) as RT. destruct (RT _ _ _ _ E1 E2) as [(_ & _ & _ & _ & Q) _]. exact Q. }
  apply G. exists 0, j1, j2, t. cbn. auto.
Qed.

(** two forecasts *)
Section Pair.
Variables (y1 y2 : frame R) (X1 X2 : option (frame R)) (fh1 fh2 : horizon) (m1 m2 : prog arr) (cut1 cut2 : Z) (ts1 ts2 : list Z) (U1 U2 : frame R).
Hypotheses (M1 : predict_model c ob' f y1 X1 fh1 = Ok m1) (M2 : predict_model c ob' f y2 X2 fh2 = Ok m2).
Hypotheses (K1 : max_time (map r_time (f_rows y1)) = Ok cut1) (K2 : max_time (map r_time (f_rows y2)) = Ok cut2).
Hypotheses (H1 : to_absolute cut1 fh1 = ts1) (H2 : to_absolute cut2 fh2 = ts2).
Hypotheses (T1 : run_transform tr_transform ob' (supplied X1 ts1) = Ok U1) (T2 : run_transform tr_transform ob' (supplied X2 ts2) = Ok U2).
Hypotheses (C1 : covers U1 ts1) (C2 : covers U2 ts2) (W1 : frame_wf U1) (W2 : frame_wf U2) (L1 : f_levels U1 = 0) (L2 : f_levels U2 = 0).
Hypotheses (O1 : in_order ts1) (O2 : in_order ts2).
Variables (e : env) (o1 o2 : arr) (tr1 tr2 : trace).
Hypotheses (R1 : run e [] m1 = Ok (o1, tr1)) (R2 : run e [] m2 = Ok (o2, tr2)).
Variables (t : Z) (j1 j2 : nat) (r1 r2 : row R).
Hypotheses (J1 : nth_error ts1 j1 = Some t) (J2 : nth_error ts2 j2 = Some t) (I1 : In r1 (f_rows U1)) (I2 : In r2 (f_rows U2)) (D1 : r_time r1 = t) (D2 : r_time r2 = t).

Lemma pair_replies : f_rows y <> [] -> exists trend, component_at tr1 "trend" j1 trend /\ component_at tr2 "trend" j2 trend /\
  forall name, In name (map fst (p_effects (ft_prepared f))) -> exists ef ef0 cols x1 x2 z1 z2 v1 v2 t0, configured c name ef0 /\ options ef0 ef /\ In (name, ef, cols) (p_fitted (ft_prepared f)) /\
    component_at tr1 name j1 v1 /\ component_at tr2 name j2 v2 /\ values_at U1 r1 cols x1 /\ values_at U2 r2 cols x2 /\ reads U1 cols t0 ef r1 z1 /\ reads U2 cols t0 ef r2 z2 /\
    replies (own_env e name) ef z1 trend v1 /\ replies (own_env e name) ef z2 trend v2.
Proof.
  intros NY. assert (N1 : ts1 <> []) by (intros E; rewrite E in J1; destruct j1; discriminate). assert (N2 : ts2 <> []) by (intros E; rewrite E in J2; destruct j2; discriminate).
  destruct (first_exists (map r_time (f_rows y))) as (t0 & FD); [destruct (f_rows y); [congruence|discriminate]|].
  destruct (univariate_replies _ FD _ _ _ _ _ _ _ M1 K1 H1 T1 C1 W1 L1 N1 O1 _ _ _ R1) as (td1 & tv1 & lt1 & TD1 & E1 & G1 & _ & A1).
  destruct (univariate_replies _ FD _ _ _ _ _ _ _ M2 K2 H2 T2 C2 W2 L2 N2 O2 _ _ _ R2) as (td2 & tv2 & lt2 & TD2 & E2 & G2 & _ & A2).
  destruct (trend_common _ _ _ _ _ _ _ _ _ _ _ O1 O2 C1 C2 L1 L2 TD1 TD2 E1 E2 _ _ _ J1 J2) as (trend & V1 & V2).
  exists trend. split; [exists tv1; auto|]. split; [exists tv2; auto|]. intros name I. apply in_map_iff in I as ((nm & ef) & <- & I). cbn [fst].
  destruct (A1 _ _ I) as (ef0 & cols & w1 & CF & OP & KN1 & IF & DG1 & B1). destruct (A2 _ _ I) as (_ & cols2 & w2 & _ & _ & KN2 & _ & DG2 & B2).
  pose proof (knows_input _ _ _ KN1) as Q. rewrite (knows_input _ _ _ KN2) in Q. injection Q as ->.
  destruct (B1 _ _ _ J1 I1 D1) as (x1 & z1 & tk1 & v1 & VA1 & RD1 & NT1 & NV1 & RP1). destruct (B2 _ _ _ J2 I2 D2) as (x2 & z2 & tk2 & v2 & VA2 & RD2 & NT2 & NV2 & RP2).
  rewrite V1 in NT1. injection NT1 as <-. rewrite V2 in NT2. injection NT2 as <-.
  exists ef, ef0, cols, x1, x2, z1, z2, v1, v2, t0. repeat (split; [assumption|]). split; [exists w1; auto|]. split; [exists w2; auto|]. auto 10.
Qed.

Lemma component_unique tr n k v v' : component_at tr n k v -> component_at tr n k v' -> v = v'.
Proof. intros (a & D & N) (a' & D' & N'). congruence. Qed.

Lemma c118_forecast : f_rows y <> [] -> (c_likelihood c = "gamma" -> 0 < e "noise_scale" 0%nat)%R -> (c_likelihood c = "negbinomial" -> 0 <= scale_number (ft_scale f))%R ->
  (forall name ef ef0 cols trend x1 x2, In (name, ef, cols) (p_fitted (ft_prepared f)) -> configured c name ef0 -> component_at tr1 "trend" j1 trend -> values_at U1 r1 cols x1 -> values_at U2 r2 cols x2 ->
     raises e name trend ef0 x1 x2) ->
  (exists trend, component_at tr1 "trend" j1 trend /\ component_at tr2 "trend" j2 trend) /\
  (forall name, In name (map fst (p_effects (ft_prepared f))) -> exists v1 v2, component_at tr1 name j1 v1 /\ component_at tr2 name j2 v2 /\ (v1 <= v2)%R) /\
  exists x1 x2, expected tr1 j1 x1 /\ expected tr2 j2 x2 /\ (x1 <= x2)%R.
Proof.
  intros NY NS SC HR. destruct (pair_replies NY) as (trend & TA & TB & A).
  assert (CO : forall name, In name (map fst (p_effects (ft_prepared f))) -> exists v1 v2, component_at tr1 name j1 v1 /\ component_at tr2 name j2 v2 /\ (v1 <= v2)%R).
  { intros name I. destruct (A _ I) as (ef & ef0 & cols & x1 & x2 & z1 & z2 & v1 & v2 & t0 & CF & OP & IF & CA & CB & VA & VB & RA & RB & PA & PB).
    exists v1, v2. split; [exact CA|]. split; [exact CB|]. refine (raises_replies e name trend U1 U2 cols t0 ef0 ef r1 r2 x1 x2 z1 z2 v1 v2 OP _ _ VA VB RA RB PA PB); [eapply HR; eauto|congruence]. }
  split; [eauto|]. split; [exact CO|].
  destruct (c105_forecast _ _ _ _ _ _ _ _ _ _ _ _ _ _ HF HC Hc L TT _ _ _ _ _ _ _ M1 K1 H1 T1 C1 L1 _ _ _ R1) as (_ & d1 & G1 & Q1).
  destruct (c105_forecast _ _ _ _ _ _ _ _ _ _ _ _ _ _ HF HC Hc L TT _ _ _ _ _ _ _ M2 K2 H2 T2 C2 L2 _ _ _ R2) as (_ & d2 & G2 & Q2).
  destruct (Q1 j1) as (s1 & LV1 & LW1); [apply nth_error_Some; congruence|]. destruct (Q2 j2) as (s2 & LV2 & LW2); [apply nth_error_Some; congruence|].
  assert (LE : (s1 <= s2)%R).
  { refine (level_le _ _ _ _ _ _ _ LV1 LV2 _). intros n v1 v2 [<-|I] CA CB.
    - rewrite (component_unique _ _ _ _ _ CA TA), (component_unique _ _ _ _ _ CB TB). apply Rle_refl.
    - destruct (CO _ I) as (w1 & w2 & CA' & CB' & LE). now rewrite (component_unique _ _ _ _ _ CA CA'), (component_unique _ _ _ _ _ CB CB'). }
  eexists _, _. split; [exact (law_expected _ _ _ _ _ _ _ _ _ G1 LW1 NS)|]. split; [exact (law_expected _ _ _ _ _ _ _ _ _ G2 LW2 NS)|].
  destruct (String.eqb_spec (c_likelihood c) "normal") as [|N1]; [exact LE|]. destruct (String.eqb_spec (c_likelihood c) "gamma") as [|N2]; [now apply link_le|]. apply Rmult_le_compat_l; [|now apply link_le].
  apply SC. destruct LW1 as [[Q _]|[[Q _]|[Q _]]]; congruence.
Qed.

Lemma c118_start name : f_rows y <> [] -> In name (map fst (p_effects (ft_prepared f))) ->
  (forall ef ef0 cols trend x1 x2, In (name, ef, cols) (p_fitted (ft_prepared f)) -> configured c name ef0 -> component_at tr1 "trend" j1 trend -> values_at U1 r1 cols x1 -> values_at U2 r2 cols x2 ->
     starts e name trend ef0 x1 x2) ->
  exists v1 v2, component_at tr1 name j1 v1 /\ component_at tr2 name j2 v2 /\ (v2 < v1)%R.
Proof.
  intros NY I HR. destruct (pair_replies NY) as (trend & TA & TB & A).
  destruct (A _ I) as (ef & ef0 & cols & x1 & x2 & z1 & z2 & v1 & v2 & t0 & CF & OP & IF & CA & CB & VA & VB & RA & RB & PA & PB).
  exists v1, v2. split; [exact CA|]. split; [exact CB|]. refine (starts_replies e name trend U1 U2 cols t0 ef0 ef r1 r2 x1 x2 z1 z2 v1 v2 OP _ VA VB RA RB PA PB). eapply HR; eauto.
Qed.

(** nothing else changes: the expected observation falls *)
Lemma c118_start_expected name : f_rows y <> [] -> c_likelihood c = "normal" -> In name (map fst (p_effects (ft_prepared f))) ->
  (forall ef ef0 cols trend x1 x2, In (name, ef, cols) (p_fitted (ft_prepared f)) -> configured c name ef0 -> component_at tr1 "trend" j1 trend -> values_at U1 r1 cols x1 -> values_at U2 r2 cols x2 ->
     starts e name trend ef0 x1 x2) ->
  (forall other ef cols x1 x2, other <> name -> In (other, ef, cols) (p_fitted (ft_prepared f)) -> values_at U1 r1 cols x1 -> values_at U2 r2 cols x2 -> x1 = x2) ->
  exists x1 x2, expected tr1 j1 x1 /\ expected tr2 j2 x2 /\ (x2 < x1)%R.
Proof.
  intros NY LN IN HR HO. destruct (c118_start name NY IN HR) as (a1 & a2 & CA1 & CA2 & LT). destruct (pair_replies NY) as (trend & TA & TB & A).
  destruct (c105_forecast _ _ _ _ _ _ _ _ _ _ _ _ _ _ HF HC Hc L TT _ _ _ _ _ _ _ M1 K1 H1 T1 C1 L1 _ _ _ R1) as (_ & d1 & G1 & Q1).
  destruct (c105_forecast _ _ _ _ _ _ _ _ _ _ _ _ _ _ HF HC Hc L TT _ _ _ _ _ _ _ M2 K2 H2 T2 C2 L2 _ _ _ R2) as (_ & d2 & G2 & Q2).
  destruct (Q1 j1) as (s1 & LV1 & LW1); [apply nth_error_Some; congruence|]. destruct (Q2 j2) as (s2 & LV2 & LW2); [apply nth_error_Some; congruence|].
  assert (NS : (c_likelihood c = "gamma" -> 0 < e "noise_scale" 0%nat)%R) by congruence.
  eexists _, _. split; [exact (law_expected _ _ _ _ _ _ _ _ _ G1 LW1 NS)|]. split; [exact (law_expected _ _ _ _ _ _ _ _ _ G2 LW2 NS)|].
  rewrite LN. cbn [String.eqb]. change (String.eqb "normal" "normal") with true. cbv iota.
  refine (level_lt _ _ _ _ _ _ _ _ _ _ LV2 LV1 _ IN CA2 CA1 LT). intros n v2 v1 [<-|I] CB CA.
  - rewrite (component_unique _ _ _ _ _ CA TA), (component_unique _ _ _ _ _ CB TB). apply Rle_refl.
  - destruct (string_dec n name) as [->|NE]; [rewrite (component_unique _ _ _ _ _ CA CA1), (component_unique _ _ _ _ _ CB CA2); now left|].
    destruct (A _ I) as (ef & ef0 & cols & x1 & x2 & z1 & z2 & w1 & w2 & t0 & CF & OP & IF & CA' & CB' & VA & VB & RA & RB & PA & PB).
    rewrite (component_unique _ _ _ _ _ CA CA'), (component_unique _ _ _ _ _ CB CB').
    pose proof (HO _ _ _ _ _ NE IF VA VB) as <-. refine (raises_replies e n trend U2 U1 cols t0 ef0 ef r2 r1 x1 x1 z2 z1 w2 w1 OP _ _ VB VA RB RA PB PA); [destruct ef0; now left|congruence].
Qed.
End Pair.
End Fitted.
End Any.
