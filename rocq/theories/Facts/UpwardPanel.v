(** Raised inputs: forecasts of panels. *)
From Coq Require Import Reals Lra ZArith String Ascii Bool List Lia Permutation.
From Verif.Model Require Import Base Num XFloat Frame Arr Prog Effect Expand Trend TrendProg Aggregate Scale Engine Forecaster.
From Verif.Spec Require Import RegexSpec FrameSpec ProgSpec EffectSpec ForecasterSpec SiteSpec ShapeSpec AlignSpec OverlapSpec ResponseSpec ObservedSpec ComponentSpec UpwardSpec.
From Verif.Facts Require Import BaseFacts FrameFacts NumFacts ArrFacts ProgFacts EffectFacts EffectPredict EffectFourier AlignFacts AlignForecaster ExpandFacts ForecasterFacts ForecasterInv ForecasterProps ModelProps TotalFacts HorizonFacts OverlapFacts OverlapFrames OverlapForecaster SiteFacts ComponentFacts PosteriorFacts OverlapNone CompleteFacts OrderFacts DensityFacts DocsForecaster ResponseFacts ResponseEffects ResponseForecaster ResponsePanel ResponseRead ResponseHierarchical ObservedForecaster UpwardFacts UpwardForecaster.
From Verif.Facts Require CellForecaster InsampleFacts ShapeFacts FrameProps PredictFacts.
Import ListNotations.
Local Open Scope string_scope.

(** * Effects *)
Lemma raises_panel e name trend U1 U2 Ut cols m1 m2 ef0 ef r1 r2 x1 x2 z1 z2 v1 v2 i t0 : options ef0 ef -> raises e name trend ef0 x1 x2 -> r_time r1 = r_time r2 -> r_path r1 = r_path r2 ->
  nth_error (series_ids Ut) i = Some (r_path r1) -> first_date (dates_of Ut (r_path r1)) t0 -> knows_panel Ut cols ef m1 -> knows_panel Ut cols ef m2 ->
  values_at U1 r1 cols x1 -> values_at U2 r2 cols x2 -> reads_panel U1 Ut cols m1 ef r1 z1 -> reads_panel U2 Ut cols m2 ef r2 z2 ->
  replies (own_env e name) ef z1 trend v1 -> replies (own_env e name) ef z2 trend v2 -> (v1 <= v2)%R.
Proof.
  intros O H T PE Hi FD K1 K2 V1 V2 R1 R2 P1 P2. pose proof (sigma_fixed _ _ _ _ K1) as S1. pose proof (sigma_fixed _ _ _ _ K2) as S2. rewrite <- S2 in S1. clear S2.
  destruct ef as [m' ? ?|m' ? ? ?|m' ? ? ? ?|inner' ? ? ? ?|sp terms ? ? ? ? ? ?]; try (destruct K1 as [_ []]).
  - refine (raises_replies e name trend U1 U2 cols 0 ef0 _ r1 r2 x1 x2 z1 z2 v1 v2 O H T V1 V2 R1 R2 P1 P2).
  - cbn [reads_panel replies] in *. destruct P1 as (mo & b1 & -> & ->). destruct P2 as (mo' & b2 & [= <- <-] & ->). destruct R1 as [_ R1]. destruct R2 as [_ R2].
    rewrite (R1 i t0 Hi FD), (R2 i t0) by (rewrite <- PE; assumption). rewrite T. right. f_equal. apply weighted_ext. intros k _. pose proof (f_equal (fun g => g k) S1) as Q. cbn beta iota delta [sigma_of] in Q. now rewrite Q.
Qed.

Lemma raises_panel_first (Ut : frame R) p : frame_wf Ut -> In p (series_ids Ut) -> exists t0, first_date (dates_of Ut p) t0.
Proof.
  intros W I. apply first_exists. apply series_ids_In in I as (r & Hr & <-). intros E. rewrite dates_same in E. unfold dates in E. apply map_eq_nil in E.
  assert (In r (filter (fun r0 => if list_eq_dec string_dec (r_path r0) (r_path r) then true else false) (f_rows Ut))) as Q; [|rewrite E in Q; exact Q].
  apply filter_In. split; [exact Hr|]. destruct (list_eq_dec string_dec (r_path r) (r_path r)); [reflexivity|congruence].
Qed.
Lemma joint_expected e tr d n t s x b i j : dict_get tr "obs" = Some (SSample d x b) -> joint_law e d n t s -> (i < n)%nat -> (j < t)%nat -> expected_at tr i j (s i j).
Proof.
  intros D (loc & tril & -> & SH & _ & _ & _ & A & _) Hi Hj. exists loc, tril, x, b. split; [exact D|]. unfold aget. rewrite SH. symmetry. apply nth_error_nth.
  replace (ravel [t; n] [j; i]) with (j * n + i)%nat by (unfold ravel; simpl; lia). now apply A.
Qed.

Section Any.
Variable ns_of : Z -> Z.
Variable order : list string -> list string.
Variable Order : forall l, Permutation (order l) l.
Variable keep : path -> bool.
Context {TS : Type}.
Variable tr_fit_transform : TS -> frame R -> TS * res (frame R).
Variable tr_transform : TS -> frame R -> res (frame R).
Context {P : Type}.
Variable svi_run : Z -> nat -> nat -> prog arr -> res (list xr * P).
Variable nuts_run : Z -> nat -> nat -> nat -> prog arr -> res (nat -> nat -> env).
Variable latent_sites : prog arr -> list string.
Notation fit_forecaster := (fit_forecaster ns_of order keep tr_fit_transform svi_run nuts_run latent_sites).
Notation predict_model := (predict_model ns_of keep tr_transform).

Section General.
Variables (c : config) (ob ob' : objects (TS := TS)) (y : frame R) (X0 : option (frame R)) (f : fitted (P := P)).
Hypothesis HF : fit_forecaster c ob y X0 = (ob', Ok f).
Hypothesis Hc : c_hier c = true.
Hypothesis L : f_levels y <> 0.
Hypothesis Wy : frame_wf y.
Hypothesis NT : forall r, In r (f_rows y) -> ~ In "__total" (r_path r).
Hypothesis HC : clean_config c.
Hypothesis SP : scalar_piecewise (o_trend ob').

(** the components of a forecast *)
Lemma panel_replies (Ut : frame R) s0 : frame_wf Ut -> f_levels Ut <> 0 -> f_rows Ut <> [] -> NoDup (map (String.concat "-") (series_ids Ut)) -> fit_effects order (c_default c) (effects_of c) (Some Ut) s0 = Ok (p_fitted (ft_prepared f)) ->
  non_skipped (p_fitted (ft_prepared f)) = Ok (p_effects (ft_prepared f)) ->
  forall U ts td data, frame_wf U -> f_levels U <> 0 -> covers U ts -> series_ids U = series_ids Ut -> ts <> [] -> in_order ts ->
  trend_transform ns_of (o_trend ob') U ts = Ok td -> transform_effects (p_fitted (ft_prepared f)) U ts = Ok data ->
  forall e o tr, run e [] (model_call c (ft_scale f) (ft_prepared f) (o_trend ob') td None (Some data)) = Ok (o, tr) ->
  exists tv lt, eval e (trend_predict (o_trend ob') td) = Ok (tv, lt) /\ dict_get tr "trend" = Some (SDet tv) /\
  forall name ef, In (name, ef) (p_effects (ft_prepared f)) ->
    exists ef0 cols m w, configured c name ef0 /\ options ef0 ef /\ knows_panel Ut cols ef m /\ In (name, ef, cols) (p_fitted (ft_prepared f)) /\ dict_get tr name = Some (SDet w) /\
    forall i j t r, nth_error (series_ids Ut) i = Some (r_path r) -> nth_error ts j = Some t -> In r (f_rows U) -> r_time r = t ->
       exists x z trend v, values_at U r cols x /\ reads_panel U Ut cols m ef r z /\ nth_error (a_flat tv) (i * List.length ts + j) = Some trend /\ nth_error (a_flat w) (i * List.length ts + j) = Some v /\
         replies (own_env e name) ef z trend v.
Proof.
  intros WT LT NRT ND HE HN U ts td data WU LU CV IDS N O TD TE e o tr RU.
  pose proof (panel_state order Order c Ut s0 _ WT LT NRT ND HE) as ST. destruct (forecaster_clean _ _ _ _ _ _ _ _ _ _ _ _ _ HF HC) as (C1 & C2 & HX).
  destruct (one_run (fun _ _ => 0%R) c (ft_scale f) (ft_prepared f) (o_trend ob') td None data HX C1 C2) as (k & _ & ONE). destruct (ONE _ _ _ RU) as (mm & tv & lt & gs & l2 & NDT & T & GS & _ & _ & E).
  destruct (hierarchical_trend_shape _ _ _ _ _ _ _ _ _ _ _ _ _ HF Hc L Wy NT SP) as (sq & TS0). destruct (TS0 _ _ _ _ _ TD (proj2 (eval_yields _ _ _) (ex_intro _ _ T))) as [WTV _].
  exists tv, lt. split; [exact T|]. split; [apply dict_get_nodup; [exact NDT|]; rewrite E; apply in_app_iff; right; now left|]. intros name ef I.
  destruct (prepared_entry _ _ _ _ _ HN TE name ef I) as (cols & XC & d & IF & SC & TR & SK & DG). destruct (ST _ _ _ IF) as [(m & K) (ef0 & CF & OP)].
  destruct (component_sites e (p_effects (ft_prepared f)) data tv gs name ef d lt ("trend", SDet tv) l2 GS I DG) as (w & l & EV & IN). rewrite <- E in IN. pose proof (proj2 (eval_yields _ _ _) (ex_intro _ _ EV)) as YV.
  destruct (transform_reads_panel ts N O Ut cols m U XC WU LU CV SC IDS ND ef d _ _ _ K SK TR YV) as (rows & kk & INP & RD). pose proof (Forall2_len _ _ _ RD) as LR. pose proof (predict_length _ _ WTV _ _ _ _ _ _ _ _ K INP YV) as LTV.
  assert (SO : series_of U = series_ids Ut) by (unfold series_of; destruct (f_levels U); [congruence|exact IDS]).
  assert (RN : rows <> []).
  { intros ->. rewrite (covered_rows _ _ CV), SO in LR. assert (NI : series_ids Ut <> []) by (intros Q; assert (HR : exists r, In r (f_rows Ut)) by (clear -NRT; destruct (f_rows Ut) as [|r0 rs]; [congruence|exists r0; now left]); destruct HR as (r & Hr); assert (In (r_path r) (series_ids Ut)) by (apply series_ids_In; eauto); rewrite Q in *; contradiction).
    destruct (series_ids Ut); [congruence|]. destruct ts; [congruence|]. discriminate. }
  exists ef0, cols, m, w. split; [exact CF|]. split; [exact OP|]. split; [exact K|]. split; [exact IF|]. split. { apply dict_get_nodup; [exact NDT|]. apply IN. unfold own_sites. cbn [fst snd]. apply in_or_app. right. now left. }
  intros i j t r Hi Hj Hr Ht. assert (NJ : nth_error (f_rows (filter_fh ts U)) (i * List.length ts + j) = Some r) by (eapply covered_row; eauto; now rewrite SO).
  destruct (Forall2_nth_error_l _ _ _ RD _ r NJ) as (z & HZ & RZ). destruct (predict_replies _ tv WTV ef rows kk d w RN INP LTV YV _ z HZ) as (tk & v & HT & HV & RP).
  destruct (selected_values _ _ _ _ WU SC Hr) as (x & VX). exists x, z, tk, v. auto.
Qed.

(** the trend of a series at a common date *)
Lemma panel_trend_common e ts1 ts2 U1 U2 td1 td2 tv1 tv2 lt1 lt2 : in_order ts1 -> in_order ts2 ->
  trend_transform ns_of (o_trend ob') U1 ts1 = Ok td1 -> trend_transform ns_of (o_trend ob') U2 ts2 = Ok td2 ->
  eval e (trend_predict (o_trend ob') td1) = Ok (tv1, lt1) -> eval e (trend_predict (o_trend ob') td2) = Ok (tv2, lt2) ->
  forall i t j1 j2, (i < List.length (series_ids y))%nat -> nth_error ts1 j1 = Some t -> nth_error ts2 j2 = Some t ->
  exists v, nth_error (a_flat tv1) (i * List.length ts1 + j1) = Some v /\ nth_error (a_flat tv2) (i * List.length ts2 + j2) = Some v.
Proof.
  intros O1 O2 T1 T2 E1 E2 i t j1 j2 Hi J1 J2. destruct (hierarchical_index ns_of order keep _ _ _ _ _ _ _ _ _ _ HF Hc L Wy NT) as (HS & RY0 & _).
  pose proof HF as H. apply fit_forecaster_inv in H. destruct H as (s & ys & p & m & post & _ & HY & HD & _ & _).
  pose proof (CompleteFacts.scale_y_wf _ _ _ _ Wy HY) as WS. apply scale_y_index in HY. destruct HY as [IY LY].
  assert (RP : map r_path (f_rows ys) = map r_path (f_rows y)).
  { unfold index_of in IY. apply (f_equal (map fst)) in IY. rewrite !map_map in IY. exact IY. }
  assert (NTS : forall r, In r (f_rows ys) -> ~ In "__total" (r_path r)).
  { intros r Hr. assert (I : In (r_path r) (map r_path (f_rows y))) by (rewrite <- RP; now apply in_map). apply in_map_iff in I as (r' & <- & I). now apply NT. }
  destruct (ShapeFacts.hierarchical_setup _ _ _ _ _ _ _ _ _ _ _ _ HD Hc ltac:(congruence) WS NTS) as (tensor & X2 & t0 & td & data & _ & HT & _ & _ & RY & _).
  assert (NS : n_series_of (sort_index ys) = List.length (series_ids y)).
  { unfold n_series_of. change (f_levels (sort_index ys)) with (f_levels ys). rewrite LY. destruct (f_levels y) as [|k]; [congruence|]. rewrite ShapeFacts.sort_index_ids. unfold series_ids. now rewrite RP. }
  assert (N0 : List.length (series_ids y) <> 0) by lia.
  destruct (CellForecaster.piecewise_trend_same ns_of order e ts1 ts2 O1 O2 _ _ _ _ _ _ _ _ _ HT SP ltac:(rewrite NS; exact N0) T1 T2) as (sq & RT). rewrite NS in RT. destruct (RT _ _ _ _ E1 E2) as [(_ & _ & _ & _ & Q) _].
  apply Q. exists i, j1, j2, t. auto.
Qed.

End General.

Section Fitted.
Variables (c : config) (ob ob' : objects (TS := TS)) (y Z0 : frame R) (f : fitted (P := P)).
Hypothesis HF : fit_forecaster c ob y (Some Z0) = (ob', Ok f).
Hypothesis Hc : c_hier c = true.
Hypothesis L : f_levels y <> 0.
Hypothesis Wy : frame_wf y.
Hypothesis NT : forall r, In r (f_rows y) -> ~ In "__total" (r_path r).
Hypothesis HC : clean_config c.
Hypothesis SP : scalar_piecewise (o_trend ob').
Hypothesis OT : o_transformer ob = None.
Hypotheses (WZ : frame_wf Z0) (LZ : f_levels Z0 <> 0) (NZ : f_cols Z0 <> []).
Variable shared : list string.
Hypothesis SH : (match c_shared c with None => [] | Some l => l end) = shared.
Hypothesis CP : copyable shared (f_cols Z0) (bottom_series Z0).

(** what the fit stored *)
Lemma fitted_panel : exists (Ut : frame R) s0 ex, frame_wf Ut /\ f_levels Ut <> 0 /\ f_rows Ut <> [] /\ NoDup (map (String.concat "-") (series_ids Ut)) /\ series_ids Ut = bottom_series Z0 /\
  fit_effects order (c_default c) (effects_of c) (Some Ut) s0 = Ok (p_fitted (ft_prepared f)) /\ non_skipped (p_fitted (ft_prepared f)) = Ok (p_effects (ft_prepared f)) /\
  o_transformer ob' = None /\ p_has_exogenous (ft_prepared f) = true /\ p_expander (ft_prepared f) = Some ex /\
  ex_skip ex = false /\ NoDup (ex_matched ex) /\ (forall col, In col (ex_matched ex) <-> In col (f_cols Z0) /\ ~ In col shared).
Proof.
  pose proof HF as HF'. apply fit_forecaster_inv in HF'. destruct HF' as (s & ys & p & m0 & post & _ & _ & HD & _ & EFt). unfold fit_data in HD. rewrite Hc in HD. apply hierarchical_fit_inv in HD.
  destruct HD as (yb & tensor & B0 & B1 & Ut & ob1 & t00 & t & td0 & data0 & _ & _ & HB0 & HRF & HEX & HIF & _ & _ & EOB & _ & HFE & _ & HNS & _). assert (EP : ft_prepared f = p) by (rewrite EFt; reflexivity).
  assert (NCZ : no_columns Z0 = false) by (unfold no_columns; destruct (f_cols Z0); [congruence|reflexivity]). rewrite NCZ in HB0.
  apply run_fit_transform_inv in HRF as [_ HRF]. rewrite OT in HRF. destruct HRF as [OT1 EB]. subst B1 ob1.
  destruct (bottom_series_ids _ _ WZ LZ HB0) as (S0 & C0 & L0 & NR0 & _). pose proof (loc_bottom_wf _ _ WZ HB0) as WB0.
  assert (OTP : o_transformer ob' = None) by (rewrite EOB; cbn [o_transformer]; exact OT).
  assert (NCB : no_columns B0 = false) by (unfold no_columns; rewrite C0; destruct (f_cols Z0); [congruence|reflexivity]). rewrite HEX, NCB in HIF. cbn [negb] in HIF. destruct HIF as (ex & EXB & EPX). rewrite SH in EXB.
  destruct (expand_bottom_state order Order shared B0 Ut ex (series_ids B0) EXB ltac:(congruence) ltac:(rewrite C0, S0; exact CP)) as (SK & NDM & MIN).
  pose proof EXB as EXB'. unfold expand_bottom in EXB'. destruct (expand_fit _ _ B0) as [eb|]; [|discriminate]. cbn [bind] in EXB'.
  pose proof (expand_transform_wf _ _ _ _ _ _ WB0 EXB') as WUt. pose proof (expand_transform_labels _ _ _ _ _ _ EXB') as [LBT LVT].
  assert (SUt : series_ids Ut = series_ids B0) by (apply series_ids_labels; exact LBT).
  exists Ut, (scale_number s), ex. split; [exact WUt|]. split; [congruence|].
  split; [intros Q; unfold labels in LBT; rewrite Q in LBT; destruct (f_rows B0); [congruence|discriminate]|].
  split; [rewrite SUt, S0; eapply joins_distinct; [exact NZ| |exact CP]; rewrite <- S0; apply paths_unique_NoDup|]. split; [congruence|]. rewrite EP. split; [exact HFE|]. split; [exact HNS|]. split; [exact OTP|].
  split; [rewrite HEX, NCB; reflexivity|]. split; [exact EPX|]. split; [exact SK|]. split; [exact NDM|]. intros col. rewrite MIN, C0. reflexivity.
Qed.

(** what a forecast prepares *)
Lemma forecast_panel (Ut : frame R) ex : series_ids Ut = bottom_series Z0 -> o_transformer ob' = None -> p_has_exogenous (ft_prepared f) = true -> p_expander (ft_prepared f) = Some ex ->
  ex_skip ex = false -> NoDup (ex_matched ex) -> (forall col, In col (ex_matched ex) <-> In col (f_cols Z0) /\ ~ In col shared) ->
  forall y2 X2 fh m cutoff ts, predict_model c ob' f y2 (Some X2) fh = Ok m -> max_time (map snd (p_index (ft_prepared f))) = Ok cutoff -> to_absolute cutoff fh = ts ->
  frame_wf X2 -> f_levels X2 <> 0 -> f_cols X2 = f_cols Z0 -> bottom_series X2 = bottom_series Z0 -> covers X2 ts -> ts <> [] ->
  exists (U : frame R) td data, m = model_call c (ft_scale f) (ft_prepared f) (o_trend ob') td None (Some data) /\ frame_wf U /\ f_levels U <> 0 /\ covers U ts /\ series_ids U = series_ids Ut /\
    trend_transform ns_of (o_trend ob') U ts = Ok td /\ transform_effects (p_fitted (ft_prepared f)) U ts = Ok data /\
    forall r, In r (f_rows X2) -> In (r_path r) (bottom_series Z0) -> exists r', In r' (f_rows U) /\ r_path r' = r_path r /\ r_time r' = r_time r /\
      forall cols x, values_at U r' cols x -> Forall2 (seen shared (bottom_series X2) X2 r) cols x.
Proof.
  intros SUt OTP HEX EPX SK NDM MIN y2 X2 fh m cutoff ts Hm Hcut Hts WX LX CX BX CV N.
  destruct (predict_transformed _ _ _ _ _ _ _ _ _ _ _ _ Hm Hc Hcut Hts) as (Xb & Xt & Xe & td & data & HB & HU & TD & TE & EM). cbv zeta in HB.
  assert (NCX : no_columns X2 = false) by (unfold no_columns; rewrite CX; destruct (f_cols Z0); [congruence|reflexivity]). rewrite NCX in HB.
  destruct (bottom_series_ids _ _ WX LX HB) as (S2 & C2 & L2 & NR2 & IR2). pose proof (covers_bottom _ _ _ WX N CV HB) as CVB. pose proof (loc_bottom_wf _ _ WX HB) as WB.
  rewrite HEX in HU. destruct HU as (RT & ex0 & ex' & EX0 & EXT). rewrite EPX in EX0. injection EX0 as <-. unfold run_transform in RT. rewrite OTP in RT. injection RT as <-.
  pose proof (expand_transform_wf _ _ _ _ _ _ WB EXT) as WU. pose proof (expand_transform_labels _ _ _ _ _ _ EXT) as [LBU LVU].
  exists Xe, td, data. split; [exact EM|]. split; [exact WU|]. split; [congruence|]. split; [apply (covers_same Xb); auto|].
  split; [rewrite (series_ids_labels _ _ LBU); congruence|]. split; [exact TD|]. split; [exact TE|]. intros r Hr IB. assert (HrB : In r (f_rows Xb)) by (apply (IR2 (r_path r)); [now rewrite BX|reflexivity|exact Hr]).
  pose proof (expanded_seen shared Xb Xe ex ex' WB ltac:(congruence) ltac:(rewrite C2, S2, CX, BX; exact CP) SK NDM ltac:(intros q; rewrite C2, CX; apply MIN) EXT) as ES. apply Forall2_In_both in ES. destruct (proj1 ES _ HrB) as (r' & Hr' & P' & T' & V').
  exists r'. do 3 (split; [assumption|]). intros cols x VX. rewrite <- S2. unfold seen in *. rewrite C2 in V'.
  unfold values_at in VX. revert x VX. induction cols as [|col cols IH]; intros [|u x] VX; try discriminate; constructor; [|apply IH; now injection VX]. injection VX as VX _. now apply V' in VX.
Qed.

Section Pair.
Variables (y1 y2 X1 X2 : frame R) (fh1 fh2 : horizon) (m1 m2 : prog arr) (cutoff : Z) (ts1 ts2 : list Z).
Hypotheses (M1 : predict_model c ob' f y1 (Some X1) fh1 = Ok m1) (M2 : predict_model c ob' f y2 (Some X2) fh2 = Ok m2).
Hypotheses (KC : max_time (map snd (p_index (ft_prepared f))) = Ok cutoff).
Hypotheses (H1 : to_absolute cutoff fh1 = ts1) (H2 : to_absolute cutoff fh2 = ts2).
Hypotheses (W1 : frame_wf X1) (W2 : frame_wf X2) (L1 : f_levels X1 <> 0) (L2 : f_levels X2 <> 0) (Q1 : f_cols X1 = f_cols Z0) (Q2 : f_cols X2 = f_cols Z0).
Hypotheses (B1 : bottom_series X1 = bottom_series Z0) (B2 : bottom_series X2 = bottom_series Z0) (C1 : covers X1 ts1) (C2 : covers X2 ts2).
Hypotheses (O1 : in_order ts1) (O2 : in_order ts2).
Variables (e : env) (o1 o2 : arr) (tr1 tr2 : trace).
Hypotheses (R1 : run e [] m1 = Ok (o1, tr1)) (R2 : run e [] m2 = Ok (o2, tr2)).
Variables (i : nat) (t : Z) (j1 j2 : nat) (r1 r2 : row R).
Hypothesis (Hi : (i < List.length (series_ids y))%nat).
Hypotheses (J1 : nth_error ts1 j1 = Some t) (J2 : nth_error ts2 j2 = Some t) (I1 : In r1 (f_rows X1)) (I2 : In r2 (f_rows X2)) (D1 : r_time r1 = t) (D2 : r_time r2 = t).
Hypotheses (P1 : nth_error (bottom_series Z0) i = Some (r_path r1)) (P2 : nth_error (bottom_series Z0) i = Some (r_path r2)).

Lemma c118_panel :
  (forall name ef ef0 cols trend x1 x2, In (name, ef, cols) (p_fitted (ft_prepared f)) -> configured c name ef0 -> component_at tr1 "trend" (i * List.length ts1 + j1) trend ->
     Forall2 (seen shared (bottom_series X1) X1 r1) cols x1 -> Forall2 (seen shared (bottom_series X2) X2 r2) cols x2 -> raises e name trend ef0 x1 x2) ->
  (exists trend, component_at tr1 "trend" (i * List.length ts1 + j1) trend /\ component_at tr2 "trend" (i * List.length ts2 + j2) trend) /\
  (forall name, In name (map fst (p_effects (ft_prepared f))) -> exists v1 v2, component_at tr1 name (i * List.length ts1 + j1) v1 /\ component_at tr2 name (i * List.length ts2 + j2) v2 /\ (v1 <= v2)%R) /\
  exists x1 x2, (x1 <= x2)%R /\
    (List.length (series_ids y) = 1 -> expected tr1 j1 x1 /\ expected tr2 j2 x2) /\
    (List.length (series_ids y) <> 1 -> expected_at tr1 i j1 x1 /\ expected_at tr2 i j2 x2).
Proof.
  intros HR. assert (N1 : ts1 <> []) by (intros E; rewrite E in J1; destruct j1; discriminate). assert (N2 : ts2 <> []) by (intros E; rewrite E in J2; destruct j2; discriminate).
  destruct fitted_panel as (Ut & s0 & ex & WUt & LUt & NRU & NDJ & SUt & HFE & HNS & OTP & HEX & EPX & SK & NDM & MIN).
  destruct (forecast_panel Ut ex SUt OTP HEX EPX SK NDM MIN _ _ _ _ _ _ M1 KC H1 W1 L1 Q1 B1 C1 N1) as (U1 & td1 & data1 & EM1 & WU1 & LU1 & CU1 & SU1 & TD1 & TE1 & SE1).
  destruct (forecast_panel Ut ex SUt OTP HEX EPX SK NDM MIN _ _ _ _ _ _ M2 KC H2 W2 L2 Q2 B2 C2 N2) as (U2 & td2 & data2 & EM2 & WU2 & LU2 & CU2 & SU2 & TD2 & TE2 & SE2).
  pose proof R1 as R1'. pose proof R2 as R2'. rewrite EM1 in R1'. rewrite EM2 in R2'.
  destruct (panel_replies c ob ob' y (Some Z0) f HF Hc L Wy NT HC SP Ut s0 WUt LUt NRU NDJ HFE HNS U1 ts1 td1 data1 WU1 LU1 CU1 SU1 N1 O1 TD1 TE1 _ _ _ R1') as (tv1 & lt1 & E1 & G1 & A1).
  destruct (panel_replies c ob ob' y (Some Z0) f HF Hc L Wy NT HC SP Ut s0 WUt LUt NRU NDJ HFE HNS U2 ts2 td2 data2 WU2 LU2 CU2 SU2 N2 O2 TD2 TE2 _ _ _ R2') as (tv2 & lt2 & E2 & G2 & A2).
  destruct (panel_trend_common c ob ob' y (Some Z0) f HF Hc L Wy NT SP _ _ _ _ _ _ _ _ _ _ _ O1 O2 TD1 TD2 E1 E2 _ _ _ _ Hi J1 J2) as (trend & V1 & V2).
  assert (TA : component_at tr1 "trend" (i * List.length ts1 + j1) trend) by (exists tv1; auto). assert (TB : component_at tr2 "trend" (i * List.length ts2 + j2) trend) by (exists tv2; auto).
  destruct (SE1 r1 I1 (nth_error_In _ _ P1)) as (q1 & IQ1 & PQ1 & TQ1 & SQ1). destruct (SE2 r2 I2 (nth_error_In _ _ P2)) as (q2 & IQ2 & PQ2 & TQ2 & SQ2).
  assert (CO : forall name, In name (map fst (p_effects (ft_prepared f))) -> exists v1 v2, component_at tr1 name (i * List.length ts1 + j1) v1 /\ component_at tr2 name (i * List.length ts2 + j2) v2 /\ (v1 <= v2)%R).
  { intros name I. apply in_map_iff in I as ((nm & ef) & <- & I). cbn [fst].
    destruct (A1 _ _ I) as (ef0 & cols & n1 & w1 & CF & OP & KN1 & IF & DG1 & F1). destruct (A2 _ _ I) as (ef0' & cols2 & n2 & w2 & _ & _ & KN2 & _ & DG2 & F2).
    pose proof (knows_panel_input _ _ _ _ KN1) as Q. rewrite (knows_panel_input _ _ _ _ KN2) in Q. injection Q as ->.
    destruct (F1 i j1 t q1) as (x1 & z1 & tk1 & v1 & VA1 & RD1 & NT1 & NV1 & RP1); [rewrite SUt, PQ1; exact P1|exact J1|exact IQ1|congruence|].
    destruct (F2 i j2 t q2) as (x2 & z2 & tk2 & v2 & VA2 & RD2 & NT2 & NV2 & RP2); [rewrite SUt, PQ2; exact P2|exact J2|exact IQ2|congruence|].
    rewrite V1 in NT1. injection NT1 as <-. rewrite V2 in NT2. injection NT2 as <-.
    exists v1, v2. split; [exists w1; auto|]. split; [exists w2; auto|].
    assert (IU : In (r_path q1) (series_ids Ut)) by (rewrite SUt, PQ1; now apply nth_error_In in P1). destruct (raises_panel_first Ut _ WUt IU) as (t0 & FD).
    refine (raises_panel e nm trend U1 U2 Ut cols n1 n2 ef0 ef q1 q2 x1 x2 z1 z2 v1 v2 i t0 OP _ _ _ _ FD KN1 KN2 VA1 VA2 RD1 RD2 RP1 RP2); [eapply HR; eauto|congruence|congruence|rewrite SUt, PQ1; exact P1]. }
  split; [eauto|]. split; [exact CO|].
  destruct (c105_panel_forecast _ _ _ _ _ _ _ _ _ _ _ _ _ _ HF HC Hc L Wy NT SP _ _ _ _ _ _ M1 KC H1 O1 _ _ _ _ R1 eq_refl) as (S1 & S1').
  destruct (c105_panel_forecast _ _ _ _ _ _ _ _ _ _ _ _ _ _ HF HC Hc L Wy NT SP _ _ _ _ _ _ M2 KC H2 O2 _ _ _ _ R2 eq_refl) as (S2 & S2').
  assert (JL1 : (j1 < List.length ts1)%nat) by (apply nth_error_Some; congruence). assert (JL2 : (j2 < List.length ts2)%nat) by (apply nth_error_Some; congruence).
  assert (LL : forall s1 s2, level tr1 (map fst (p_effects (ft_prepared f))) (i * List.length ts1 + j1) s1 -> level tr2 (map fst (p_effects (ft_prepared f))) (i * List.length ts2 + j2) s2 -> (s1 <= s2)%R).
  { intros s1 s2 LV1 LV2. refine (level_le _ _ _ _ _ _ _ LV1 LV2 _). intros n v1 v2 [<-|I] CA CB.
    - rewrite (component_unique _ _ _ _ _ CA TA), (component_unique _ _ _ _ _ CB TB). apply Rle_refl.
    - destruct (CO _ I) as (w1 & w2 & CA' & CB' & LE). now rewrite (component_unique _ _ _ _ _ CA CA'), (component_unique _ _ _ _ _ CB CB'). }
  destruct (Nat.eq_dec (List.length (series_ids y)) 1) as [E|E].
  - destruct (S1 E) as (_ & d1 & GO1 & LW1). destruct (S2 E) as (_ & d2 & GO2 & LW2). destruct (LW1 j1 JL1) as (s1 & LV1 & W1'). destruct (LW2 j2 JL2) as (s2 & LV2 & W2').
    assert (I0 : i = 0) by lia. rewrite I0 in *. cbn [Nat.mul Nat.add] in *. exists s1, s2. split; [now apply LL|]. split; [|congruence]. intros _. split.
    + exact (law_expected _ _ _ _ _ _ _ _ _ GO1 W1' ltac:(discriminate)).
    + exact (law_expected _ _ _ _ _ _ _ _ _ GO2 W2' ltac:(discriminate)).
  - destruct (S1' E) as (_ & d1 & sum1 & GO1 & LW1 & JL1'). destruct (S2' E) as (_ & d2 & sum2 & GO2 & LW2 & JL2'). exists (sum1 i j1), (sum2 i j2).
    split; [apply LL; [now apply LW1|now apply LW2]|]. split; [congruence|]. intros _. split; [exact (joint_expected _ _ _ _ _ _ _ _ _ _ GO1 JL1' Hi JL1)|exact (joint_expected _ _ _ _ _ _ _ _ _ _ GO2 JL2' Hi JL2)].
Qed.
End Pair.
End Fitted.
End Any.
