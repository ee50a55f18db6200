(** The same series and dates with different exogenous data: forecasters. *)
From Coq Require Import Reals Lra ZArith String Ascii Bool List Lia Sorted Permutation.
From Verif.Model Require Import Base Num XFloat Frame Arr Prog Likelihood Effect Trend TrendProg Aggregate Scale Expand Engine Forecaster.
From Verif.Spec Require Import FrameSpec ProgSpec EffectSpec AlignSpec ShapeSpec ForecasterSpec SiteSpec OverlapSpec CellSpec.
From Verif.Facts Require Import BaseFacts FrameFacts OrderFacts NumFacts ArrFacts TrendFacts ProgFacts MeanFacts LikelihoodFacts PosteriorFacts ModelProps ForecasterFacts ForecasterInv ForecasterProps CompleteFacts ShapeFacts SiteFacts AlignFacts ComponentFacts RescaleEffects HorizonFacts OverlapFacts OverlapFrames OverlapTrend OverlapModel OverlapNone OverlapForecaster CellFacts CellFrames CellModel.
Import ListNotations.
Local Open Scope string_scope.

(** what holds at the common dates holds for some series at these dates *)
Lemma place_weaken n ts1 ts2 cell p q : cell_place n ts1 ts2 cell p q -> same_place n ts1 ts2 p q.
Proof. intros (i & j1 & j2 & t & _ & H). now exists i, j1, j2, t. Qed.
Lemma there_weaken {A} n ts1 ts2 cell (l1 l2 : list A) : same_there n ts1 ts2 l1 l2 -> same_in_cells n ts1 ts2 cell l1 l2.
Proof. intros H p q K. apply H. eapply place_weaken, K. Qed.
Lemma distr_weaken n ts1 ts2 cell d1 : forall d2, same_distr n ts1 ts2 d1 d2 -> same_cell_distr n ts1 ts2 cell d1 d2.
Proof.
  induction d1; intros [] H; try contradiction H; cbn [same_distr same_cell_distr] in *; destruct H as [H1 H2]; split; auto using there_weaken.
  intros i j1 j2 t _ Hi J1 J2. now apply (H1 j1 j2 t).
Qed.
Lemma site_weaken n ts1 ts2 cell s1 s2 : same_then n ts1 ts2 s1 s2 -> same_cell_site n ts1 ts2 cell s1 s2.
Proof.
  intros [E H]. split; [exact E|]. destruct (snd s1), (snd s2); try contradiction H; auto using there_weaken. destruct H as [-> H]. split; [reflexivity|].
  destruct (_ || _); [|exact H]. destruct H as [H1 H2]. split; auto using distr_weaken, there_weaken.
Qed.
Lemma related_cells {A} e n ts1 ts2 cell (RA RA' : A -> A -> Prop) p1 p2 : (forall a b, RA a b -> RA' a b) -> related e (same_then n ts1 ts2) RA p1 p2 -> related e (same_cell_site n ts1 ts2 cell) RA' p1 p2.
Proof. intros W H a1 l1 a2 l2 E1 E2. destruct (H _ _ _ _ E1 E2) as [K F]. split; [auto|]. eapply ExpandFacts.Forall2_impl; [|exact F]. intros; now apply site_weaken. Qed.
Lemma arr_weaken n ts1 ts2 cell sh1 sh2 a1 a2 : OverlapFacts.same_arr n ts1 ts2 sh1 sh2 a1 a2 -> same_arr n ts1 ts2 cell sh1 sh2 a1 a2.
Proof. intros (A & B & C & D & E). repeat split; auto. now apply there_weaken. Qed.

(** * Trends *)
Section Trends.
Variable ns_of : Z -> Z.
Variable order : list string -> list string.
Variables (e : env) (ts1 ts2 : list Z).
Hypotheses (O1 : in_order ts1) (O2 : in_order ts2).

Lemma piecewise_trend_same t0 X0 y s t X1 X2 td1 td2 : trend_fit ns_of order t0 X0 y s = (t, None) -> scalar_piecewise t -> n_series_of y <> 0 ->
  trend_transform ns_of t X1 ts1 = Ok td1 -> trend_transform ns_of t X2 ts2 = Ok td2 ->
  exists sq, related e (same_then (n_series_of y) ts1 ts2)
    (OverlapFacts.same_arr (n_series_of y) ts1 ts2 (trend_shape (n_series_of y) (List.length ts1) sq) (trend_shape (n_series_of y) (List.length ts2) sq)) (trend_predict t td1) (trend_predict t td2).
Proof.
  intros HF SP NE H1 H2. assert (NR : f_levels y <> 0 -> f_rows y <> []).
  { intros L E. apply NE. unfold n_series_of, series_ids. rewrite E. now destruct (f_levels y). }
  destruct (piecewise_value ns_of order _ _ _ _ _ HF SP NR) as (sq & V). exists sq.
  assert (V' : forall X ts td v, in_order ts -> trend_transform ns_of t X ts = Ok td -> yields e (trend_predict t td) v -> arr_wf v /\ a_shape v = trend_shape (n_series_of y) (List.length ts) sq).
  { intros X ts td v O HT Y. destruct (V _ _ _ _ _ HT Y) as [A B]. split; [exact A|]. rewrite B. destruct (f_levels y); [reflexivity|]. now rewrite ordered_unique. }
  intros a1 l1 a2 l2 E1 E2. destruct (V' X1 ts1 td1 a1 O1 H1) as [A1 B1]; [apply eval_yields; eauto|]. destruct (V' X2 ts2 td2 a2 O2 H2) as [A2 B2]; [apply eval_yields; eauto|].
  destruct (CompleteFacts.fitted_trend ns_of order _ _ _ _ _ HF SP) as (pp & cap & b & f & iv & rg & E & PF & PI & PR).
  assert (G : related e (same_then (n_series_of y) ts1 ts2) (fun a1 a2 => same_there (n_series_of y) ts1 ts2 (a_flat a1) (a_flat a2)) (trend_predict t td1) (trend_predict t td2)).
  { apply OverlapModel.related_names; [apply obs_names|]. subst t. cbn [trend_transform] in H1, H2. destruct (trend_rows b X1 ts1); [|discriminate]. destruct (trend_rows b X2 ts2); [|discriminate]. cbn [bind attr] in *. injection H1 as <-. injection H2 as <-. cbn [trend_predict].
    destruct (piecewise_fit_inv _ _ _ _ PF) as (u & _ & _ & Hn & Hp & Hc & Hs & _ & Hse). rewrite PI, PR in Hc. apply setup_length in Hc. destruct (suggest_lengths_any _ _ _ _ _ Hs) as [_ Lo].
    apply piecewise_same; auto. }
  destruct (G _ _ _ _ E1 E2) as [Q F]. split; [|exact F]. unfold arr_wf in A1, A2. rewrite B1, shape_size in A1. rewrite B2, shape_size in A2. repeat split; auto.
Qed.

Lemma flat_trend_same t0 X0 y s t X1 X2 td1 td2 : trend_fit ns_of order t0 X0 y s = (t, None) -> flat_trend t -> covers X1 ts1 -> covers X2 ts2 -> List.length (series_of X1) = 1 -> List.length (series_of X2) = 1 ->
  trend_transform ns_of t X1 ts1 = Ok td1 -> trend_transform ns_of t X2 ts2 = Ok td2 ->
  related e (same_then 1 ts1 ts2) (OverlapFacts.same_arr 1 ts1 ts2 [List.length ts1; 1] [List.length ts2; 1]) (trend_predict t td1) (trend_predict t td2).
Proof.
  intros HF FT C1 C2 S1 S2 H1 H2. destruct t as [|sc b loc|]; try contradiction. cbn [trend_transform] in H1, H2.
  assert (K : forall X ts td, List.length (series_of X) = 1 -> covers X ts -> (X0 <- trend_rows b X ts ;; Ok (TArray (flat_transform X0))) = Ok td -> td = TArray (mkArr [List.length ts; 1] (repeat 1%R (List.length ts)))).
  { intros X ts td S C H. unfold trend_rows in H. destruct (attr (b_fitted b)) as [[]|]; cbn [bind negb] in H; try discriminate. destruct (attr (b_cols b)) as [cols|]; [|discriminate]. cbn [bind] in H.
    rewrite select_filter in H. destruct (select_columns 0%R X cols) as [XC|] eqn:SC; [|discriminate]. cbn [bind] in H. injection H as <-. apply OverlapFrames.select_labels in SC as (L1 & L2 & _ & _).
    unfold flat_transform. rewrite (covered_rows XC) by (apply (covers_same X); auto). rewrite (series_of_labels XC X), S, Nat.mul_1_l by auto. reflexivity. }
  apply (K X1 ts1 _ S1 C1) in H1. apply (K X2 ts2 _ S2 C2) in H2. subst. apply OverlapModel.related_names; [apply obs_names|]. cbn [trend_predict]. destruct loc as [loc|]; [|apply related_raise]. unfold flat_prog. destruct (flat_prior loc sc) as [cc rr].
  apply (related_bind _ _ eq); [apply related_sample, OverlapFacts.in_sample|]. intros v ? <-. apply related_ret. unfold flat_predict, arr_map. cbn [a_flat a_shape]. repeat split; cbn [a_flat a_shape].
  - rewrite map_length, repeat_length. lia.
  - rewrite map_length, repeat_length. lia.
  - apply OverlapFacts.there_map. pose proof (OverlapFacts.there_repeat 1 ts1 ts2 1%R) as Q. rewrite !Nat.mul_1_l in Q. exact Q.
Qed.
End Trends.

(** * Forecasters *)
Section Forecaster.
Variable ns_of : Z -> Z.
Variable order : list string -> list string.
Variable keep : path -> bool.
Context {TS : Type}.
Variable tr_fit_transform : TS -> frame R -> TS * res (frame R).
Variable tr_transform : TS -> frame R -> res (frame R).
Context {P : Type}.
Variable svi_run : Z -> nat -> nat -> prog arr -> res (list xr * P).
Variable nuts_run : Z -> nat -> nat -> nat -> prog arr -> res (nat -> nat -> env).
Variable latent_sites : prog arr -> list string.
Notation fit_forecaster := (fit_forecaster ns_of order keep tr_fit_transform svi_run nuts_run latent_sites).
Notation predict_model := (predict_model ns_of keep tr_transform).
Variables (ts1 ts2 : list Z).
Variables (cell : nat -> Z -> Prop) (ids : list path).
Hypotheses (N1 : ts1 <> []) (N2 : ts2 <> []) (O1 : in_order ts1) (O2 : in_order ts2).

Lemma univariate_core c ob y X0 ob' (f : fitted (P := P)) e U1 U2 td1 td2 d1 d2 : fit_forecaster c ob y X0 = (ob', Ok f) -> c_hier c = false -> f_levels y = 0 ->
  scalar_piecewise (o_trend ob') \/ flat_trend (o_trend ob') -> agree cell ids U1 U2 -> f_cols U1 = f_cols U2 -> covers U1 ts1 -> covers U2 ts2 -> frame_wf U1 -> frame_wf U2 -> List.length ids = 1 ->
  trend_transform ns_of (o_trend ob') U1 ts1 = Ok td1 -> trend_transform ns_of (o_trend ob') U2 ts2 = Ok td2 ->
  transform_effects (p_fitted (ft_prepared f)) U1 ts1 = Ok d1 -> transform_effects (p_fitted (ft_prepared f)) U2 ts2 = Ok d2 ->
  related e (same_cell_site 1 ts1 ts2 cell) (fun _ _ => True) (model_call c (ft_scale f) (ft_prepared f) (o_trend ob') td1 None (Some d1)) (model_call c (ft_scale f) (ft_prepared f) (o_trend ob') td2 None (Some d2)).
Proof.
  intros H Hc L TT AG EC C1 C2 W1 W2 S T1 T2 E1 E2. apply fit_forecaster_inv in H. destruct H as (s & ys & p & m & post & _ & HY & HF & _ & ->). cbn [ft_prepared ft_scale] in *.
  unfold fit_data in HF. rewrite Hc in HF. apply univariate_fit_inv in HF. destruct HF as (t0 & t & yt & X1 & Xe & td & data & _ & HD & HT & _ & _ & <- & _ & _ & _ & HN & HP & _).
  assert (LY : f_levels yt = 0).
  { apply scale_y_index in HY. destruct (discrete c); [|injection HD as <-; now rewrite <- L].
    unfold divide_target in HD. destruct s; injection HD as <- || discriminate; cbn [map_vals f_levels]; now rewrite <- L. }
  assert (NS : n_series_of yt = 1) by (unfold n_series_of; now rewrite LY).
  assert (HX : p_has_exogenous p = true) by (rewrite HP; reflexivity).
  assert (RD : related_data 1 ts1 ts2 cell (p_effects p) d1 d2) by (intros nm ef x1 x2; apply (effects_data 1 ts1 ts2 cell ids N1 N2 O1 O2 (p_fitted p) _ U1 U2); auto).
  assert (S1 : List.length (series_of U1) = 1) by (destruct AG as (-> & _); exact S). assert (S2 : List.length (series_of U2) = 1) by (destruct AG as (_ & -> & _); exact S).
  destruct TT as [SP|FT].
  - destruct (piecewise_trend_same ns_of order e ts1 ts2 O1 O2 _ _ _ _ _ _ _ _ _ HT SP ltac:(rewrite NS; discriminate) T1 T2) as (sq & RT). rewrite NS in RT. apply (related_cells _ _ _ _ cell _ _ _ _ (arr_weaken _ _ _ cell _ _)) in RT.
    apply (univariate_same e 1 ts1 ts2 cell _ _ (shape_size _ _ _) (shape_size _ _ _) (shape_dims _ _ _) (shape_dims _ _ _) c s p _ td1 td2 d1 d2 Hc HX RT RD).
  - pose proof (flat_trend_same ns_of order e ts1 ts2 _ _ _ _ _ _ _ _ _ HT FT C1 C2 S1 S2 T1 T2) as RT. apply (related_cells _ _ _ _ cell _ _ _ _ (arr_weaken _ _ _ cell _ _)) in RT.
    refine (univariate_same e 1 ts1 ts2 cell _ _ _ _ _ _ c s p _ td1 td2 d1 d2 Hc HX RT RD); (unfold prod_shape; cbn [fold_right]; lia) || discriminate.
Qed.

Lemma hierarchical_core c ob y X0 ob' (f : fitted (P := P)) e U1 U2 td1 td2 d1 d2 : fit_forecaster c ob y X0 = (ob', Ok f) -> c_hier c = true -> f_levels y <> 0 -> frame_wf y ->
  (forall r, In r (f_rows y) -> ~ In "__total" (r_path r)) -> scalar_piecewise (o_trend ob') -> (forall g, In g (p_fitted (ft_prepared f)) -> supports_multivariate (fe_effect g) = true) ->
  agree cell ids U1 U2 -> f_cols U1 = f_cols U2 -> covers U1 ts1 -> covers U2 ts2 -> frame_wf U1 -> frame_wf U2 ->
  trend_transform ns_of (o_trend ob') U1 ts1 = Ok td1 -> trend_transform ns_of (o_trend ob') U2 ts2 = Ok td2 ->
  transform_effects (p_fitted (ft_prepared f)) U1 ts1 = Ok d1 -> transform_effects (p_fitted (ft_prepared f)) U2 ts2 = Ok d2 ->
  related e (same_cell_site (List.length (series_ids y)) ts1 ts2 cell) (fun _ _ => True) (model_call c (ft_scale f) (ft_prepared f) (o_trend ob') td1 None (Some d1)) (model_call c (ft_scale f) (ft_prepared f) (o_trend ob') td2 None (Some d2)).
Proof.
  intros H Hc L W NT SP SM AG EC C1 C2 WU1 WU2 T1 T2 E1 E2. destruct (hierarchical_index ns_of order keep _ _ _ _ _ _ _ _ _ _ H Hc L W NT) as (HS & RY0 & _).
  apply fit_forecaster_inv in H. destruct H as (s & ys & p & m & post & _ & HY & HF & _ & ->). cbn [ft_prepared ft_scale] in *.
  pose proof (CompleteFacts.scale_y_wf _ _ _ _ W HY) as WS. apply scale_y_index in HY. destruct HY as [IY LY].
  assert (RP : map r_path (f_rows ys) = map r_path (f_rows y)).
  { unfold index_of in IY. apply (f_equal (map fst)) in IY. rewrite !map_map in IY. exact IY. }
  assert (NTS : forall r, In r (f_rows ys) -> ~ In "__total" (r_path r)).
  { intros r Hr. assert (I : In (r_path r) (map r_path (f_rows y))) by (rewrite <- RP; now apply in_map). apply in_map_iff in I as (r' & <- & I). now apply NT. }
  destruct (hierarchical_setup _ _ _ _ _ _ _ _ _ _ _ _ HF Hc ltac:(congruence) WS NTS) as (tensor & X2 & t0 & td & data & _ & HT & _ & _ & RY & _).
  assert (NS : n_series_of (sort_index ys) = List.length (series_ids y)).
  { unfold n_series_of. change (f_levels (sort_index ys)) with (f_levels ys). rewrite LY. destruct (f_levels y) as [|k]; [congruence|]. rewrite sort_index_ids. unfold series_ids. now rewrite RP. }
  assert (N0 : List.length (series_ids y) <> 0).
  { intros E. apply length_zero_iff_nil in E. destruct (f_rows y) as [|r l] eqn:ER; [congruence|]. assert (I : In (r_path r) (series_ids y)) by (unfold series_ids; rewrite paths_unique_In, ER; simpl; auto). rewrite E in I. contradiction. }
  destruct (piecewise_trend_same ns_of order e ts1 ts2 O1 O2 _ _ _ _ _ _ _ _ _ HT SP ltac:(rewrite NS; exact N0) T1 T2) as (sq & RT). rewrite NS in RT. apply (related_cells _ _ _ _ cell _ _ _ _ (arr_weaken _ _ _ cell _ _)) in RT.
  unfold fit_data in HF. rewrite Hc in HF. apply hierarchical_fit_inv in HF.
  destruct HF as (yb & tens & XB & X1 & X3 & ob1 & t1 & t & td0 & data0 & HF). destruct HF as (_ & _ & HB & HQ & HEX & HX & _ & _ & _ & _ & HFE & _ & HN & _).
  assert (RD : related_data (List.length (series_ids y)) ts1 ts2 cell (p_effects p) d1 d2) by (intros nm ef x1 x2; apply (effects_data _ ts1 ts2 cell ids N1 N2 O1 O2 (p_fitted p) _ U1 U2); auto).
  refine (multivariate_same e _ ts1 ts2 cell _ _ (shape_size _ _ _) (shape_size _ _ _) (shape_dims _ _ _) (shape_dims _ _ _) c s p _ td1 td2 d1 d2 Hc _ RT RD).
  rewrite HS. unfold trend_shape. intros ->. auto.
Qed.

(** ** Programs *)
Section Univariate.
Variables (c : config) (ob : objects (TS := TS)) (y : frame R) (X0 : option (frame R)) (ob' : objects (TS := TS)) (f : fitted (P := P)).
Hypotheses (HF : fit_forecaster c ob y X0 = (ob', Ok f)) (Hc : c_hier c = false) (L : f_levels y = 0) (TT : scalar_piecewise (o_trend ob') \/ flat_trend (o_trend ob')).
Variables (y2 : frame R) (cutoff : Z) (fh1 fh2 : horizon).
Hypotheses (HC : max_time (map r_time (f_rows y2)) = Ok cutoff) (H1 : to_absolute cutoff fh1 = ts1) (H2 : to_absolute cutoff fh2 = ts2).

Lemma univariate_cells X1 X2 Xt1 Xt2 : run_transform tr_transform ob' X1 = Ok Xt1 -> run_transform tr_transform ob' X2 = Ok Xt2 -> agree cell ids Xt1 Xt2 -> f_cols Xt1 = f_cols Xt2 -> List.length ids = 1 ->
  covers Xt1 ts1 -> covers Xt2 ts2 -> frame_wf Xt1 -> frame_wf Xt2 ->
  forall e m1 m2 o1 tr1 o2 tr2, predict_model c ob' f y2 (Some X1) fh1 = Ok m1 -> predict_model c ob' f y2 (Some X2) fh2 = Ok m2 ->
  run e [] m1 = Ok (o1, tr1) -> run e [] m2 = Ok (o2, tr2) -> same_cells 1 ts1 ts2 cell tr1 tr2.
Proof.
  intros HX1 HX2 AG EC LI C1 C2 W1 W2 e m1 m2 o1 tr1 o2 tr2 P1 P2. apply related_runs. pose proof (has_exo _ _ _ _ _ _ _ _ _ _ _ _ _ HF Hc) as HE.
  destruct (predict_univariate _ _ _ _ _ _ _ _ _ _ _ _ P1 Hc HE HC H1) as (Xa & td1 & d1 & RX & T1 & D1 & ->). destruct (predict_univariate _ _ _ _ _ _ _ _ _ _ _ _ P2 Hc HE HC H2) as (Xb & td2 & d2 & RX2 & T2 & D2 & ->).
  rewrite HX1 in RX. rewrite HX2 in RX2. injection RX as <-. injection RX2 as <-. apply (univariate_core c ob y X0 ob' f e Xt1 Xt2); auto.
Qed.
End Univariate.

Section Hierarchical.
Variables (c : config) (ob : objects (TS := TS)) (y : frame R) (X0 : option (frame R)) (ob' : objects (TS := TS)) (f : fitted (P := P)).
Hypotheses (HF : fit_forecaster c ob y X0 = (ob', Ok f)) (Hc : c_hier c = true) (L : f_levels y <> 0) (W : frame_wf y) (NT : forall r, In r (f_rows y) -> ~ In "__total" (r_path r))
  (TT : scalar_piecewise (o_trend ob')) (OT : o_transformer ob = None) (LX : forall Z, X0 = Some Z -> f_levels Z <> 0).
Variables (y2 : frame R) (cutoff : Z) (fh1 fh2 : horizon).
Hypotheses (HC : max_time (map snd (p_index (ft_prepared f))) = Ok cutoff) (H1 : to_absolute cutoff fh1 = ts1) (H2 : to_absolute cutoff fh2 = ts2).

Lemma hierarchical_cells X1 X2 : no_columns X1 = false -> f_cols X1 = f_cols X2 -> covers X1 ts1 -> covers X2 ts2 -> frame_wf X1 -> frame_wf X2 ->
  (forall B1 B2, loc_bottom_series X1 = Ok B1 -> loc_bottom_series X2 = Ok B2 -> agree cell ids B1 B2) ->
  forall e m1 m2 o1 tr1 o2 tr2, predict_model c ob' f y2 (Some X1) fh1 = Ok m1 -> predict_model c ob' f y2 (Some X2) fh2 = Ok m2 ->
  run e [] m1 = Ok (o1, tr1) -> run e [] m2 = Ok (o2, tr2) -> same_cells (List.length (series_ids y)) ts1 ts2 cell tr1 tr2.
Proof.
  intros NC EC C1 C2 WX1 WX2 AG e m1 m2 o1 tr1 o2 tr2 P1 P2. apply related_runs. pose proof (hierarchical_supports ns_of order keep tr_fit_transform svi_run nuts_run latent_sites _ _ _ _ _ _ HF Hc L (panel_levels keep tr_fit_transform _ _ _ L OT LX (discrete c))) as SM. assert (OT' : o_transformer ob' = None) by (eapply still_none; eassumption).
  destruct (predict_hierarchical _ _ _ _ _ _ _ _ _ _ _ _ P1 Hc HC H1 OT') as (Xa & Ea & td1 & d1 & B1 & E1 & T1 & D1 & ->). destruct (predict_hierarchical _ _ _ _ _ _ _ _ _ _ _ _ P2 Hc HC H2 OT') as (Xb & Eb & td2 & d2 & B2 & E2 & T2 & D2 & ->).
  assert (NC2 : no_columns X2 = false) by (unfold no_columns in *; now rewrite <- EC). cbv zeta in B1, B2. rewrite NC in B1. rewrite NC2 in B2. specialize (AG _ _ B1 B2).
  pose proof (AlignForecaster.loc_bottom_wf _ _ WX1 B1) as WB1. pose proof (AlignForecaster.loc_bottom_wf _ _ WX2 B2) as WB2.
  pose proof (covers_bottom _ _ _ WX1 N1 C1 B1) as CB1. pose proof (covers_bottom _ _ _ WX2 N2 C2 B2) as CB2.
  assert (CC : forall A B : frame R, loc_bottom_series A = Ok B -> f_cols B = f_cols A).
  { intros A B. unfold loc_bottom_series. destruct (f_levels A); [intros [= <-]; reflexivity|]. intros Q. inv_bind Q. unfold get_multiindex_loc in Q. destruct x; [discriminate|]. injection Q as <-. reflexivity. }
  assert (EB : f_cols Xa = f_cols Xb) by (rewrite (CC _ _ B1), (CC _ _ B2); exact EC).
  destruct (p_has_exogenous (ft_prepared f)).
  - destruct E1 as (ex & ex' & E & E1). destruct E2 as (ex2 & ex2' & E' & E2). rewrite E in E'. injection E' as <-.
    pose proof (AlignForecaster.expand_transform_wf _ _ _ _ _ _ WB1 E1) as W1. pose proof (AlignForecaster.expand_transform_wf _ _ _ _ _ _ WB2 E2) as W2.
    pose proof (expand_transform_labels _ _ _ _ _ _ E1) as [L1 V1]. pose proof (expand_transform_labels _ _ _ _ _ _ E2) as [L2 V2].
    assert (IDS : f_levels Xa <> 0 -> series_ids Xa = series_ids Xb) by (now apply (agree_ids cell ids)).
    assert (EE : f_cols Ea = f_cols Eb).
    { pose proof (agree_expand (fun _ _ => false) ex Xa Xb Ea Eb ex' ex2') as G.
      assert (K : pick (fun _ _ => false) Xa = pick (fun _ _ => false) Xb).
      { destruct AG as (_ & _ & LV & _). unfold pick, filter_rows. rewrite LV, EB. f_equal. clear. induction (f_rows Xa) as [|? ? IH]; [|exact IH]. cbn. induction (f_rows Xb) as [|? ? IH]; [reflexivity|exact IH]. }
      specialize (G K IDS E1 E2). exact (f_equal f_cols G). }
    apply (hierarchical_core c ob y X0 ob' f e Ea Eb); auto; try (now apply (covers_same Xa)) || (now apply (covers_same Xb)).
    apply (agree_derived cell ids Xa Xb); auto. intros p t Q. exact (agree_expand _ ex Xa Xb Ea Eb ex' ex2' Q IDS E1 E2).
  - rewrite E1 in T1, D1. rewrite E2 in T2, D2. apply (hierarchical_core c ob y X0 ob' f e Xa Xb); auto.
Qed.
End Hierarchical.
End Forecaster.

(** * Bottom series *)
Lemma bottom_rows (X B : frame R) : frame_wf X -> loc_bottom_series X = Ok B -> series_of B = bottom_of X /\ f_levels B = f_levels X /\
  forall p t, In p (bottom_of X) -> pick (here p t) B = pick (here p t) X.
Proof.
  intros W H. destruct (f_levels X) as [|lv] eqn:LX.
  - unfold loc_bottom_series in H. rewrite LX in H. injection H as <-. unfold bottom_of, series_of. rewrite LX. auto.
  - rewrite loc_bottom_spec in H by (auto; congruence). cbv zeta in H. set (q := fun r : row R => negb (String.eqb (last (r_path r) "") total_name)) in *.
    destruct (f_rows (filter_rows q X)) eqn:ER; [discriminate|]. injection H as <-. clear ER. split; [|split; [exact LX|]].
    + unfold bottom_of, series_of. change (f_levels (filter_rows q X)) with (f_levels X). rewrite LX. unfold series_ids, filter_rows. cbn [f_rows]. unfold paths_unique. rewrite <- (unique_filter path_eqb path_eqb_eq). f_equal. symmetry. now apply filter_map_comm.
    + intros p t I. unfold bottom_of in I. apply filter_In in I as [_ I]. unfold pick, filter_rows. cbn [f_levels f_cols f_rows]. f_equal. rewrite filter_comm. apply FrameFacts.filter_all. intros r0 Hr. apply filter_In in Hr as [_ Hr]. apply here_true in Hr as [E _]. unfold q. rewrite E. exact I.
Qed.
Lemma agree_unchanged (X1 X2 : frame R) : same_frame X1 X2 -> agree (unchanged (series_of X1) X1 X2) (series_of X1) X1 X2.
Proof. intros (L & C & S). repeat split; auto. intros i t (p & E & V). exists p. split; [exact E|]. now apply values_pick. Qed.
Lemma agree_bottom (X1 X2 B1 B2 : frame R) : frame_wf X1 -> frame_wf X2 -> same_frame X1 X2 -> loc_bottom_series X1 = Ok B1 -> loc_bottom_series X2 = Ok B2 ->
  agree (unchanged (bottom_of X1) X1 X2) (bottom_of X1) B1 B2.
Proof.
  intros W1 W2 (L & C & S) H1 H2. destruct (bottom_rows _ _ W1 H1) as (S1 & V1 & R1). destruct (bottom_rows _ _ W2 H2) as (S2 & V2 & R2).
  assert (E : bottom_of X2 = bottom_of X1) by (unfold bottom_of; now rewrite S). repeat split; [exact S1|congruence|congruence|].
  intros i t (p & N & V). exists p. split; [exact N|]. assert (I : In p (bottom_of X1)) by (now apply nth_error_In in N). rewrite R1, R2 by (rewrite ?E; exact I). now apply values_pick.
Qed.

(** * Forecasters with different exogenous data *)
Section Final.
Variable ns_of : Z -> Z.
Variable order : list string -> list string.
Variable keep : path -> bool.
Context {TS : Type}.
Variable tr_fit_transform : TS -> frame R -> TS * res (frame R).
Variable tr_transform : TS -> frame R -> res (frame R).
Context {P : Type}.
Variable svi_run : Z -> nat -> nat -> prog arr -> res (list xr * P).
Variable nuts_run : Z -> nat -> nat -> nat -> prog arr -> res (nat -> nat -> env).
Variable latent_sites : prog arr -> list string.
Notation fit_forecaster := (fit_forecaster ns_of order keep tr_fit_transform svi_run nuts_run latent_sites).
Notation predict_model := (predict_model ns_of keep tr_transform).

Lemma c116_univariate : forall ts1 ts2, ts1 <> [] -> ts2 <> [] -> in_order ts1 -> in_order ts2 ->
  forall c ob y X0 ob' (f : fitted (P := P)), fit_forecaster c ob y X0 = (ob', Ok f) -> c_hier c = false -> f_levels y = 0 ->
  scalar_piecewise (o_trend ob') \/ flat_trend (o_trend ob') ->
  forall y2 cutoff fh1 fh2, max_time (map r_time (f_rows y2)) = Ok cutoff -> to_absolute cutoff fh1 = ts1 -> to_absolute cutoff fh2 = ts2 ->
  forall X1 X2 Xt1 Xt2, match o_transformer ob' with None => Ok X1 | Some tr => tr_transform tr X1 end = Ok Xt1 ->
  match o_transformer ob' with None => Ok X2 | Some tr => tr_transform tr X2 end = Ok Xt2 ->
  f_levels Xt1 = 0 -> same_frame Xt1 Xt2 -> covers Xt1 ts1 -> covers Xt2 ts2 -> frame_wf Xt1 -> frame_wf Xt2 ->
  forall e m1 m2 o1 tr1 o2 tr2, predict_model c ob' f y2 (Some X1) fh1 = Ok m1 -> predict_model c ob' f y2 (Some X2) fh2 = Ok m2 ->
  run e [] m1 = Ok (o1, tr1) -> run e [] m2 = Ok (o2, tr2) -> same_cells 1 ts1 ts2 (unchanged [[]] Xt1 Xt2) tr1 tr2.
Proof.
  intros ts1 ts2 N1 N2 O1 O2 c ob y X0 ob' f HF Hc L TT y2 cutoff fh1 fh2 HC H1 H2 X1 X2 Xt1 Xt2 HX1 HX2 LV SF C1 C2 W1 W2.
  assert (S : series_of Xt1 = [[]]) by (unfold series_of; now rewrite LV). rewrite <- S.
  apply (univariate_cells ns_of order keep tr_fit_transform tr_transform svi_run nuts_run latent_sites ts1 ts2 (unchanged (series_of Xt1) Xt1 Xt2) (series_of Xt1) N1 N2 O1 O2 c ob y X0 ob' f HF Hc L TT y2 cutoff fh1 fh2 HC H1 H2 X1 X2 Xt1 Xt2); auto.
  - now apply agree_unchanged.
  - exact (proj1 (proj2 SF)).
  - now rewrite S.
Qed.
Lemma c116_hierarchical : forall ts1 ts2, ts1 <> [] -> ts2 <> [] -> in_order ts1 -> in_order ts2 ->
  forall c ob y X0 ob' (f : fitted (P := P)), fit_forecaster c ob y X0 = (ob', Ok f) -> c_hier c = true -> f_levels y <> 0 -> frame_wf y ->
  (forall r, In r (f_rows y) -> ~ In "__total" (r_path r)) -> scalar_piecewise (o_trend ob') -> o_transformer ob = None ->
  (forall Z, X0 = Some Z -> f_levels Z <> 0) ->
  forall y2 cutoff fh1 fh2, max_time (map snd (p_index (ft_prepared f))) = Ok cutoff -> to_absolute cutoff fh1 = ts1 -> to_absolute cutoff fh2 = ts2 ->
  forall X1 X2, no_columns X1 = false -> same_frame X1 X2 -> covers X1 ts1 -> covers X2 ts2 -> frame_wf X1 -> frame_wf X2 ->
  forall e m1 m2 o1 tr1 o2 tr2, predict_model c ob' f y2 (Some X1) fh1 = Ok m1 -> predict_model c ob' f y2 (Some X2) fh2 = Ok m2 ->
  run e [] m1 = Ok (o1, tr1) -> run e [] m2 = Ok (o2, tr2) -> same_cells (List.length (series_ids y)) ts1 ts2 (unchanged (bottom_of X1) X1 X2) tr1 tr2.
Proof.
  intros ts1 ts2 N1 N2 O1 O2 c ob y X0 ob' f HF Hc L W NT TT OT LX y2 cutoff fh1 fh2 HC H1 H2 X1 X2 NC SF C1 C2 W1 W2.
  apply (hierarchical_cells ns_of order keep tr_fit_transform tr_transform svi_run nuts_run latent_sites ts1 ts2 (unchanged (bottom_of X1) X1 X2) (bottom_of X1) N1 N2 O1 O2 c ob y X0 ob' f HF Hc L W NT TT OT LX y2 cutoff fh1 fh2 HC H1 H2 X1 X2); auto.
  - exact (proj1 (proj2 SF)).
  - intros B1 B2. now apply agree_bottom.
Qed.
End Final.
