(** The same dates in two horizons: forecasters. *)
From Coq Require Import Reals Lra ZArith String Ascii Bool List Lia Sorted Permutation.
From Verif.Model Require Import Base Num XFloat Frame Arr Prog Likelihood Effect Trend TrendProg Aggregate Scale Expand Engine Forecaster.
From Verif.Spec Require Import FrameSpec ProgSpec EffectSpec AlignSpec ShapeSpec ForecasterSpec SiteSpec OverlapSpec.
From Verif.Facts Require Import BaseFacts FrameFacts OrderFacts NumFacts ArrFacts TrendFacts ProgFacts MeanFacts LikelihoodFacts PosteriorFacts ModelProps ForecasterFacts ForecasterInv ForecasterProps CompleteFacts ShapeFacts SiteFacts AlignFacts ComponentFacts RescaleEffects HorizonFacts OverlapFacts OverlapFrames OverlapTrend OverlapModel OverlapNone.
Import ListNotations.
Local Open Scope string_scope.

(** * Data of the effects *)
Section Effects.
Variables (n : nat) (ts1 ts2 : list Z).
Hypotheses (N1 : ts1 <> []) (N2 : ts2 <> []) (O1 : in_order ts1) (O2 : in_order ts2).

Lemma effects_data (fitted : list fitted_effect) effs X d1 d2 : covers X ts1 -> covers X ts2 -> frame_wf X -> (n = 1 /\ List.length (series_of X) = 1) \/ (forall g, In g fitted -> supports_multivariate (fe_effect g) = true) ->
  non_skipped fitted = Ok effs -> transform_effects fitted X ts1 = Ok d1 -> transform_effects fitted X ts2 = Ok d2 -> related_data n ts1 ts2 effs d1 d2.
Proof.
  intros C1 C2 W S HN H1 H2. pose proof (non_skipped_nodup _ _ HN) as ND.
  assert (R : forall name ef x1 x2, dict_get effs name = Some ef -> dict_get d1 name = Some x1 -> dict_get d2 name = Some x2 -> same_data n ts1 ts2 ef x1 x2).
  2:{ intros name ef x1 x2 I. apply R. now apply dict_get_nodup. }
  unfold non_skipped in HN. unfold transform_effects in H1, H2.
  assert (G : forall l, incl l fitted -> forall a1 a2 a0,
    (forall name ef x1 x2, dict_get a0 name = Some ef -> dict_get a1 name = Some x1 -> dict_get a2 name = Some x2 -> same_data n ts1 ts2 ef x1 x2) ->
    foldM (fun out f => let '(name, e, _) := f in skip <- should_skip_predict e ;; Ok (if (skip : bool) then out else dict_set out name e)) a0 l = Ok effs ->
    foldM (fun out f => let '(name, e, cols) := f in skip <- should_skip_predict e ;; if (skip : bool) then Ok out
           else XC <- select_columns 0%R X cols ;; d <- transform e (Some XC) ts1 ;; Ok (dict_set out name d)) a1 l = Ok d1 ->
    foldM (fun out f => let '(name, e, cols) := f in skip <- should_skip_predict e ;; if (skip : bool) then Ok out
           else XC <- select_columns 0%R X cols ;; d <- transform e (Some XC) ts2 ;; Ok (dict_set out name d)) a2 l = Ok d2 ->
    forall name ef x1 x2, dict_get effs name = Some ef -> dict_get d1 name = Some x1 -> dict_get d2 name = Some x2 -> same_data n ts1 ts2 ef x1 x2).
  { induction l as [|[[name ef] cols] l IH]; intros I a1 a2 a0 A F0 F1 F2; cbn [foldM] in *; [injection F0 as <-; injection F1 as <-; injection F2 as <-; exact A|].
    destruct (should_skip_predict ef) as [[|]|] eqn:SK; cbn [bind] in *; [apply (IH (fun g Hg => I g (or_intror Hg)) a1 a2 a0); auto| |discriminate].
    destruct (select_columns 0%R X cols) as [XC|] eqn:SC; [|discriminate]. cbn [bind] in *.
    destruct (transform ef (Some XC) ts1) as [y1|] eqn:T1; [|discriminate]. destruct (transform ef (Some XC) ts2) as [y2|] eqn:T2; [|discriminate]. cbn [bind] in *.
    refine (IH (fun g Hg => I g (or_intror Hg)) _ _ _ _ F0 F1 F2). intros nm g x1 x2. rewrite !dict_get_set. destruct (String.eqb nm name); [|apply A]. intros [= <-] [= <-] [= <-].
    pose proof (select_wf _ _ _ W SC) as WC. apply select_labels in SC as (S1 & S2 & _ & _). apply (transform_same n ts1 ts2 N1 N2 O1 O2 ef XC); auto; try (apply (covers_same X); auto).
    rewrite (series_of_labels XC X) by auto. destruct S as [S|S]; [now left|right]. exact (S (name, ef, cols) (I _ (or_introl eq_refl))). }
  apply (G fitted (incl_refl _) [] [] []); auto. discriminate.
Qed.
End Effects.

(** * Trends *)
Section Trends.
Variable ns_of : Z -> Z.
Variable order : list string -> list string.
Variables (e : env) (ts1 ts2 : list Z).
Hypotheses (O1 : in_order ts1) (O2 : in_order ts2).

Lemma obs_names t td : forall a l, eval e (trend_predict t td) = Ok (a, l) -> ~ In "obs" (map fst l).
Proof.
  intros a l E I. assert (Y : yields e (trend_predict t td) a) by (apply eval_yields; eauto). apply trend_clean in Y as [_ Y]. rewrite (actions_eval _ _ _ _ E) in Y. apply Y in I.
  unfold trend_sites in I. simpl in I. intuition discriminate.
Qed.
Lemma ordered_unique ts : in_order ts -> times_unique ts = ts.
Proof. intros O. apply times_unique_id. now apply in_order_nodup. Qed.

Lemma shape_size n T sq : prod_shape (trend_shape n T sq) = n * T.
Proof. unfold trend_shape, prod_shape. destruct (Nat.eqb_spec n 1) as [->|], sq; cbn [andb fold_right]; lia. Qed.
Lemma shape_dims n T sq : List.length (trend_shape n T sq) <> 1.
Proof. unfold trend_shape. destruct (_ && _); discriminate. Qed.

Lemma piecewise_trend_same t0 X0 y s t X td1 td2 : trend_fit ns_of order t0 X0 y s = (t, None) -> scalar_piecewise t -> n_series_of y <> 0 ->
  trend_transform ns_of t X ts1 = Ok td1 -> trend_transform ns_of t X ts2 = Ok td2 ->
  exists sq, related e (same_then (n_series_of y) ts1 ts2)
    (same_arr (n_series_of y) ts1 ts2 (trend_shape (n_series_of y) (List.length ts1) sq) (trend_shape (n_series_of y) (List.length ts2) sq)) (trend_predict t td1) (trend_predict t td2).
Proof.
  intros HF SP NE H1 H2. assert (NR : f_levels y <> 0 -> f_rows y <> []).
  { intros L E. apply NE. unfold n_series_of, series_ids. rewrite E. now destruct (f_levels y). }
  destruct (piecewise_value ns_of order _ _ _ _ _ HF SP NR) as (sq & V). exists sq.
  assert (V' : forall ts td v, in_order ts -> trend_transform ns_of t X ts = Ok td -> yields e (trend_predict t td) v -> arr_wf v /\ a_shape v = trend_shape (n_series_of y) (List.length ts) sq).
  { intros ts td v O HT Y. destruct (V _ _ _ _ _ HT Y) as [A B]. split; [exact A|]. rewrite B. destruct (f_levels y); [reflexivity|]. now rewrite ordered_unique. }
  intros a1 l1 a2 l2 E1 E2. destruct (V' ts1 td1 a1 O1 H1) as [A1 B1]; [apply eval_yields; eauto|]. destruct (V' ts2 td2 a2 O2 H2) as [A2 B2]; [apply eval_yields; eauto|].
  destruct (CompleteFacts.fitted_trend ns_of order _ _ _ _ _ HF SP) as (pp & cap & b & f & iv & rg & E & PF & PI & PR).
  assert (G : related e (same_then (n_series_of y) ts1 ts2) (fun a1 a2 => same_there (n_series_of y) ts1 ts2 (a_flat a1) (a_flat a2)) (trend_predict t td1) (trend_predict t td2)).
  { apply related_names; [apply obs_names|]. subst t. cbn [trend_transform] in H1, H2. destruct (trend_rows b X ts1); [|discriminate]. destruct (trend_rows b X ts2); [|discriminate]. cbn [bind attr] in *. injection H1 as <-. injection H2 as <-. cbn [trend_predict].
    destruct (piecewise_fit_inv _ _ _ _ PF) as (u & _ & _ & Hn & Hp & Hc & Hs & _ & Hse). rewrite PI, PR in Hc. apply setup_length in Hc. destruct (suggest_lengths_any _ _ _ _ _ Hs) as [_ Lo].
    apply piecewise_same; auto. }
  destruct (G _ _ _ _ E1 E2) as [Q F]. split; [|exact F]. unfold arr_wf in A1, A2. rewrite B1, shape_size in A1. rewrite B2, shape_size in A2. repeat split; auto.
Qed.

Lemma flat_trend_same t0 X0 y s t X td1 td2 : trend_fit ns_of order t0 X0 y s = (t, None) -> flat_trend t -> covers X ts1 -> covers X ts2 -> List.length (series_of X) = 1 ->
  trend_transform ns_of t X ts1 = Ok td1 -> trend_transform ns_of t X ts2 = Ok td2 ->
  related e (same_then 1 ts1 ts2) (same_arr 1 ts1 ts2 [List.length ts1; 1] [List.length ts2; 1]) (trend_predict t td1) (trend_predict t td2).
Proof.
  intros HF FT C1 C2 S H1 H2. destruct t as [|sc b loc|]; try contradiction. cbn [trend_transform] in H1, H2.
  assert (K : forall ts td, covers X ts -> (X0 <- trend_rows b X ts ;; Ok (TArray (flat_transform X0))) = Ok td -> td = TArray (mkArr [List.length ts; 1] (repeat 1%R (List.length ts)))).
  { intros ts td C H. unfold trend_rows in H. destruct (attr (b_fitted b)) as [[]|]; cbn [bind negb] in H; try discriminate. destruct (attr (b_cols b)) as [cols|]; [|discriminate]. cbn [bind] in H.
    rewrite select_filter in H. destruct (select_columns 0%R X cols) as [XC|] eqn:SC; [|discriminate]. cbn [bind] in H. injection H as <-. apply OverlapFrames.select_labels in SC as (S1 & S2 & _ & _).
    unfold flat_transform. rewrite (covered_rows XC) by (apply (covers_same X); auto). rewrite (series_of_labels XC X), S, Nat.mul_1_l by auto. reflexivity. }
  apply (K ts1 _ C1) in H1. apply (K ts2 _ C2) in H2. subst. apply related_names; [apply obs_names|]. cbn [trend_predict]. destruct loc as [loc|]; [|apply related_raise]. unfold flat_prog. destruct (flat_prior loc sc) as [cc rr].
  apply (related_bind _ _ eq); [apply related_sample, in_sample|]. intros v ? <-. apply related_ret. unfold flat_predict, arr_map. cbn [a_flat a_shape]. repeat split; cbn [a_flat a_shape].
  - rewrite map_length, repeat_length. lia.
  - rewrite map_length, repeat_length. lia.
  - apply there_map. pose proof (there_repeat 1 ts1 ts2 1%R) as Q. rewrite !Nat.mul_1_l in Q. exact Q.
Qed.
End Trends.

(** * Forecasters *)
Lemma fit_multivariate order e (X : frame R) s e' : f_levels X <> 0 -> fit order e (Some X) s = (e', None) -> supports_multivariate e' = true.
Proof.
  intros L H. assert (P : is_panel (Some X) = true) by (cbn; now destruct (f_levels X)).
  destruct (EffectFacts.fit_class order e (Some X) s e' None H) as [_ F]. rewrite F.
  destruct (supports_multivariate e) eqn:S; [reflexivity|]. destruct e as [| | |inner t ps b sc|]; try discriminate S; cbn [fit] in H.
  1,2: unfold base_fit in H; rewrite S, P in H; discriminate.
  destruct (fit order inner (Some X) s) as [i [|]]; [discriminate|]. unfold base_fit in H. rewrite P in H. discriminate.
Qed.

Section Forecaster.
Variable ns_of : Z -> Z.
Variable order : list string -> list string.
Variable keep : path -> bool.
Context {TS : Type}.
Variable tr_fit_transform : TS -> frame R -> TS * res (frame R).
Variable tr_transform : TS -> frame R -> res (frame R).
Context {P : Type}.
Variable svi_run : Z -> nat -> nat -> prog arr -> res (list xr * P).
Variable nuts_run : Z -> nat -> nat -> nat -> prog arr -> res (nat -> nat -> env).
Variable latent_sites : prog arr -> list string.
Notation fit_forecaster := (fit_forecaster ns_of order keep tr_fit_transform svi_run nuts_run latent_sites).
Notation predict_model := (predict_model ns_of keep tr_transform).
Variables (ts1 ts2 : list Z).
Hypotheses (N1 : ts1 <> []) (N2 : ts2 <> []) (O1 : in_order ts1) (O2 : in_order ts2).

Lemma univariate_core c ob y X0 ob' (f : fitted (P := P)) e U td1 td2 d1 d2 : fit_forecaster c ob y X0 = (ob', Ok f) -> c_hier c = false -> f_levels y = 0 ->
  scalar_piecewise (o_trend ob') \/ flat_trend (o_trend ob') -> covers U ts1 -> covers U ts2 -> frame_wf U -> List.length (series_of U) = 1 ->
  trend_transform ns_of (o_trend ob') U ts1 = Ok td1 -> trend_transform ns_of (o_trend ob') U ts2 = Ok td2 ->
  transform_effects (p_fitted (ft_prepared f)) U ts1 = Ok d1 -> transform_effects (p_fitted (ft_prepared f)) U ts2 = Ok d2 ->
  related e (same_then 1 ts1 ts2) (fun _ _ => True) (model_call c (ft_scale f) (ft_prepared f) (o_trend ob') td1 None (Some d1)) (model_call c (ft_scale f) (ft_prepared f) (o_trend ob') td2 None (Some d2)).
Proof.
  intros H Hc L TT C1 C2 W S T1 T2 E1 E2. apply fit_forecaster_inv in H. destruct H as (s & ys & p & m & post & _ & HY & HF & _ & ->). cbn [ft_prepared ft_scale] in *.
  unfold fit_data in HF. rewrite Hc in HF. apply univariate_fit_inv in HF. destruct HF as (t0 & t & yt & X1 & Xe & td & data & _ & HD & HT & _ & _ & <- & _ & _ & _ & HN & HP & _).
  assert (LY : f_levels yt = 0).
  { apply scale_y_index in HY. destruct (discrete c); [|injection HD as <-; now rewrite <- L].
    unfold divide_target in HD. destruct s; injection HD as <- || discriminate; cbn [map_vals f_levels]; now rewrite <- L. }
  assert (NS : n_series_of yt = 1) by (unfold n_series_of; now rewrite LY).
  assert (HX : p_has_exogenous p = true) by (rewrite HP; reflexivity).
  assert (RD : related_data 1 ts1 ts2 (p_effects p) d1 d2) by (apply (effects_data 1 ts1 ts2 N1 N2 O1 O2 (p_fitted p) _ U); auto).
  destruct TT as [SP|FT].
  - destruct (piecewise_trend_same ns_of order e ts1 ts2 O1 O2 _ _ _ _ _ _ _ _ HT SP ltac:(rewrite NS; discriminate) T1 T2) as (sq & RT). rewrite NS in RT.
    apply (univariate_same e 1 ts1 ts2 _ _ (shape_size _ _ _) (shape_size _ _ _) (shape_dims _ _ _) (shape_dims _ _ _) c s p _ td1 td2 d1 d2 Hc HX RT RD).
  - pose proof (flat_trend_same ns_of order e ts1 ts2 _ _ _ _ _ _ _ _ HT FT C1 C2 S T1 T2) as RT.
    refine (univariate_same e 1 ts1 ts2 _ _ _ _ _ _ c s p _ td1 td2 d1 d2 Hc HX RT RD); (unfold prod_shape; cbn [fold_right]; lia) || discriminate.
Qed.

(** effects fitted on a panel work for several series *)
Lemma hierarchical_supports c ob y X0 ob' (f : fitted (P := P)) : fit_forecaster c ob y X0 = (ob', Ok f) -> c_hier c = true -> f_levels y <> 0 ->
  (forall s ys XB ob1 X1, scale_y (discrete c) s y = Ok ys -> loc_bottom_series (match X0 with None => empty_frame (f_levels (aggregate keep ys)) (index_of (aggregate keep ys)) | Some X => if no_columns X then empty_frame (f_levels (aggregate keep ys)) (index_of (aggregate keep ys)) else X end) = Ok XB ->
     run_fit_transform tr_fit_transform ob XB = (ob1, Ok X1) -> f_levels X1 <> 0) ->
  forall g, In g (p_fitted (ft_prepared f)) -> supports_multivariate (fe_effect g) = true.
Proof.
  intros H Hc L LX. apply fit_forecaster_inv in H. destruct H as (s & ys & p & m & post & _ & HY & HF & _ & ->). cbn [ft_prepared ft_scale] in *.
  unfold fit_data in HF. rewrite Hc in HF. apply hierarchical_fit_inv in HF.
  destruct HF as (yb & tens & XB & X1 & X3 & ob1 & t1 & t & td0 & data0 & HF). destruct HF as (_ & _ & HB & HQ & HEX & HX & _ & _ & _ & _ & HFE & _ & HN & _).
  assert (LV : f_levels X3 <> 0).
  { pose proof (LX _ _ _ _ _ HY HB HQ) as LB. destruct (p_has_exogenous p); [destruct HX as (ex & HX & _); apply expand_bottom_labels in HX as [_ ->]; exact LB|]. destruct HX as [-> _]. exact LB. }
  assert (K : forall cols XC e0 e', select_columns 0%R X3 cols = Ok XC -> fit order e0 (Some XC) (scale_number s) = (e', None) -> supports_multivariate e' = true).
    { intros cols XC e0 e' SC. apply OverlapFrames.select_labels in SC as (_ & S2 & _ & _). apply fit_multivariate. congruence. }
    destruct (fit_effects_inv order _ _ _ _ _ HFE) as (main & dflt & EF & F & D). intros g I. rewrite EF in I. apply in_app_or in I as [I|I].
    - apply ForecasterFacts.Forall2_In_both in F as [_ F]. destruct (F g I) as (l & _ & Hl). destruct l as [[nm e0] re]. destruct Hl as (_ & _ & XC & SC & FT). now apply (K _ _ _ _ SC FT).
    - destruct D as [[-> _]|(g' & -> & _ & _ & _ & XC & SC & FT)]; [contradiction|]. destruct I as [<-|[]]. now apply (K _ _ _ _ SC FT).
Qed.
Lemma panel_levels ob y X0 : f_levels y <> 0 -> o_transformer ob = None -> (forall Z, X0 = Some Z -> f_levels Z <> 0) ->
  forall d s ys XB ob1 X1, scale_y d s y = Ok ys -> loc_bottom_series (match X0 with None => empty_frame (f_levels (aggregate keep ys)) (index_of (aggregate keep ys)) | Some X => if no_columns X then empty_frame (f_levels (aggregate keep ys)) (index_of (aggregate keep ys)) else X end) = Ok XB ->
    run_fit_transform tr_fit_transform ob XB = (ob1, Ok X1) -> f_levels X1 <> 0.
Proof.
  intros L OT LX d s ys XB ob1 X1 HY HB HQ. apply scale_y_index in HY. destruct HY as [_ LY].
  assert (LBB : forall A B : frame R, loc_bottom_series A = Ok B -> f_levels B = f_levels A).
  { intros A B. unfold loc_bottom_series. destruct (f_levels A) eqn:LA; [intros [= <-]; exact LA|]. intros Q. inv_bind Q. unfold get_multiindex_loc in Q. destruct x; [discriminate|]. injection Q as <-. exact LA. }
  apply LBB in HB. apply run_fit_transform_inv in HQ as [_ HQ]. rewrite OT in HQ. destruct HQ as [_ ->]. rewrite HB. destruct (PanelBottom.aggregate_levels keep ys) as [LA _].
  destruct X0 as [Z|]; [|cbn [empty_frame f_levels]; congruence]. destruct (no_columns Z); [cbn [empty_frame f_levels]; congruence|]. now apply LX.
Qed.

Lemma hierarchical_core c ob y X0 ob' (f : fitted (P := P)) e U td1 td2 d1 d2 : fit_forecaster c ob y X0 = (ob', Ok f) -> c_hier c = true -> f_levels y <> 0 -> frame_wf y ->
  (forall r, In r (f_rows y) -> ~ In "__total" (r_path r)) -> scalar_piecewise (o_trend ob') -> (forall g, In g (p_fitted (ft_prepared f)) -> supports_multivariate (fe_effect g) = true) ->
  covers U ts1 -> covers U ts2 -> frame_wf U ->
  trend_transform ns_of (o_trend ob') U ts1 = Ok td1 -> trend_transform ns_of (o_trend ob') U ts2 = Ok td2 ->
  transform_effects (p_fitted (ft_prepared f)) U ts1 = Ok d1 -> transform_effects (p_fitted (ft_prepared f)) U ts2 = Ok d2 ->
  related e (same_then (List.length (series_ids y)) ts1 ts2) (fun _ _ => True) (model_call c (ft_scale f) (ft_prepared f) (o_trend ob') td1 None (Some d1)) (model_call c (ft_scale f) (ft_prepared f) (o_trend ob') td2 None (Some d2)).
Proof.
  intros H Hc L W NT SP SM C1 C2 WU T1 T2 E1 E2. destruct (hierarchical_index ns_of order keep _ _ _ _ _ _ _ _ _ _ H Hc L W NT) as (HS & RY0 & _).
  apply fit_forecaster_inv in H. destruct H as (s & ys & p & m & post & _ & HY & HF & _ & ->). cbn [ft_prepared ft_scale] in *.
  pose proof (CompleteFacts.scale_y_wf _ _ _ _ W HY) as WS. apply scale_y_index in HY. destruct HY as [IY LY].
  assert (RP : map r_path (f_rows ys) = map r_path (f_rows y)).
  { unfold index_of in IY. apply (f_equal (map fst)) in IY. rewrite !map_map in IY. exact IY. }
  assert (NTS : forall r, In r (f_rows ys) -> ~ In "__total" (r_path r)).
  { intros r Hr. assert (I : In (r_path r) (map r_path (f_rows y))) by (rewrite <- RP; now apply in_map). apply in_map_iff in I as (r' & <- & I). now apply NT. }
  destruct (hierarchical_setup _ _ _ _ _ _ _ _ _ _ _ _ HF Hc ltac:(congruence) WS NTS) as (tensor & X2 & t0 & td & data & _ & HT & _ & _ & RY & _).
  assert (NS : n_series_of (sort_index ys) = List.length (series_ids y)).
  { unfold n_series_of. change (f_levels (sort_index ys)) with (f_levels ys). rewrite LY. destruct (f_levels y) as [|k]; [congruence|]. rewrite sort_index_ids. unfold series_ids. now rewrite RP. }
  assert (N0 : List.length (series_ids y) <> 0).
  { intros E. apply length_zero_iff_nil in E. destruct (f_rows y) as [|r l] eqn:ER; [congruence|]. assert (I : In (r_path r) (series_ids y)) by (unfold series_ids; rewrite paths_unique_In, ER; simpl; auto). rewrite E in I. contradiction. }
  destruct (piecewise_trend_same ns_of order e ts1 ts2 O1 O2 _ _ _ _ _ _ _ _ HT SP ltac:(rewrite NS; exact N0) T1 T2) as (sq & RT). rewrite NS in RT.
  unfold fit_data in HF. rewrite Hc in HF. apply hierarchical_fit_inv in HF.
  destruct HF as (yb & tens & XB & X1 & X3 & ob1 & t1 & t & td0 & data0 & HF). destruct HF as (_ & _ & HB & HQ & HEX & HX & _ & _ & _ & _ & HFE & _ & HN & _).
  assert (RD : related_data (List.length (series_ids y)) ts1 ts2 (p_effects p) d1 d2) by (apply (effects_data _ ts1 ts2 N1 N2 O1 O2 (p_fitted p) _ U); auto).
  refine (multivariate_same e _ ts1 ts2 _ _ (shape_size _ _ _) (shape_size _ _ _) (shape_dims _ _ _) (shape_dims _ _ _) c s p _ td1 td2 d1 d2 Hc _ RT RD).
  rewrite HS. unfold trend_shape. intros ->. auto.
Qed.
(** ** Programs *)
Lemma has_exo c ob y X0 ob' (f : fitted (P := P)) : fit_forecaster c ob y X0 = (ob', Ok f) -> c_hier c = false -> p_has_exogenous (ft_prepared f) = true.
Proof. intros H Hc. apply fit_forecaster_inv in H. destruct H as (s & ys & p & m & post & _ & _ & HF & _ & ->). apply fit_data_inv in HF. destruct HF as (Xe & td & ya & data & _ & _ & _ & _ & HX & _). now apply HX. Qed.

Lemma predict_univariate c ob (f : fitted (P := P)) y2 X fh cutoff ts m : predict_model c ob f y2 X fh = Ok m -> c_hier c = false -> p_has_exogenous (ft_prepared f) = true -> max_time (map r_time (f_rows y2)) = Ok cutoff -> to_absolute cutoff fh = ts ->
  exists Xt td data, run_transform tr_transform ob (match X with None => empty_frame 0 (map (fun t => ([], t)) ts) | Some X => X end) = Ok Xt /\
    trend_transform ns_of (o_trend ob) Xt ts = Ok td /\ transform_effects (p_fitted (ft_prepared f)) Xt ts = Ok data /\
    m = model_call c (ft_scale f) (ft_prepared f) (o_trend ob) td None (Some data).
Proof.
  intros H Hc HX HM HT. unfold Forecaster.predict_model in H. rewrite Hc in H. unfold univariate_predict_model in H. rewrite HM, HX in H. cbn [bind] in H. cbv zeta in H. rewrite HT in H.
  destruct (run_transform _ _ _) as [Xt|]; [|discriminate]. cbn [bind] in H. destruct (trend_transform _ _ _ _) as [td|] eqn:TT; [|discriminate]. cbn [bind] in H.
  destruct (transform_effects _ _ _) as [data|] eqn:TE; [|discriminate]. cbn [bind] in H. injection H as <-. eauto 8.
Qed.

Section Univariate.
Variables (c : config) (ob : objects (TS := TS)) (y : frame R) (X0 : option (frame R)) (ob' : objects (TS := TS)) (f : fitted (P := P)).
Hypotheses (HF : fit_forecaster c ob y X0 = (ob', Ok f)) (Hc : c_hier c = false) (L : f_levels y = 0) (TT : scalar_piecewise (o_trend ob') \/ flat_trend (o_trend ob')).
Variables (y2 : frame R) (cutoff : Z) (fh1 fh2 : horizon).
Hypotheses (HC : max_time (map r_time (f_rows y2)) = Ok cutoff) (H1 : to_absolute cutoff fh1 = ts1) (H2 : to_absolute cutoff fh2 = ts2).

Lemma c102_univariate X Xt : run_transform tr_transform ob' X = Ok Xt -> covers Xt ts1 -> covers Xt ts2 -> frame_wf Xt -> f_levels Xt = 0 ->
  forall e m1 m2 o1 tr1 o2 tr2, predict_model c ob' f y2 (Some X) fh1 = Ok m1 -> predict_model c ob' f y2 (Some X) fh2 = Ok m2 ->
  run e [] m1 = Ok (o1, tr1) -> run e [] m2 = Ok (o2, tr2) -> same_overlap 1 ts1 ts2 tr1 tr2.
Proof.
  intros HX C1 C2 W LX e m1 m2 o1 tr1 o2 tr2 P1 P2. apply related_runs. pose proof (has_exo _ _ _ _ _ _ HF Hc) as HE.
  destruct (predict_univariate _ _ _ _ _ _ _ _ _ P1 Hc HE HC H1) as (Xa & td1 & d1 & RX & T1 & D1 & ->). destruct (predict_univariate _ _ _ _ _ _ _ _ _ P2 Hc HE HC H2) as (Xb & td2 & d2 & RX2 & T2 & D2 & ->).
  rewrite HX in RX, RX2. injection RX as <-. injection RX2 as <-. apply (univariate_core c ob y X0 ob' f e Xt); auto. unfold series_of. now rewrite LX.
Qed.

Lemma c102_univariate_none : o_transformer ob' = None -> forall e m1 m2 o1 tr1 o2 tr2, predict_model c ob' f y2 None fh1 = Ok m1 -> predict_model c ob' f y2 None fh2 = Ok m2 ->
  run e [] m1 = Ok (o1, tr1) -> run e [] m2 = Ok (o2, tr2) -> same_overlap 1 ts1 ts2 tr1 tr2.
Proof.
  intros OT e m1 m2 o1 tr1 o2 tr2 P1 P2. apply related_runs. pose proof (has_exo _ _ _ _ _ _ HF Hc) as HE.
  destruct (predict_univariate _ _ _ _ _ _ _ _ _ P1 Hc HE HC H1) as (Xa & td1 & d1 & RX & T1 & D1 & ->). destruct (predict_univariate _ _ _ _ _ _ _ _ _ P2 Hc HE HC H2) as (Xb & td2 & d2 & RX2 & T2 & D2 & ->).
  unfold run_transform in RX, RX2. rewrite OT in RX, RX2. injection RX as <-. injection RX2 as <-.
  set (M := both ts1 ts2). assert (OM : in_order M) by now apply both_order. assert (I1 : incl ts1 M) by (intros t Ht; apply both_In; now left). assert (I2 : incl ts2 M) by (intros t Ht; apply both_In; now right).
  assert (NM : M <> []) by (destruct ts1 as [|t l]; [congruence|]; intros E; specialize (I1 t (or_introl eq_refl)); rewrite E in I1; contradiction).
  assert (EC : forall ts, map (fun t => ([], t)) ts = cells [[]] ts) by (intros ts; unfold cells; cbn [flat_map]; now rewrite app_nil_r). rewrite EC in T1, D1, T2, D2.
  rewrite <- (empty_cells 0 [[]] ts1 M) in T1, D1 by assumption. rewrite <- (empty_cells 0 [[]] ts2 M) in T2, D2 by assumption. rewrite <- trend_transform_filter in T1, T2. rewrite <- transform_effects_filter in D1, D2.
  assert (ND : NoDup [@nil string]) by (constructor; [intros []|constructor]).
  apply (univariate_core c ob y X0 ob' f e (empty_frame 0 (cells [[]] M))); auto; try (now apply cells_cover). apply cells_wf. intros p [<-|[]]. reflexivity.
Qed.
End Univariate.

(** * Panels *)
Lemma covers_bottom X Xb ts : frame_wf X -> ts <> [] -> covers X ts -> loc_bottom_series X = Ok Xb -> covers Xb ts.
Proof.
  intros W N C H. destruct (f_levels X) as [|lv] eqn:LX; [unfold loc_bottom_series in H; rewrite LX in H; injection H as <-; exact C|].
  rewrite loc_bottom_spec in H by (auto; congruence). cbv zeta in H. set (q := fun r : row R => negb (String.eqb (last (r_path r) "") total_name)) in *. destruct (f_rows (filter_rows q X)) eqn:ER; [discriminate|]. injection H as <-. clear ER.
  pose proof (covers_labels _ _ C) as LB. unfold covers. rewrite filter_dates. change (labels (filter_fh ts (filter_rows q X)) = flat_map (fun p => map (fun t => (p, t)) ts) (series_of (filter_rows q X))).
  set (g := fun p : path => negb (String.eqb (last p "") total_name)).
  assert (E1 : labels (filter_fh ts (filter_rows q X)) = filter (fun pt => g (fst pt)) (labels (filter_fh ts X))).
  { unfold labels, filter_fh, filter_rows. cbn [f_rows]. rewrite (filter_map_comm (fun pt => g (fst pt)) q) by reflexivity. f_equal. clear. induction (f_rows X) as [|r l IH]; [reflexivity|]. cbn [filter]. destruct (q r) eqn:Q, (existsb (Z.eqb (r_time r)) ts) eqn:T; cbn [filter]; rewrite ?Q, ?T, ?IH; reflexivity. }
  assert (E2 : series_of (filter_rows q X) = filter g (series_of X)).
  { unfold series_of. change (f_levels (filter_rows q X)) with (f_levels X). rewrite LX. unfold series_ids, filter_rows. cbn [f_rows]. unfold paths_unique. rewrite <- (unique_filter path_eqb path_eqb_eq g). f_equal. symmetry. apply filter_map_comm. reflexivity. }
  rewrite E1, LB, E2. clear. induction (series_of X) as [|p ids IH]; [reflexivity|]. cbn [flat_map]. rewrite filter_app, IH. clear IH. cbn [filter]. destruct (g p) eqn:G; cbn [flat_map].
  - f_equal. apply FrameFacts.filter_all. intros [a t] I. apply in_map_iff in I as (u & E & _). injection E as <- <-. exact G.
  - rewrite filter_none; [reflexivity|]. intros [a t] I. apply in_map_iff in I as (u & E & _). injection E as <- <-. exact G.
Qed.

Lemma predict_hierarchical c ob (f : fitted (P := P)) y2 X fh cutoff ts m : predict_model c ob f y2 X fh = Ok m -> c_hier c = true -> max_time (map snd (p_index (ft_prepared f))) = Ok cutoff -> to_absolute cutoff fh = ts -> o_transformer ob = None ->
  exists Xb Xe td data, loc_bottom_series (let none := aggregate keep (empty_frame (f_levels y2) (map fst (reindex_time_series y2 ts))) in match X with None => none | Some X => if no_columns X then none else X end) = Ok Xb /\
    (if p_has_exogenous (ft_prepared f) then exists ex ex', p_expander (ft_prepared f) = Some ex /\ expand_transform 0%R (fun _ => false) ex Xb = Ok (Xe, ex') else Xe = Xb) /\
    trend_transform ns_of (o_trend ob) Xe ts = Ok td /\ transform_effects (p_fitted (ft_prepared f)) Xe ts = Ok data /\
    m = model_call c (ft_scale f) (ft_prepared f) (o_trend ob) td None (Some data).
Proof.
  intros H Hc HM HT OT. unfold Forecaster.predict_model in H. rewrite Hc in H. destruct (hierarchical_predict_model _ _ _ _ _ _ _ _ _) as [[m' ex0]|] eqn:E; [|discriminate]. cbn [bind fst] in H. injection H as ->.
  unfold hierarchical_predict_model in E. rewrite HM in E. cbn [bind] in E. cbv zeta in E. rewrite HT in E. cbv zeta.
  destruct (loc_bottom_series _) as [Xb|]; [|discriminate]. cbn [bind] in E. exists Xb. destruct (p_has_exogenous (ft_prepared f)).
  - destruct (forallb _ _); [|discriminate]. unfold run_transform in E. rewrite OT in E. cbn [bind] in E. destruct (p_expander (ft_prepared f)) as [ex|]; [|discriminate]. cbn [attr bind] in E.
    destruct (expand_transform _ _ _ _) as [[Xe ex']|] eqn:EX; [|discriminate]. cbn [bind] in E. destruct (trend_transform _ _ _ _) as [td|] eqn:TT; [|discriminate]. cbn [bind] in E.
    destruct (transform_effects _ _ _) as [data|] eqn:TE; [|discriminate]. cbn [bind] in E. injection E as <- <-. exists Xe, td, data. repeat split; auto. eauto.
  - cbn [bind] in E. destruct (trend_transform _ _ _ _) as [td|] eqn:TT; [|discriminate]. cbn [bind] in E.
    destruct (transform_effects _ _ _) as [data|] eqn:TE; [|discriminate]. cbn [bind] in E. injection E as <- <-. exists Xb, td, data. auto.
Qed.

Section Hierarchical.
Variables (c : config) (ob : objects (TS := TS)) (y : frame R) (X0 : option (frame R)) (ob' : objects (TS := TS)) (f : fitted (P := P)).
Hypotheses (HF : fit_forecaster c ob y X0 = (ob', Ok f)) (Hc : c_hier c = true) (L : f_levels y <> 0) (W : frame_wf y) (NT : forall r, In r (f_rows y) -> ~ In "__total" (r_path r))
  (TT : scalar_piecewise (o_trend ob')) (OT : o_transformer ob = None) (LX : forall Z, X0 = Some Z -> f_levels Z <> 0).
Variables (y2 : frame R) (cutoff : Z) (fh1 fh2 : horizon).
Hypotheses (HC : max_time (map snd (p_index (ft_prepared f))) = Ok cutoff) (H1 : to_absolute cutoff fh1 = ts1) (H2 : to_absolute cutoff fh2 = ts2).

Lemma still_none : o_transformer ob' = None.
Proof.
  pose proof HF as H. apply fit_forecaster_inv in H. destruct H as (s & ys & p & m & post & _ & _ & H & _ & _). unfold fit_data in H. rewrite Hc in H. apply hierarchical_fit_inv in H.
  destruct H as (yb & tens & XB & X1 & X3 & ob1 & t1 & t & td0 & data0 & H). destruct H as (_ & _ & _ & HQ & _ & _ & _ & _ & -> & _). cbn [o_transformer]. apply run_fit_transform_inv in HQ as [_ HQ]. rewrite OT in HQ. destruct HQ as [-> _]. exact OT.
Qed.

Lemma c102_hierarchical X : no_columns X = false -> covers X ts1 -> covers X ts2 -> frame_wf X ->
  forall e m1 m2 o1 tr1 o2 tr2, predict_model c ob' f y2 (Some X) fh1 = Ok m1 -> predict_model c ob' f y2 (Some X) fh2 = Ok m2 ->
  run e [] m1 = Ok (o1, tr1) -> run e [] m2 = Ok (o2, tr2) -> same_overlap (List.length (series_ids y)) ts1 ts2 tr1 tr2.
Proof.
  intros NC C1 C2 WX e m1 m2 o1 tr1 o2 tr2 P1 P2. apply related_runs. pose proof still_none as OT'. pose proof (hierarchical_supports _ _ _ _ _ _ HF Hc L (panel_levels _ _ _ L OT LX (discrete c))) as SM.
  destruct (predict_hierarchical _ _ _ _ _ _ _ _ _ P1 Hc HC H1 OT') as (Xa & Ea & td1 & d1 & B1 & E1 & T1 & D1 & ->). destruct (predict_hierarchical _ _ _ _ _ _ _ _ _ P2 Hc HC H2 OT') as (Xb & Eb & td2 & d2 & B2 & E2 & T2 & D2 & ->).
  cbv zeta in B1, B2. rewrite NC in B1, B2. rewrite B1 in B2. injection B2 as <-.
  pose proof (AlignForecaster.loc_bottom_wf _ _ WX B1) as WB. pose proof (covers_bottom _ _ _ WX N1 C1 B1) as CB1. pose proof (covers_bottom _ _ _ WX N2 C2 B1) as CB2.
  assert (EE : Ea = Eb /\ frame_wf Ea /\ covers Ea ts1 /\ covers Ea ts2).
  { destruct (p_has_exogenous (ft_prepared f)).
    - destruct E1 as (ex & ex' & E & E1). destruct E2 as (ex2 & ex2' & E' & E2). rewrite E in E'. injection E' as <-. rewrite E1 in E2. injection E2 as <- _. split; [reflexivity|].
      split; [exact (AlignForecaster.expand_transform_wf _ _ _ _ _ _ WB E1)|]. apply expand_transform_labels in E1 as [EL EV]. split; apply (covers_same Xa); auto.
    - subst. auto. }
  destruct EE as (<- & WE & CE1 & CE2). apply (hierarchical_core c ob y X0 ob' f e Ea); auto.
Qed.

Lemma c102_hierarchical_none X : match X with None => True | Some X => no_columns X = true end -> f_levels y2 <> 0 -> f_rows y2 <> [] -> frame_wf y2 -> (forall r, In r (f_rows y2) -> ~ In "__total" (r_path r)) ->
  forall e m1 m2 o1 tr1 o2 tr2, predict_model c ob' f y2 X fh1 = Ok m1 -> predict_model c ob' f y2 X fh2 = Ok m2 ->
  run e [] m1 = Ok (o1, tr1) -> run e [] m2 = Ok (o2, tr2) -> same_overlap (List.length (series_ids y)) ts1 ts2 tr1 tr2.
Proof.
  intros NX L2 R2 W2 NT2 e m1 m2 o1 tr1 o2 tr2 P1 P2. apply related_runs. pose proof still_none as OT'. pose proof (hierarchical_supports _ _ _ _ _ _ HF Hc L (panel_levels _ _ _ L OT LX (discrete c))) as SM.
  destruct (predict_hierarchical _ _ _ _ _ _ _ _ _ P1 Hc HC H1 OT') as (Xa & Ea & td1 & d1 & B1 & E1 & T1 & D1 & ->). destruct (predict_hierarchical _ _ _ _ _ _ _ _ _ P2 Hc HC H2 OT') as (Xb & Eb & td2 & d2 & B2 & E2 & T2 & D2 & ->).
  set (ids := product (index_levels y2)) in *. set (sids := key_sort pkey ids).
  assert (NI : NoDup ids) by (apply product_NoDup, index_levels_NoDup). assert (NS : NoDup sids) by (eapply Permutation_NoDup; [apply key_sort_perm|exact NI]).
  assert (PL : forall p, In p ids -> List.length p = f_levels y2).
  { intros p Hp. apply product_In in Hp. apply Forall2_len in Hp. rewrite Hp. unfold index_levels. now rewrite map_length, seq_length. }
  assert (PN : forall p, In p ids -> ~ In "__total" p).
  { intros p Hp I. apply product_In in Hp. apply ForecasterFacts.Forall2_In_both in Hp as [Hp _]. destruct (Hp _ I) as (l & Hl & Il). unfold index_levels in Hl. apply in_map_iff in Hl as (i & <- & Hi). apply in_seq in Hi.
    apply (proj1 (str_sort_In _ _)) in Il. apply (proj1 (strs_unique_In _ _)) in Il. apply in_map_iff in Il as (r & Er & Hr). apply (NT2 r Hr). rewrite <- Er. apply nth_In. destruct (W2 r Hr) as [_ ->]. lia. }
  assert (B : forall ts Z, ts <> [] -> in_order ts -> loc_bottom_series (let none := aggregate keep (empty_frame (f_levels y2) (map fst (reindex_time_series y2 ts))) in match X with None => none | Some X => if no_columns X then none else X end) = Ok Z ->
    Z = empty_frame (f_levels y2) (cells sids ts)).
  { intros ts Z NE O HB. cbv zeta in HB.
    assert (EX : match X with None => aggregate keep (empty_frame (f_levels y2) (map fst (reindex_time_series y2 ts))) | Some X => if no_columns X then aggregate keep (empty_frame (f_levels y2) (map fst (reindex_time_series y2 ts))) else X end = aggregate keep (empty_frame (f_levels y2) (map fst (reindex_time_series y2 ts)))).
    { destruct X as [X|]; [|reflexivity]. now rewrite NX. }
    rewrite EX in HB. clear EX. assert (ER : map fst (reindex_time_series y2 ts) = cells ids ts).
    { unfold reindex_time_series. rewrite map_map. cbn [fst]. destruct (f_levels y2) eqn:EL; [congruence|]. fold ids. rewrite <- (map_id (cells ids ts)). unfold cells. apply map_ext. now intros []. }
    rewrite ER in HB. rewrite bottom_of_aggregate_all in HB.
    - rewrite sort_cells in HB by assumption. now injection HB as <-.
    - apply cells_wf. exact PL.
    - exact L2.
    - destruct ts as [|t ts]; [congruence|]. unfold empty_frame, cells. cbn [f_rows]. destruct (f_rows y2) as [|r l] eqn:ERR; [congruence|].
      assert (I : In (r_path r) ids) by (apply (series_in_product _ W2); unfold series_ids; rewrite paths_unique_In, ERR; simpl; auto). clear -I. destruct ids; [contradiction|]. discriminate.
    - intros r Hr. unfold empty_frame in Hr. cbn [f_rows] in Hr. apply in_map_iff in Hr as ([p t] & <- & Hr). cbn [fst snd r_path]. unfold cells in Hr. apply in_flat_map in Hr as (q & Hq & Hr). apply in_map_iff in Hr as (u & E & _). injection E as <- <-. now apply PN. }
  apply B in B1; auto. apply B in B2; auto. clear B. subst Xa Xb.
  set (M := both ts1 ts2). assert (OM : in_order M) by now apply both_order. assert (I1 : incl ts1 M) by (intros t Ht; apply both_In; now left). assert (I2 : incl ts2 M) by (intros t Ht; apply both_In; now right).
  assert (NM : M <> []) by (destruct ts1 as [|t l]; [congruence|]; intros E; specialize (I1 t (or_introl eq_refl)); rewrite E in I1; contradiction).
  set (U := empty_frame (f_levels y2) (cells sids M)). assert (WU : frame_wf U) by (apply cells_wf; intros p Hp; apply PL; now apply key_sort_In in Hp).
  assert (CU1 : covers U ts1) by (apply cells_cover; auto; congruence). assert (CU2 : covers U ts2) by (apply cells_cover; auto; congruence).
  rewrite <- (empty_cells _ sids ts1 M) in E1 by assumption. rewrite <- (empty_cells _ sids ts2 M) in E2 by assumption. fold U in E1, E2.
  assert (EE : exists Z, Ea = filter_fh ts1 Z /\ Eb = filter_fh ts2 Z /\ frame_wf Z /\ covers Z ts1 /\ covers Z ts2).
  { destruct (p_has_exogenous (ft_prepared f)).
    - destruct E1 as (ex & ex' & E & E1). destruct E2 as (ex2 & ex2' & E' & E2). rewrite E in E'. injection E' as <-.
      apply expand_full in E1 as (Z1 & F1 & -> & EL & EV); auto. apply expand_full in E2 as (Z2 & F2 & -> & _ & _); auto. rewrite F1 in F2. injection F2 as <- _. exists Z1. do 2 (split; [reflexivity|]).
      split; [exact (AlignForecaster.expand_transform_wf _ _ _ _ _ _ WU F1)|]. split; apply (covers_same U); auto.
    - subst. exists U. auto. }
  destruct EE as (Z & -> & -> & WZ & CZ1 & CZ2). rewrite <- trend_transform_filter in T1, T2. rewrite <- transform_effects_filter in D1, D2.
  apply (hierarchical_core c ob y X0 ob' f e Z); auto.
Qed.
End Hierarchical.
End Forecaster.
