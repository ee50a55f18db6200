(** Valid inputs can be fitted: the whole fit of a single series. *)
From Coq Require Import Reals Lra String Bool ZArith List Sorted Permutation Lia.
From Verif.Model Require Import Base Num XFloat Regex Frame Arr Expand Aggregate Scale Prog Likelihood Effect Trend TrendProg Engine Predict Forecaster.
From Verif.Spec Require Import FrameSpec ScaleSpec TrendSpec ProgSpec EffectSpec ForecasterSpec AlignSpec SiteSpec LineSpec TotalSpec.
From Verif.Facts Require Import BaseFacts NumFacts OrderFacts FrameFacts FrameProps ArrFacts ProgFacts MeanFacts LikelihoodFacts ScaleFacts ExpandFacts EffectFacts EffectFourier EffectPredict
  TimeFacts TrendFacts AlignFacts PredictFacts ForecasterFacts ForecasterInv ForecasterProps ForecasterTransformer CompleteFacts ShapeFacts SiteFacts TotalFacts TotalTrend LineFacts.
Import ListNotations.
Local Open Scope string_scope.

(** * Targets divided by a number *)
Definition divided (k : R) (y : frame R) : frame R := map_vals (map (fun v => v / k)%R) y.

Lemma divided_rows k y : f_rows (divided k y) = map (fun r => mkRow (r_path r) (r_time r) (map (fun v => v / k)%R (r_vals r))) (f_rows y).
Proof. reflexivity. Qed.
Lemma divided_times k y : map r_time (f_rows (divided k y)) = map r_time (f_rows y).
Proof. rewrite divided_rows, map_map. reflexivity. Qed.
Lemma divided_single k y : single y -> single (divided k y).
Proof.
  intros [W L]. split; [|exact L]. intros r Hr. rewrite divided_rows in Hr. apply in_map_iff in Hr as (r0 & <- & Hr). cbn. rewrite map_length. now apply W.
Qed.

Lemma Rmean_div k l : Rmean (map (fun v => v / k)%R l) = (Rmean l / k)%R.
Proof.
  assert (E : map (fun v => v / k)%R l = map (fun v => / k * v)%R l) by (apply map_ext; intros; unfold Rdiv; ring). rewrite E, Rmean_scale. unfold Rdiv. ring.
Qed.
Lemma ols_slope_div k xs ys : ols_slope xs (map (fun v => v / k)%R ys) = (ols_slope xs ys / k)%R.
Proof.
  unfold ols_slope. rewrite Rmean_div. set (mx := Rmean xs). set (my := Rmean ys). set (d := Rsum (map _ xs)).
  assert (E : forall xs ys, Rsum (map (fun xy : R * R => (fst xy - mx) * (snd xy - my / k))%R (combine xs (map (fun v => v / k)%R ys))) =
     (Rsum (map (fun xy : R * R => (fst xy - mx) * (snd xy - my))%R (combine xs ys)) / k)%R).
  { induction xs0 as [|x xs0 IH]; intros [|y0 ys0]; simpl; try (unfold Rdiv; ring). rewrite IH. unfold Rdiv. ring. }
  rewrite E. unfold Rdiv. ring.
Qed.
Lemma ols_line_div k xs ys : ols_line xs (map (fun v => v / k)%R ys) = map (fun v => v / k)%R (ols_line xs ys).
Proof. unfold ols_line. rewrite ols_slope_div, Rmean_div, map_map. apply map_ext. intros x. unfold Rdiv. ring. Qed.

Lemma rows_of_single y : single y -> rows_of y [] = f_rows y.
Proof.
  intros S0. unfold rows_of. assert (P : forall r, In r (f_rows y) -> r_path r = []) by (intros; now apply (single_paths y)).
  induction (f_rows y) as [|r l IH]; [reflexivity|]. cbn [filter]. rewrite (P r) by (simpl; auto). simpl. f_equal. apply IH. intros; apply P; simpl; auto.
Qed.

Definition target_line (y : frame R) : list R :=
  ols_line (map (fun r => IZR (r_time r)) (f_rows y)) (map (fun r => hd 0%R (r_vals r)) (f_rows y)).
Lemma target_line_positive y : single y -> 2 <= List.length (f_rows y) -> NoDup (map r_time (f_rows y)) -> positive_line y ->
  forall v, In v (target_line y) -> (0 < v)%R.
Proof.
  intros S0 L2 ND (a & b & LS & P) v I.
  assert (EP : series_points y [] = map (fun r => (IZR (r_time r), hd 0%R (r_vals r))) (f_rows y)) by (unfold series_points; fold (rows_of y []); now rewrite rows_of_single).
  assert (Dist : exists q q', In q (series_points y []) /\ In q' (series_points y []) /\ fst q <> fst q').
  { rewrite EP. destruct (f_rows y) as [|r [|r' l]]; cbn in L2; try lia. eexists _, _. split; [now left|]. split; [right; now left|].
    cbn. intros E. apply eq_IZR in E. cbn in ND. inversion ND; subst. apply H1. cbn. auto. }
  destruct Dist as (q & q' & Iq & Iq' & Dq). destruct (line_unique _ a b q q' Iq Iq' Dq LS) as [EA EB].
  unfold target_line, ols_line in I. apply in_map_iff in I as (x & <- & I). apply in_map_iff in I as (r & <- & I). specialize (P r I).
  assert (E1 : map fst (series_points y []) = map (fun r => IZR (r_time r)) (f_rows y)) by (rewrite EP, map_map; reflexivity).
  assert (E2 : map snd (series_points y []) = map (fun r => hd 0%R (r_vals r)) (f_rows y)) by (rewrite EP, map_map; reflexivity).
  unfold level, slope in EA, EB. rewrite E1, E2 in *. rewrite EA, EB in P. lra.
Qed.

Lemma detrended_line k y : single y -> f_rows y <> [] -> (0 < k)%R -> (forall v, In v (target_line y) -> (0 < v)%R) ->
  (forall r, In r (f_rows y) -> List.length (r_vals r) = 1) ->
  forall r, In r (f_rows (detrend_frame (divided k y))) -> (0 < val0 r)%R.
Proof.
  intros S0 N K HL H1 r Hr. assert (N' : f_rows (divided k y) <> []) by (rewrite divided_rows; destruct (f_rows y); [congruence|discriminate]).
  unfold detrend_frame in Hr. cbn [f_rows] in Hr. unfold iterate_all_series in Hr. rewrite (single_series_ids _ (divided_single k y S0) N') in Hr. cbn [map flat_map snd] in Hr.
  rewrite app_nil_r, (rows_of_single _ (divided_single k y S0)) in Hr. apply in_map_iff in Hr as ([r0 v] & <- & Hr). apply in_combine_r in Hr. cbn.
  assert (E1 : map (fun r => IZR (r_time r)) (f_rows (divided k y)) = map (fun r => IZR (r_time r)) (f_rows y)) by (rewrite divided_rows, map_map; reflexivity).
  assert (E2 : map val0 (f_rows (divided k y)) = map (fun v => v / k)%R (map (fun r => hd 0%R (r_vals r)) (f_rows y))).
  { rewrite divided_rows, !map_map. apply map_ext_in. intros r1 Hr1. unfold val0. cbn [r_vals]. specialize (H1 r1 Hr1). destruct (r_vals r1); [discriminate|reflexivity]. }
  rewrite E1, E2, ols_line_div in Hr. apply in_map_iff in Hr as (v0 & <- & Hv). apply Rdiv_lt_0_compat; [|exact K]. apply HL. exact Hv.
Qed.

(** * The scale *)
Lemma scale_total ns_of c y X : well_posed ns_of c y X -> exists s, set_y_scales (c_scale c) y = Ok s /\ (0 < scale_number s)%R /\
  exists ys yt, scale_y (discrete c) s y = Ok ys /\ (if discrete c then divide_target s ys else Ok ys) = Ok yt /\ yt = divided (scale_number s) y /\
    (ys = y \/ ys = divided (scale_number s) y) /\ (if discrete c then True else exists k, s = SFloat k).
Proof.
  intros W. pose proof (wp_scale _ _ _ _ W) as HS. destruct (wp_target _ _ _ _ W) as (Wy & L & C1 & L2).
  assert (G : exists s, set_y_scales (c_scale c) y = Ok s /\ (0 < scale_number s)%R /\ ((exists k, s = SFloat k) \/ discrete c = true /\ exists z, s = SInt z)).
  { unfold set_y_scales. destruct (c_scale c) as [[k|z|tab|tab]|]; try contradiction.
    - exists (SFloat k). cbn [bind]. rewrite (proj2 (Reqb_false k 0)) by lra. split; [reflexivity|]. split; [exact HS|]. eauto.
    - destruct HS as [D P]. exists (SInt z). cbn [bind]. destruct (Z.eqb_spec z 0); [lia|]. split; [reflexivity|]. split; [cbn; now apply IZR_lt|]. eauto.
    - rewrite L. destruct (abs_max_nonempty (flat_map r_vals (f_rows y))) as (m & Em).
      { destruct (f_rows y) as [|r rows] eqn:E; [simpl in L2; lia|]. simpl. pose proof (proj1 (Wy r ltac:(rewrite E; simpl; auto))) as Q. rewrite C1 in Q. destruct (r_vals r); discriminate. }
      rewrite Em. cbn [bind]. apply abs_max_spec in Em as [Hm Hle]. destruct Hm as (v0 & Hv0 & Em). assert (M0 : (0 <= m)%R) by (rewrite <- Em; apply Rabs_pos).
      destruct (Reqb m 0) eqn:B.
      + apply Reqb_true in B. exists (SInt 1). split; [reflexivity|]. split; [cbn; lra|]. right. destruct HS as [D|(r & v & Hr & Hv & NZ)]; [eauto|]. exfalso.
        assert (Q : (Rabs v <= m)%R) by (apply Hle; apply in_flat_map; eauto). pose proof (Rabs_pos_lt v NZ). lra.
      + apply Reqb_false in B. exists (SFloat m). split; [reflexivity|]. split; [cbn; lra|]. eauto. }
  destruct G as (s & Es & P & K). exists s. split; [exact Es|]. split; [exact P|]. unfold scale_y, apply_scale. destruct (discrete c).
  - exists y, (divided (scale_number s) y). split; [reflexivity|]. split; [|split; [reflexivity|split; [auto|exact I]]].
    destruct K as [(k & ->)|(_ & z & ->)]; reflexivity.
  - destruct K as [(k & ->)|(D & _)]; [|discriminate]. exists (divided k y), (divided k y). repeat split; auto. eauto.
Qed.

(** * The exogenous data of the fit *)
Lemma loc_index_total (X : frame R) index : (forall pt, In pt index -> In pt (labels X)) -> exists X', loc_index X index = Ok X'.
Proof.
  intros H. unfold loc_index. match goal with |- exists X', bind (mapM ?f index) _ = _ => destruct (mapM_total f (fun _ _ => True) index) as (rs & E & _) end.
  - intros pt Hpt. specialize (H pt Hpt). unfold labels in H. apply in_map_iff in H as (r & Er & Hr).
    match goal with |- exists b, match ?l with [] => _ | _ :: _ => _ end = _ /\ _ => assert (In r l) as Hin end.
    { apply filter_In. split; [exact Hr|]. subst pt. cbn [fst snd]. rewrite path_eqb_refl, Z.eqb_refl. reflexivity. }
    destruct (filter _ _); [contradiction|]. eauto.
  - rewrite E. cbn [bind]. eauto.
Qed.

Definition fit_frame (y : frame R) (X : option (frame R)) : frame R := match X with None => empty_frame (f_levels y) (index_of y) | Some X => X end.

Lemma single_index y : single y -> index_of y = map (fun t => ([], t)) (map r_time (f_rows y)).
Proof.
  intros S0. unfold index_of. rewrite map_map. apply map_ext_in. intros r Hr. now rewrite (single_paths y r S0 Hr).
Qed.

Lemma single_labels X : single X -> labels X = map (fun t => ([], t)) (map r_time (f_rows X)).
Proof. exact (single_index X). Qed.

Lemma empty_frame_single index : (forall pt, In pt index -> fst pt = []) -> single (empty_frame 0 index).
Proof.
  intros H. split; [|reflexivity]. intros r Hr. unfold empty_frame in Hr. cbn [f_rows] in Hr. apply in_map_iff in Hr as (pt & <- & Hp). pose proof (H pt Hp) as Q. destruct pt. cbn in *. subst. auto.
Qed.

Lemma fit_frame_covers y X : single y -> NoDup (map r_time (f_rows y)) -> match X with None => True | Some X => covers X (map r_time (f_rows y)) end ->
  single (fit_frame y X) /\ f_cols (fit_frame y X) = exog_cols X /\ NoDup (labels (fit_frame y X)) /\ forall pt, In pt (index_of y) -> In pt (labels (fit_frame y X)).
Proof.
  intros S0 ND HX. destruct X as [X|]; cbn [fit_frame exog_cols].
  - destruct HX as (W & L & NX & C). assert (SX : single X) by (split; assumption). split; [exact SX|]. split; [reflexivity|]. rewrite (single_labels X SX). split.
    + apply FinFun.Injective_map_NoDup; [|exact NX]. intros a b [= <-]. reflexivity.
    + intros pt Hp. rewrite (single_index y S0) in Hp. apply in_map_iff in Hp as (t & <- & Ht). apply in_map. now apply C.
  - rewrite (proj2 S0). split; [|split; [reflexivity|]].
    + apply empty_frame_single. intros pt Hp. rewrite (single_index y S0) in Hp. now apply in_map_iff in Hp as (t & <- & _).
    + assert (E : labels (empty_frame 0 (index_of y)) = index_of y).
      { unfold labels, empty_frame. cbn [f_rows]. rewrite map_map. rewrite <- (map_id (index_of y)) at 2. apply map_ext. now intros [p t]. }
      rewrite E. split; [|auto]. rewrite (single_index y S0). apply FinFun.Injective_map_NoDup; [|exact ND]. intros a b [= <-]. reflexivity.
Qed.

Lemma located_frame (X X' : frame R) (times : list Z) index : single X -> NoDup (labels X) -> index = map (fun t => ([], t)) times -> loc_index X index = Ok X' ->
  single X' /\ f_cols X' = f_cols X /\ List.length (f_rows X') = List.length times /\ (forall r, In r (f_rows X') -> In r (f_rows X) /\ In (r_time r) times).
Proof.
  intros [W L] N Ei H. pose proof (loc_index_size _ _ _ N H) as Z1. destruct (loc_index_inv _ _ _ H) as (E1 & E2 & _ & E4).
  assert (Q : forall r, In r (f_rows X') -> In r (f_rows X) /\ In (r_time r) times).
  { intros r Hr. apply E4 in Hr as [Hr Hi]. split; [exact Hr|]. rewrite Ei in Hi. apply in_map_iff in Hi as (t & [= _ <-] & Ht). exact Ht. }
  split; [|split; [exact E2|split; [rewrite Z1, Ei; apply map_length|exact Q]]].
  split; [|congruence]. intros r Hr. rewrite E1, E2. apply W. now apply Q.
Qed.

(** * The model function of a fitted forecaster, on the data of a fit or of a forecast *)
Lemma nodup_increasing l : StronglySorted Z.lt l -> NoDup l.
Proof.
  induction 1 as [|a l H IH F]; constructor; [|exact IH]. intros I. rewrite Forall_forall in F. specialize (F a I). lia.
Qed.

Lemma entry_ready_more cols cols' f : (forall c, In c cols -> In c cols') -> entry_ready cols f -> entry_ready cols' f.
Proof. intros I [H1 H2]. split; [auto|exact H2]. Qed.

(** what a fit establishes about the fitted effects *)
Definition effects_ready (c : config) (cols : list string) (fitted : list fitted_effect) : Prop :=
  Forall (fun f => entry_ready cols f /\
    ((exists l, In l (effects_of c) /\ fe_name f = l_name l /\ has_hill (fe_effect f) = has_hill (l_effect l) /\ forall x, In x (fe_cols f) -> matched (l_regex l) x) \/
     (fe_name f = default_name /\ has_hill (fe_effect f) = has_hill (default_of (c_default c)) /\
      forall x, In x (fe_cols f) -> forall l, In l (effects_of c) -> ~ matched (l_regex l) x))) fitted.

Lemma located_hill c (X X' : frame R) : (forall r, In r (f_rows X') -> In r (f_rows X)) -> f_cols X' = f_cols X -> hill_data c (Some X) -> hill_data c (Some X').
Proof.
  intros I E H. assert (G : forall x, non_negative X x -> non_negative X' x) by (intros x N r v Hr; rewrite E; apply N; auto).
  destruct H as [H1 H2]. split; [eauto|]. intros Q x Hx. apply G. now apply H2.
Qed.

Lemma ready_model ns_of c s p t cols0 cols X fh : c_hier c = false -> p_has_exogenous p = true ->
  In (c_likelihood c) ["normal"; "gamma"; "negbinomial"] -> clean_config c ->
  trend_ready cols0 t -> effects_ready c cols (p_fitted p) -> non_skipped (p_fitted p) = Ok (p_effects p) ->
  single X -> (forall x, In x cols0 -> In x (f_cols X)) -> (forall x, In x cols -> In x (f_cols X)) -> hill_data c (Some X) ->
  List.length (f_rows (filter_fh fh X)) = List.length fh ->
  exists td data, trend_transform ns_of t X fh = Ok td /\ transform_effects (p_fitted p) X fh = Ok data /\
    forall env y, hill_values_positive c env -> exists o, yields env (model_call c s p t td y (Some data)) o.
Proof.
  intros HC HX HL CL TR ER NS S0 I0 I1 HD LF. destruct (trend_total ns_of cols0 t X fh TR S0 I0 LF) as (td & Et & Yt).
  assert (ER' : Forall (entry_ready (f_cols X)) (p_fitted p)).
  { unfold effects_ready in ER. rewrite Forall_forall in *. intros f Hf. apply (entry_ready_more cols); [exact I1|]. now apply ER. }
  destruct (effects_total (p_fitted p) X fh S0 ER') as (effs & data & Ed & En & F & ND). rewrite NS in En. injection En as En.
  exists td, data. split; [exact Et|]. split; [exact Ed|]. intros env y [HV1 HV2].
  apply (model_total c s p t td y data env (List.length fh) HC HX).
  - simpl in HL. destruct HL as [HL|[HL|[HL|[]]]]; auto.
  - apply Yt.
  - rewrite En. intros I. apply in_map_iff in I as ([name e] & E & I). cbn in E. subst name. apply Forall2_In_both in F as [F _]. destruct (F _ I) as ([n d] & _ & _ & f & Hf & Ef & _).
    cbn in Ef. unfold effects_ready in ER. rewrite Forall_forall in ER. destruct (ER f Hf) as [_ [(l & Hl & El & _)|[El _]]].
    + destruct CL as [CL _]. destruct (CL l Hl) as [[_ Q] _]. apply Q. rewrite <- El, Ef. simpl. auto.
    + rewrite Ef in El. discriminate.
  - intros name e I. rewrite En in I. assert (ND' : NoDup (map fst data)).
    { replace (map fst data) with (map fst effs); [exact ND|]. clear -F. induction F as [|a b l l' H F IH]; [reflexivity|]. simpl. rewrite IH. f_equal. apply H. }
    apply Forall2_In_both in F as [F _]. destruct (F _ I) as ([n d] & Hd & En2 & f & Hf & Ef & Ee & EV). cbn in En2, Ef, Ee, EV. subst n e. exists d. split.
    + apply dict_get_iff; assumption.
    + rewrite <- LF. apply EV. intros HH. unfold effects_ready in ER. rewrite Forall_forall in ER. destruct HD as [HD1 HD2]. destruct (ER f Hf) as [_ [(l & Hl & El & Eh & M)|(El & Eh & M)]].
      * rewrite Eh in HH. split; [intros x Hx; apply (HD1 l); auto|]. unfold own_env. rewrite <- Ef, El. now apply HV1.
      * rewrite Eh in HH. split; [intros x Hx; apply HD2; auto|]. unfold own_env. rewrite <- Ef, El. now apply HV2.
Qed.

(** * The fit *)
Section Fit.
Variable ns_of : Z -> Z.
Variable order : list string -> list string.
Variable keep : path -> bool.
Context {TS : Type}.
Variable tr_fit_transform : TS -> frame R -> TS * res (frame R).
Variable tr_transform : TS -> frame R -> res (frame R).

(** what remains of a fit: the trend and the effects can be evaluated on data with the training columns *)
Definition fitted_ready (c : config) (cols : list string) (t : trend) (p : prepared) : Prop :=
  trend_ready cols t /\ effects_ready c cols (p_fitted p) /\ non_skipped (p_fitted p) = Ok (p_effects p) /\ p_has_exogenous p = true.

Lemma fit_data_total c (ob : objects (TS := TS)) s y ys yt X : well_posed ns_of c y X -> clean_config c -> hill_data c X -> o_transformer ob = None ->
  set_y_scales (c_scale c) y = Ok s -> (0 < scale_number s)%R ->
  (ys = y \/ ys = divided (scale_number s) y) -> (if discrete c then divide_target s ys else Ok ys) = Ok yt -> yt = divided (scale_number s) y ->
  exists ob' p m, fit_data ns_of order keep tr_fit_transform c ob s ys X = (ob', Ok (p, m)) /\ o_transformer ob' = None /\
    fitted_ready c (exog_cols X) (o_trend ob') p /\ p_index p = index_of y /\ 
    forall env, hill_values_positive c env -> exists o tr, run env [] m = Ok (o, tr).
Proof.
  intros W CL HD HT Es Ps Eys Eyt Eyt2. destruct (wp_target _ _ _ _ W) as (Wy & L & C1 & L2). assert (Sy : single y) by (split; assumption).
  pose proof (nodup_increasing _ (wp_dates _ _ _ _ W)) as ND. pose proof (wp_exog _ _ _ _ W) as WX.
  assert (Sys : single ys) by (destruct Eys as [->| ->]; [exact Sy|apply divided_single; exact Sy]).
  assert (Tys : map r_time (f_rows ys) = map r_time (f_rows y)) by (destruct Eys as [->| ->]; [reflexivity|apply divided_times]).
  assert (Iys : index_of ys = index_of y) by (rewrite (single_index ys Sys), (single_index y Sy); congruence).
  assert (Nys : f_rows y <> []) by (destruct (f_rows y); [simpl in L2; lia|discriminate]).
  assert (Lys : f_levels ys = 0) by apply Sys.
  assert (Tids : time_ids ys = map r_time (f_rows y)) by (unfold time_ids; rewrite Tys; now apply times_unique_id).
  destruct (wp_trend _ _ _ _ W) as (name & Et & HN).
  destruct (trend_fit_total ns_of order c name X (divided (scale_number s) y)) as (t & t' & E1 & E2 & TR).
  { now apply divided_single. } { rewrite divided_rows, map_length. exact L2. } { now rewrite divided_times. } { rewrite divided_times. apply W. }
  { apply W. } { apply W. }
  { destruct HN as [HN|[-> HN]]; [simpl in HN; intuition|]. right; right; right. split; [reflexivity|]. apply detrended_line; auto; [now apply target_line_positive|]. intros r Hr. rewrite <- C1. now apply Wy. }
  assert (CS : columns_seen X = exog_cols X).
  { destruct X as [X|]; [|reflexivity]. apply columns_seen_all. destruct WX as (_ & _ & _ & C). destruct (f_rows y) as [|r rows] eqn:Er; [congruence|]. specialize (C (r_time r) ltac:(simpl; auto)).
    destruct (f_rows X); [contradiction|discriminate]. }
  rewrite CS in TR. unfold fit_data. rewrite (wp_class _ _ _ _ W). unfold univariate_fit_data, get_trend_model. rewrite Et, E1, Eyt, Eyt2, E2.
  unfold run_fit_transform. cbn [o_transformer]. rewrite HT.
  assert (EX : match X with None => empty_frame (f_levels ys) (index_of ys) | Some X => X end = fit_frame y X) by (destruct X; [reflexivity|]; cbn [fit_frame]; rewrite Lys, L, Iys; reflexivity).
  rewrite EX. clear EX. cbn [bind]. rewrite Iys.
  destruct (fit_frame_covers y X Sy ND WX) as (SX & CX & NX & IX). destruct (loc_index_total _ _ IX) as (Xe & EL). rewrite EL. cbn [bind].
  destruct (located_frame _ _ (map r_time (f_rows y)) _ SX NX (single_index y Sy) EL) as (SXe & CXe & LXe & RXe). rewrite CX in CXe.
  rewrite Tids.
  assert (FF : filter_fh (map r_time (f_rows y)) Xe = Xe) by (apply filter_fh_all; intros r Hr; now apply RXe).
  assert (NXe : f_rows Xe <> []) by (rewrite map_length in LXe; destruct (f_rows Xe); [simpl in LXe; lia|discriminate]).
  destruct (fit_effects_total order (c_default c) (effects_of c) Xe (scale_number s) SXe NXe) as (fitted & EF & FR).
  { rewrite CXe. apply W. } { unfold leftover. rewrite CXe. apply W. }
  assert (ER : effects_ready c (exog_cols X) fitted).
  { unfold effects_ready. rewrite Forall_forall in *. intros f Hf. destruct (FR f Hf) as [F1 F2]. rewrite CXe in F1. split; [exact F1|]. destruct F2 as [F2|(F2 & F3 & F4)]; [left; exact F2|right].
    split; [exact F2|]. split; [exact F3|]. intros x Hx. apply F4. exact Hx. }
  assert (ER' : Forall (entry_ready (f_cols Xe)) fitted) by (rewrite Forall_forall in *; intros f Hf; now apply FR).
  destruct (effects_total fitted Xe (map r_time (f_rows y)) SXe ER') as (effs & data & Ed & En & _ & _).
  set (p := mkPrepared (index_of y) fitted effs (truthy (invert (no_columns (fit_frame y X)))) None false).
  assert (HX : p_has_exogenous p = true) by (cbn; destruct (no_columns _); reflexivity).
  destruct (ready_model ns_of c s p t' (exog_cols X) (exog_cols X) Xe (map r_time (f_rows y))) as (td & data' & Etd & Ed' & YM); auto.
  { apply W. } { apply W. } { intros x. now rewrite CXe. } { intros x. now rewrite CXe. }
  { destruct X as [X|]; [apply (located_hill c X Xe); [intros r Hr; now apply RXe|exact CXe|exact HD]|].
    split; intros; intros r v Hr Hv; rewrite CXe in Hv; cbn in Hv; [discriminate|discriminate]. }
  { rewrite FF, map_length. rewrite map_length in LXe. exact LXe. }
  rewrite Etd, EF. cbn [bind]. rewrite Ed, En. cbn [bind]. cbn [p_fitted p] in Ed'. rewrite Ed in Ed'. injection Ed' as <-. fold p.
  eexists _, p, _. split; [reflexivity|]. cbn [o_transformer o_trend]. split; [reflexivity|]. split; [repeat split; assumption|]. split; [reflexivity|].
  intros env HV.
  match goal with |- exists o tr, run env [] ?m = _ => assert (FD : fit_data ns_of order keep tr_fit_transform c ob s ys X = (mkObjects t' None, Ok (p, m))) end.
  { unfold fit_data. rewrite (wp_class _ _ _ _ W). unfold univariate_fit_data, get_trend_model. rewrite Et, E1, Eyt, Eyt2, E2. unfold run_fit_transform. cbn [o_transformer]. rewrite HT.
    assert (EX : match X with None => empty_frame (f_levels ys) (index_of ys) | Some X => X end = fit_frame y X) by (destruct X; [reflexivity|]; cbn [fit_frame]; rewrite Lys, L, Iys; reflexivity).
    rewrite EX. cbn [bind]. rewrite Iys, EL. cbn [bind]. rewrite Tids, Etd, EF. cbn [bind]. rewrite Ed, En. reflexivity. }
  match type of FD with _ = (_, Ok (_, ?m)) => destruct (YM env (Some (reshape_col (mkArr [] (flat_map r_vals (f_rows ys))))) HV) as (o & Y) end.
  destruct (c71_fit _ _ _ _ _ _ _ _ _ _ _ _ FD CL env o Y) as (tr & Hr & _). eauto.
Qed.
End Fit.
