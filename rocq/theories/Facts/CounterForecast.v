(** Two scenarios: the forecaster. *)
From Coq Require Import Reals Lra ZArith String Ascii Bool List Lia.
From Verif.Model Require Import Base Num XFloat Frame Arr Expand Aggregate Scale Prog Likelihood Effect Trend TrendProg Engine Predict Forecaster.
From Verif.Spec Require Import FrameSpec ScaleSpec ProgSpec PredictSpec EffectSpec ForecasterSpec AlignSpec ShapeSpec SiteSpec ComponentSpec CounterSpec.
From Verif.Facts Require Import BaseFacts NumFacts FrameFacts ArrFacts ProgFacts LikelihoodFacts EffectPredict ForecasterFacts ForecasterInv ModelProps TrendFacts CompleteFacts ShapeFacts SiteFacts ComponentFacts CounterFacts CounterFrames.
Import ListNotations.
Local Open Scope string_scope.

Definition like (Q : string -> Prop) (X X' : frame R) : Prop := agree_on Q X X' \/ X = X'.

Section Forecaster.
Variable ns_of : Z -> Z.
Variable order : list string -> list string.
Variable keep : path -> bool.
Context {TS : Type}.
Variable tr_fit_transform : TS -> frame R -> TS * res (frame R).
Variable tr_transform : TS -> frame R -> res (frame R).
Context {P : Type}.
Variable svi_run : Z -> nat -> nat -> prog arr -> res (list xr * P).
Variable nuts_run : Z -> nat -> nat -> nat -> prog arr -> res (nat -> nat -> env).
Variable latent_sites : prog arr -> list string.
Notation fit_forecaster := (fit_forecaster ns_of order keep tr_fit_transform svi_run nuts_run latent_sites).
Notation predict_model := (predict_model ns_of keep tr_transform).

Lemma predict_pair c ob (f : fitted (P := P)) y S X X' fh m m' : o_transformer ob = None ->
  (c_hier c = false -> p_has_exogenous (ft_prepared f) = true) ->
  agree_except S X X' -> rectangular X -> rectangular X' ->
  predict_model c ob f y (Some X) fh = Ok m -> predict_model c ob f y (Some X') fh = Ok m' ->
  exists Xe Xe' td td' times data data', like (fun n => ~ shows (c_hier c) S n) Xe Xe' /\
    transform_effects (p_fitted (ft_prepared f)) Xe times = Ok data /\ transform_effects (p_fitted (ft_prepared f)) Xe' times = Ok data' /\
    trend_transform ns_of (o_trend ob) Xe times = Ok td /\ trend_transform ns_of (o_trend ob) Xe' times = Ok td' /\
    m = model_call c (ft_scale f) (ft_prepared f) (o_trend ob) td None (Some data) /\
    m' = model_call c (ft_scale f) (ft_prepared f) (o_trend ob) td' None (Some data').
Proof.
  intros OT HX A W W' H H'. pose proof (agree_intro _ _ _ A W W') as AO. unfold ForecasterSpec.predict_model in H, H'. destruct (c_hier c) eqn:Hc.
  - inv_bind H. inv_bind H'. injection H as <-. injection H' as <-. unfold hierarchical_predict_model in E, E0. inv_bind E. cbn [bind] in E0.
    set (times := to_absolute x1 fh) in *. set (none := aggregate keep _) in *.
    assert (AE : match loc_bottom_series (if no_columns X then none else X), loc_bottom_series (if no_columns X' then none else X') with
       | Ok B, Ok B' => agree_on (fun n => ~ In n S) B B' \/ B = B' | Err x, Err x' => x = x' | _, _ => False end).
    { unfold no_columns. pose proof AO as (_ & C & _). rewrite <- C. destruct (f_cols X) eqn:EC; [destruct (loc_bottom_series none); auto|].
      pose proof (agree_bottom _ X X' AO) as G. destruct (loc_bottom_series X), (loc_bottom_series X'); auto. }
    destruct (loc_bottom_series (if no_columns X then none else X)) as [B|]; cbn [bind] in E; [|discriminate].
    destruct (loc_bottom_series (if no_columns X' then none else X')) as [B'|]; cbn [bind] in E0; [|discriminate].
    unfold run_transform in E, E0. rewrite OT in E, E0. cbn [bind] in E, E0.
    assert (FIN : forall Xe Xe' ex ex', like (fun n => ~ shows true S n) Xe Xe' ->
      (td <- trend_transform ns_of (o_trend ob) Xe times ;; data <- transform_effects (p_fitted (ft_prepared f)) Xe times ;;
        Ok (model_call c (ft_scale f) (ft_prepared f) (o_trend ob) td None (Some data), ex)) = Ok x ->
      (td <- trend_transform ns_of (o_trend ob) Xe' times ;; data <- transform_effects (p_fitted (ft_prepared f)) Xe' times ;;
        Ok (model_call c (ft_scale f) (ft_prepared f) (o_trend ob) td None (Some data), ex')) = Ok x0 ->
      exists Xe Xe' td td' times data data', like (fun n => ~ shows true S n) Xe Xe' /\
        transform_effects (p_fitted (ft_prepared f)) Xe times = Ok data /\ transform_effects (p_fitted (ft_prepared f)) Xe' times = Ok data' /\
        trend_transform ns_of (o_trend ob) Xe times = Ok td /\ trend_transform ns_of (o_trend ob) Xe' times = Ok td' /\
        fst x = model_call c (ft_scale f) (ft_prepared f) (o_trend ob) td None (Some data) /\
        fst x0 = model_call c (ft_scale f) (ft_prepared f) (o_trend ob) td' None (Some data')).
    { clear. intros Xe Xe' ex ex' A H H'. 
      destruct (trend_transform ns_of (o_trend ob) Xe times) as [td|] eqn:T; cbn [bind] in H; [|discriminate]. destruct (transform_effects _ Xe times) as [d|] eqn:D; cbn [bind] in H; [|discriminate].
      destruct (trend_transform ns_of (o_trend ob) Xe' times) as [td'|] eqn:T'; cbn [bind] in H'; [|discriminate]. destruct (transform_effects _ Xe' times) as [d'|] eqn:D'; cbn [bind] in H'; [|discriminate].
      injection H as <-. injection H' as <-. exists Xe, Xe', td, td', times, d, d'. cbn [fst]. auto 8. }
    assert (ET : map r_time (f_rows B) = map r_time (f_rows B')) by (destruct AE as [AE| ->]; [exact (agree_times _ _ _ AE)|reflexivity]).
    rewrite <- ET in E0. destruct (p_has_exogenous (ft_prepared f)).
    + destruct (forallb _ times); [|discriminate]. destruct (attr (p_expander (ft_prepared f))) as [ex|]; [|discriminate]. cbn [bind] in E, E0.
      assert (AX : match expand_transform 0%R (fun _ => false) ex B, expand_transform 0%R (fun _ => false) ex B' with
         | Ok (C, _), Ok (C', _) => like (fun n => ~ shows true S n) C C' | Err x, Err x' => x = x' | _, _ => False end).
      { destruct AE as [AE| ->].
        - pose proof (agree_expand S ex B B' AE) as G. destruct (expand_transform _ _ ex B) as [[? ?]|], (expand_transform _ _ ex B') as [[? ?]|]; try contradiction; [left; exact G|exact G].
        - destruct (expand_transform _ _ ex B') as [[? ?]|]; [now right|reflexivity]. }
      destruct (expand_transform _ _ ex B) as [[C e1]|]; cbn [bind] in E; [|discriminate]. destruct (expand_transform _ _ ex B') as [[C' e1']|]; cbn [bind] in E0; [|discriminate].
      exact (FIN _ _ _ _ AX E E0).
    + cbn [bind] in E, E0. refine (FIN _ _ _ _ _ E E0). destruct AE as [AE| ->]; [left|now right]. eapply agree_weaken; [exact AE|]. cbv beta. intros n N I. apply N. now left.
  - unfold univariate_predict_model in H, H'. inv_bind H. cbn [bind] in H'. unfold run_transform in H, H'. rewrite OT in H, H'. cbn [bind] in H, H'. rewrite (HX eq_refl) in H, H'.
    destruct (trend_transform ns_of (o_trend ob) X _) as [td|] eqn:T; cbn [bind] in H; [|discriminate]. destruct (transform_effects _ X _) as [d|] eqn:D; cbn [bind] in H; [|discriminate].
    destruct (trend_transform ns_of (o_trend ob) X' _) as [td'|] eqn:T'; cbn [bind] in H'; [|discriminate]. destruct (transform_effects _ X' _) as [d'|] eqn:D'; cbn [bind] in H'; [|discriminate].
    injection H as <-. injection H' as <-.
    exists X, X'. do 5 eexists. split; [left; eapply agree_weaken; [exact AO|]; cbv beta; intros n N I; apply N; now left|]. repeat (split; [eassumption|]). split; reflexivity.
Qed.

Lemma trend_not_effect c s p t td data e o tr : (c_hier c = false -> p_has_exogenous p = true) ->
  run e [] (model_call c s p t td None (Some data)) = Ok (o, tr) -> forall ef, t <> TEffect ef.
Proof.
  intros HX R ef ->. apply (model_call_shape _ _ _ _ _ _ _ _ _ _ _ HX) in R as M. destruct M as (k & M). rewrite M in R.
  apply run_eval in R as (l & E & _). apply PosteriorFacts.eval_split in E as (m & l1 & l2 & E & _ & _). unfold compute_mean in E.
  apply PosteriorFacts.eval_split in E as (v & l3 & l4 & E & _ & _). assert (Y : yields e (trend_predict (TEffect ef) td) v) by (apply eval_yields; eauto).
  destruct td as [mm|a|d]; cbn [trend_predict] in Y; try (inversion Y; fail). exact (effect_trend_fails _ _ _ _ Y).
Qed.

Section Fitted.
Variables (c : config) (ob : objects (TS := TS)) (y : frame R) (X : option (frame R)) (ob' : objects (TS := TS)) (f : fitted (P := P)).
Hypothesis HF : fit_forecaster c ob y X = (ob', Ok f).
Hypothesis HC : clean_config c.
Hypothesis OT : o_transformer ob' = None.

(** the prepared data of both scenarios *)
Lemma scenario_pair y2 S X1 X2 fh m1 m2 e o1 tr1 o2 tr2 :
  agree_except S X1 X2 -> rectangular X1 -> rectangular X2 ->
  predict_model c ob' f y2 (Some X1) fh = Ok m1 -> predict_model c ob' f y2 (Some X2) fh = Ok m2 ->
  run e [] m1 = Ok (o1, tr1) -> run e [] m2 = Ok (o2, tr2) ->
  exists Xe times td d1 d2, trend_transform ns_of (o_trend ob') Xe times = Ok td /\
    m1 = model_call c (ft_scale f) (ft_prepared f) (o_trend ob') td None (Some d1) /\
    m2 = model_call c (ft_scale f) (ft_prepared f) (o_trend ob') td None (Some d2) /\
    forall name, ~ affected (c_hier c) S (p_fitted (ft_prepared f)) name -> dict_get d1 name = dict_get d2 name.
Proof.
  intros A W1 W2 M1 M2 R1 R2. destruct (forecaster_clean _ _ _ _ _ _ _ _ _ _ _ _ _ HF HC) as (_ & _ & HX).
  destruct (predict_pair _ _ _ _ _ _ _ _ _ _ OT HX A W1 W2 M1 M2) as (Xe & Xe' & td & td' & times & d1 & d2 & LK & D1 & D2 & T1 & T2 & E1 & E2).
  assert (ET : td' = td).
  { destruct LK as [AO| ->]; [|congruence]. symmetry. refine (trend_same ns_of _ _ _ _ _ _ _ AO _ T1 T2). rewrite E1 in R1. exact (trend_not_effect _ _ _ _ _ _ _ _ _ HX R1). }
  subst td'. exists Xe, times, td, d1, d2. split; [exact T1|]. split; [exact E1|]. split; [exact E2|]. intros name NA. refine (prepared_same _ _ _ _ _ _ _ D1 D2 _). intros ef cols I.
  destruct LK as [AO| ->]; [|reflexivity]. eapply agree_select; [exact AO|]. cbv beta. intros n In_ Sh. apply NA. exists ef, cols, n. auto.
Qed.

(** everything else is the same *)
Lemma c98_elsewhere y2 S X1 X2 fh m1 m2 e o1 tr1 o2 tr2 :
  agree_except S X1 X2 -> rectangular X1 -> rectangular X2 ->
  predict_model c ob' f y2 (Some X1) fh = Ok m1 -> predict_model c ob' f y2 (Some X2) fh = Ok m2 ->
  run e [] m1 = Ok (o1, tr1) -> run e [] m2 = Ok (o2, tr2) ->
  same_elsewhere (c_hier c) S (p_fitted (ft_prepared f)) tr1 tr2.
Proof.
  intros A W1 W2 M1 M2 R1 R2 n Nn NA. destruct (forecaster_clean _ _ _ _ _ _ _ _ _ _ _ _ _ HF HC) as (C1 & C2 & HX).
  destruct (scenario_pair _ _ _ _ _ _ _ _ _ _ _ _ A W1 W2 M1 M2 R1 R2) as (Xe & times & td & d1 & d2 & _ & -> & -> & DD).
  refine (runs_elsewhere _ _ _ _ _ _ _ HX C1 C2 _ _ _ _ _ _ R1 R2 Nn _). intros name SO. apply DD. intros AF. exact (NA name AF SO).
Qed.

(** one affected effect *)
Lemma scenario_location y2 S X1 X2 fh m1 m2 e o1 tr1 o2 tr2 name : trend_ok ns_of (o_trend ob') ->
  agree_except S X1 X2 -> rectangular X1 -> rectangular X2 ->
  predict_model c ob' f y2 (Some X1) fh = Ok m1 -> predict_model c ob' f y2 (Some X2) fh = Ok m2 ->
  run e [] m1 = Ok (o1, tr1) -> run e [] m2 = Ok (o2, tr2) ->
  In name (map fst (p_effects (ft_prepared f))) -> (forall n, n <> name -> ~ affected (c_hier c) S (p_fitted (ft_prepared f)) n) ->
  exists Xe times td d1 d2 mu1 mu2 t1 t2 v1 v2, trend_transform ns_of (o_trend ob') Xe times = Ok td /\
    m1 = model_call c (ft_scale f) (ft_prepared f) (o_trend ob') td None (Some d1) /\
    m2 = model_call c (ft_scale f) (ft_prepared f) (o_trend ob') td None (Some d2) /\
    run e [] (compute_mean (trend_predict (o_trend ob') td) (Some d1) (Some (effect_fns (p_effects (ft_prepared f))))) = Ok (mu1, t1) /\
    run e [] (compute_mean (trend_predict (o_trend ob') td) (Some d2) (Some (effect_fns (p_effects (ft_prepared f))))) = Ok (mu2, t2) /\
    dict_get tr1 name = Some (SDet v1) /\ dict_get tr2 name = Some (SDet v2) /\
    a_shape v1 = a_shape mu1 /\ a_shape v2 = a_shape mu1 /\ a_shape mu2 = a_shape mu1 /\ arr_wf mu1 /\ arr_wf mu2 /\ arr_wf v1 /\ arr_wf v2 /\
    forall k, (entry mu1 k - entry mu2 k = entry v1 k - entry v2 k)%R.
Proof.
  intros TO A W1 W2 M1 M2 R1 R2 I NA. destruct (forecaster_clean _ _ _ _ _ _ _ _ _ _ _ _ _ HF HC) as (C1 & C2 & HX).
  destruct (scenario_pair _ _ _ _ _ _ _ _ _ _ _ _ A W1 W2 M1 M2 R1 R2) as (Xe & times & td & d1 & d2 & T & -> & -> & DD).
  destruct (runs_location _ _ _ _ _ _ _ HX C1 C2 _ _ _ _ _ _ R1 R2 I) as (mu1 & mu2 & t1 & t2 & v1 & v2 & Q1 & Q2 & G1 & G2 & S1 & S2 & S3 & K).
  { intros n Nn. apply DD. now apply NA. }
  assert (NT : ~ In "trend" (map fst (p_effects (ft_prepared f)))).
  { intros J. apply in_map_iff in J as ([n ef] & En & J). destruct (C2 _ _ J) as [[_ FN] _]. apply FN. cbn [fst] in En. subst n. apply in_app_iff. left. unfold reserved. simpl. auto. }
  assert (WF : forall d o tr mu t v, run e [] (model_call c (ft_scale f) (ft_prepared f) (o_trend ob') td None (Some d)) = Ok (o, tr) ->
     run e [] (compute_mean (trend_predict (o_trend ob') td) (Some d) (Some (effect_fns (p_effects (ft_prepared f))))) = Ok (mu, t) ->
     dict_get tr name = Some (SDet v) -> arr_wf mu /\ arr_wf v).
  { clear R1 R2 Q1 Q2 G1 G2 S1 S2 S3 K. intros d o tr mu t v R Q G. pose proof (model_call_shape _ _ _ _ _ _ _ _ _ _ _ HX R) as (k & M).
    assert (Y : yields e (model_call c (ft_scale f) (ft_prepared f) (o_trend ob') td None (Some d)) o) by (apply run_eval in R as (l0 & E0 & _); apply eval_yields; eauto).
    pose proof (model_sites _ _ _ _ _ _ _ _ _ HX C1 C2 Y) as NAc. destruct (ModelProps.run_nodup_trace _ _ _ _ R NAc) as (l & _ & El & NL). subst l.
    rewrite M in R, NAc. destruct (run_components e _ d _ k C1 NT (fun v Yv => TO _ _ _ _ _ T Yv) [] o tr R NAc) as (tv & vs & mu' & Ym & Wm & FV & _).
    assert (mu' = mu). { apply run_eval in Q as (l0 & E0 & _). eapply yields_det; [exact Ym|apply eval_yields; eauto]. } subst mu'. split; [exact Wm|].
    apply Forall2_In_both in FV as [FV _]. destruct (FV name (or_intror I)) as (v' & _ & Gv & _ & Wv). rewrite (predictive_det [] _ _ _ G NL) in Gv. injection Gv as ->. exact Wv. }
  destruct (WF _ _ _ _ _ _ R1 Q1 G1) as [Wm1 Wv1]. destruct (WF _ _ _ _ _ _ R2 Q2 G2) as [Wm2 Wv2].
  exists Xe, times, td, d1, d2, mu1, mu2, t1, t2, v1, v2. repeat (split; [solve [auto]|]). intros k.
  unfold arr_wf in *. rewrite S3 in Wm2. rewrite S1 in Wv1. rewrite S2 in Wv2.
  destruct (Nat.lt_ge_cases k (prod_shape (a_shape mu1))) as [L|L]; [apply K; lia|].
  unfold entry. rewrite !nth_overflow by lia. ring.
Qed.

Section Univariate.
Hypothesis Hc : c_hier c = false.
Hypothesis HL : f_levels y = 0.
Hypothesis HT : scalar_piecewise (o_trend ob') \/ flat_trend (o_trend ob').
Notation trend_fine := (univariate_trend_ok ns_of order keep tr_fit_transform svi_run nuts_run latent_sites c ob y X ob' f HF Hc HL HT).

Lemma c98_normal y2 S X1 X2 fh m1 m2 e o1 tr1 o2 tr2 name : c_likelihood c = "normal" ->
  agree_except S X1 X2 -> rectangular X1 -> rectangular X2 ->
  predict_model c ob' f y2 (Some X1) fh = Ok m1 -> predict_model c ob' f y2 (Some X2) fh = Ok m2 ->
  run e [] m1 = Ok (o1, tr1) -> run e [] m2 = Ok (o2, tr2) ->
  In name (map fst (p_effects (ft_prepared f))) -> (forall n, n <> name -> ~ affected false S (p_fitted (ft_prepared f)) n) ->
  exists a1 a2, dict_get tr1 name = Some (SDet a1) /\ dict_get tr2 name = Some (SDet a2) /\
    forall k x1 x2, expected tr1 k x1 -> expected tr2 k x2 -> (x1 - x2 = entry a1 k - entry a2 k)%R.
Proof.
  intros HK A W1 W2 M1 M2 R1 R2 I NA. rewrite <- Hc in NA. destruct (forecaster_clean _ _ _ _ _ _ _ _ _ _ _ _ _ HF HC) as (_ & _ & HX).
  destruct (scenario_location _ _ _ _ _ _ _ _ _ _ _ _ _ trend_fine A W1 W2 M1 M2 R1 R2 I NA)
    as (Xe & times & td & d1 & d2 & mu1 & mu2 & t1 & t2 & v1 & v2 & _ & -> & -> & Q1 & Q2 & G1 & G2 & _ & _ & _ & _ & _ & _ & _ & K).
  exists v1, v2. split; [exact G1|]. split; [exact G2|]. intros k x1 x2 (dd1 & z1 & b1 & O1 & E1) (dd2 & z2 & b2 & O2 & E2).
  unfold model_call in R1, R2. rewrite Hc, HK, (HX Hc) in R1, R2. cbn [String.eqb] in R1, R2.
  apply normal_obs in R1 as (n1 & u1 & P1 & (w1 & c1 & O1')). apply normal_obs in R2 as (n2 & u2 & P2 & (w2 & c2 & O2')).
  assert (n1 = mu1) by (rewrite Q1 in P1; congruence). assert (n2 = mu2) by (rewrite Q2 in P2; congruence). subst n1 n2.
  rewrite O1 in O1'. injection O1' as -> _ _. rewrite O2 in O2'. injection O2' as -> _ _. subst x1 x2. exact (K k).
Qed.

Lemma c98_gamma y2 S X1 X2 fh m1 m2 e o1 tr1 o2 tr2 name : c_likelihood c = "gamma" -> (0 < e "noise_scale" 0%nat)%R ->
  agree_except S X1 X2 -> rectangular X1 -> rectangular X2 ->
  predict_model c ob' f y2 (Some X1) fh = Ok m1 -> predict_model c ob' f y2 (Some X2) fh = Ok m2 ->
  run e [] m1 = Ok (o1, tr1) -> run e [] m2 = Ok (o2, tr2) ->
  In name (map fst (p_effects (ft_prepared f))) -> (forall n, n <> name -> ~ affected false S (p_fitted (ft_prepared f)) n) ->
  exists a1 a2, dict_get tr1 name = Some (SDet a1) /\ dict_get tr2 name = Some (SDet a2) /\
    forall k x1 x2, k < List.length (a_flat a1) -> expected tr1 k x1 -> expected tr2 k x2 -> (/ 100000 <= x1)%R -> (/ 100000 <= x2)%R -> (x1 - x2 = entry a1 k - entry a2 k)%R.
Proof.
  intros HK NP A W1 W2 M1 M2 R1 R2 I NA. rewrite <- Hc in NA. destruct (forecaster_clean _ _ _ _ _ _ _ _ _ _ _ _ _ HF HC) as (_ & _ & HX).
  destruct (scenario_location _ _ _ _ _ _ _ _ _ _ _ _ _ trend_fine A W1 W2 M1 M2 R1 R2 I NA)
    as (Xe & times & td & d1 & d2 & mu1 & mu2 & t1 & t2 & v1 & v2 & _ & -> & -> & Q1 & Q2 & G1 & G2 & S1 & S2 & S3 & Wm1 & Wm2 & Wv1 & Wv2 & K).
  exists v1, v2. split; [exact G1|]. split; [exact G2|]. intros k x1 x2 Lk (dd1 & z1 & b1 & O1 & E1) (dd2 & z2 & b2 & O2 & E2) B1 B2.
  unfold model_call in R1, R2. rewrite Hc, HK, (HX Hc) in R1, R2. cbn [String.eqb] in R1, R2.
  apply gamma_obs in R1 as (n1 & u1 & P1 & (w1 & c1 & O1')). apply gamma_obs in R2 as (n2 & u2 & P2 & (w2 & c2 & O2')).
  assert (n1 = mu1) by (rewrite Q1 in P1; congruence). assert (n2 = mu2) by (rewrite Q2 in P2; congruence). subst n1 n2.
  rewrite O1 in O1'. injection O1' as -> _ _. rewrite O2 in O2'. injection O2' as -> _ _.
  unfold arr_wf in *. assert (L1 : k < List.length (a_flat mu1)) by congruence. assert (L2 : k < List.length (a_flat mu2)) by congruence.
  assert (GM : forall mu x, k < List.length (a_flat mu) ->
     match gamma_reparametrized (reshape_col (to_positive mu)) (e "noise_scale" 0%nat) with DGamma a r => x = gamma_mean (entry a k) (entry r k) | _ => False end ->
     (/ 100000 <= x)%R -> x = entry mu k).
  { clear -NP. intros mu x L E B. unfold gamma_reparametrized in E. cbn iota beta in E. rewrite !entry_map in E by (simpl; now rewrite map_length).
    replace (entry (reshape_col (to_positive mu)) k) with (to_positive1 (/ 100000) (/ 10000000000) (entry mu k)) in E by (symmetry; exact (entry_map _ mu k L)).
    pose proof (to_positive1_bound (entry mu k)). assert (Q : (0 < / 10000000000)%R) by lra.
    assert (E' : x = to_positive1 (/ 100000) (/ 10000000000) (entry mu k)) by (rewrite E; apply gamma_moments; lra).
    rewrite E' in B |- *. apply to_positive1_id. now apply to_positive1_large. }
  rewrite (GM mu1 x1 L1 E1 B1), (GM mu2 x2 L2 E2 B2). exact (K k).
Qed.

Lemma c98_negbinomial u y2 S X1 X2 fh m1 m2 e o1 tr1 o2 tr2 name : c_likelihood c = "negbinomial" -> ft_scale f = SFloat u -> (0 < u)%R ->
  agree_except S X1 X2 -> rectangular X1 -> rectangular X2 ->
  predict_model c ob' f y2 (Some X1) fh = Ok m1 -> predict_model c ob' f y2 (Some X2) fh = Ok m2 ->
  run e [] m1 = Ok (o1, tr1) -> run e [] m2 = Ok (o2, tr2) ->
  In name (map fst (p_effects (ft_prepared f))) -> (forall n, n <> name -> ~ affected false S (p_fitted (ft_prepared f)) n) ->
  exists a1 a2, dict_get tr1 name = Some (SDet a1) /\ dict_get tr2 name = Some (SDet a2) /\
    forall k x1 x2, k < List.length (a_flat a1) -> expected tr1 k x1 -> expected tr2 k x2 -> (u / 100000 <= x1)%R -> (u / 100000 <= x2)%R ->
      (x1 - x2 = u * (entry a1 k - entry a2 k))%R.
Proof.
  intros HK HS Hu A W1 W2 M1 M2 R1 R2 I NA. rewrite <- Hc in NA. destruct (forecaster_clean _ _ _ _ _ _ _ _ _ _ _ _ _ HF HC) as (_ & _ & HX).
  destruct (scenario_location _ _ _ _ _ _ _ _ _ _ _ _ _ trend_fine A W1 W2 M1 M2 R1 R2 I NA)
    as (Xe & times & td & d1 & d2 & mu1 & mu2 & t1 & t2 & v1 & v2 & _ & -> & -> & Q1 & Q2 & G1 & G2 & S1 & S2 & S3 & Wm1 & Wm2 & Wv1 & Wv2 & K).
  exists v1, v2. split; [exact G1|]. split; [exact G2|]. intros k x1 x2 Lk (dd1 & z1 & b1 & O1 & E1) (dd2 & z2 & b2 & O2 & E2) B1 B2.
  unfold model_call in R1, R2. rewrite Hc, HK, HS, (HX Hc) in R1, R2. cbn [String.eqb scale_number] in R1, R2.
  apply negbinomial_obs in R1 as (n1 & u1 & P1 & (w1 & c1 & O1')). apply negbinomial_obs in R2 as (n2 & u2 & P2 & (w2 & c2 & O2')).
  assert (n1 = mu1) by (rewrite Q1 in P1; congruence). assert (n2 = mu2) by (rewrite Q2 in P2; congruence). subst n1 n2.
  rewrite O1 in O1'. injection O1' as -> _ _. rewrite O2 in O2'. injection O2' as -> _ _.
  unfold arr_wf in *. assert (L1 : k < List.length (a_flat mu1)) by congruence. assert (L2 : k < List.length (a_flat mu2)) by congruence.
  assert (GM : forall mu x, k < List.length (a_flat mu) -> x = entry (reshape_col (arr_map (fun x => (x * u)%R) (to_positive mu))) k ->
     (u / 100000 <= x)%R -> x = (u * entry mu k)%R).
  { clear -Hu. intros mu x L E B. change (entry (reshape_col (arr_map (fun x => (x * u)%R) (to_positive mu))) k) with (entry (arr_map (fun x => (x * u)%R) (to_positive mu)) k) in E.
    rewrite entry_map in E by (simpl; now rewrite map_length). unfold to_positive in E. rewrite entry_map in E by assumption.
    assert (B' : (/ 100000 <= to_positive1 (/ 100000) (/ 10000000000) (entry mu k))%R).
    { apply Rmult_le_reg_l with u; [exact Hu|]. rewrite E in B. unfold Rdiv in B. lra. }
    rewrite E, to_positive1_id by (now apply to_positive1_large). ring. }
  unfold nb2_mean in E1, E2. rewrite (GM mu1 x1 L1 E1 B1), (GM mu2 x2 L2 E2 B2). specialize (K k). rewrite <- K. ring.
Qed.
End Univariate.

(** several series *)
Lemma c98_hierarchical y2 S X1 X2 fh m1 m2 e o1 tr1 o2 tr2 name : c_hier c = true -> f_levels y <> 0 -> frame_wf y ->
  (forall r, In r (f_rows y) -> ~ In "__total" (r_path r)) -> scalar_piecewise (o_trend ob') -> List.length (series_ids y) <> 1 ->
  agree_except S X1 X2 -> rectangular X1 -> rectangular X2 ->
  predict_model c ob' f y2 (Some X1) fh = Ok m1 -> predict_model c ob' f y2 (Some X2) fh = Ok m2 ->
  run e [] m1 = Ok (o1, tr1) -> run e [] m2 = Ok (o2, tr2) ->
  In name (map fst (p_effects (ft_prepared f))) -> (forall n, n <> name -> ~ affected true S (p_fitted (ft_prepared f)) n) ->
  exists a1 a2 T, dict_get tr1 name = Some (SDet a1) /\ dict_get tr2 name = Some (SDet a2) /\
    a_shape a1 = [List.length (series_ids y); T; 1] /\ a_shape a2 = [List.length (series_ids y); T; 1] /\
    forall i j x1 x2, i < List.length (series_ids y) -> j < T -> expected_at tr1 i j x1 -> expected_at tr2 i j x2 ->
      (x1 - x2 = aget a1 [i; j; 0%nat] - aget a2 [i; j; 0%nat])%R.
Proof.
  intros Hc L W NT SP N1 A W1 W2 M1 M2 R1 R2 I NA. rewrite <- Hc in NA.
  destruct (hierarchical_index _ _ _ _ _ _ _ _ _ _ _ _ _ HF Hc L W NT) as (HS & _ & _).
  destruct (hierarchical_trend_shape _ _ _ _ _ _ _ _ _ _ _ _ _ HF Hc L W NT SP) as (sq & HV).
  assert (TO : trend_ok ns_of (o_trend ob')) by (intros Xe times td ev v T Y; exact (proj1 (HV _ _ _ _ _ T Y))).
  destruct (scenario_location _ _ _ _ _ _ _ _ _ _ _ _ _ TO A W1 W2 M1 M2 R1 R2 I NA)
    as (Xe & times & td & d1 & d2 & mu1 & mu2 & t1 & t2 & v1 & v2 & T & -> & -> & Q1 & Q2 & G1 & G2 & S1 & S2 & S3 & Wm1 & Wm2 & Wv1 & Wv2 & K).
  set (n := List.length (series_ids y)) in *.
  assert (SM : a_shape mu1 = [n; List.length (times_unique times); 1]).
  { destruct (mean_shape _ _ _ _ _ _ _ Q1) as (tv & Yt & Sh). destruct (HV _ _ _ _ _ T Yt) as [Wt St]. destruct (Sh Wt) as [Sm _].
    rewrite St in Sm. unfold trend_shape in Sm. replace (Nat.eqb n 1) with false in Sm by (symmetry; now apply Nat.eqb_neq). cbn [andb] in Sm. exact Sm. }
  exists v1, v2, (List.length (times_unique times)). split; [exact G1|]. split; [exact G2|]. split; [congruence|]. split; [congruence|].
  intros i j x1 x2 Hi Hj (l1 & tl1 & z1 & b1 & O1 & E1) (l2 & tl2 & z2 & b2 & O2 & E2).
  unfold model_call in R1, R2. rewrite Hc, HS in R1, R2. replace (Nat.eqb n 1) with false in R1, R2 by (symmetry; now apply Nat.eqb_neq).
  destruct (multi_obs _ _ _ _ _ _ _ _ _ _ R1) as (n1 & u1 & P1 & Oo1). destruct (multi_obs _ _ _ _ _ _ _ _ _ _ R2) as (n2 & u2 & P2 & Oo2).
  assert (n1 = mu1) by (rewrite Q1 in P1; congruence). assert (n2 = mu2) by (rewrite Q2 in P2; congruence). subst n1 n2.
  destruct (Oo1 n (List.length (times_unique times)) SM) as (loc1 & tril1 & (w1 & c1 & O1') & _ & EL1 & _).
  destruct (Oo2 n (List.length (times_unique times)) (eq_trans S3 SM)) as (loc2 & tril2 & (w2 & c2 & O2') & _ & EL2 & _).
  rewrite O1 in O1'. injection O1' as -> -> _ _. rewrite O2 in O2'. injection O2' as -> -> _ _. subst x1 x2.
  rewrite (EL1 i j Hi Hj), (EL2 i j Hi Hj). unfold aget. rewrite S3, S1, S2, SM. exact (K _).
Qed.
End Fitted.
End Forecaster.
