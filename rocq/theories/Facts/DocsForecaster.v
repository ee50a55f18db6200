(** The trend recorded by a fitted forecaster. *)
From Coq Require Import Reals Lra ZArith String Bool List Lia Sorted.
From Verif.Model Require Import Base Num XFloat Frame Arr Prog Likelihood Effect Trend TrendProg Aggregate Scale Expand Engine Forecaster.
From Verif.Spec Require Import FrameSpec ProgSpec EffectSpec AlignSpec ShapeSpec TrendSpec ForecasterSpec SiteSpec ComponentSpec CounterSpec DocsSpec.
From Verif.Facts Require Import BaseFacts FrameFacts OrderFacts NumFacts ArrFacts TimeFacts TrendFacts ProgFacts EffectPredict PosteriorFacts MeanFacts LikelihoodFacts ModelProps ForecasterFacts ForecasterInv SiteFacts ComponentFacts CounterFacts CompleteFacts ShapeFacts ForecasterProps PanelGrid PanelTrend DensityFacts DocsTrend.
Import ListNotations.
Local Open Scope string_scope.

Lemma days_nodup (g : Z -> R) (l : list Z) : increasing (map g l) -> NoDup l.
Proof.
  unfold increasing. induction l as [|a l IH]; intros H; [constructor|]. cbn [map] in H. inversion H as [|? ? S F]; subst. constructor; [|now apply IH].
  intros I. rewrite Forall_forall in F. specialize (F (g a) (in_map g _ _ I)). lra.
Qed.

(** the recorded trend, and its sites, are those of the trend run alone *)
Lemma trend_recorded c s p t td data e o tr : (c_hier c = false -> p_has_exogenous p = true) -> NoDup (map fst (p_effects p)) ->
  (forall n ef, In (n, ef) (p_effects p) -> free_name n /\ unnested ef) ->
  run e [] (model_call c s p t td None (Some data)) = Ok (o, tr) ->
  exists tv lt, eval e (trend_predict t td) = Ok (tv, lt) /\ dict_get tr "trend" = Some (SDet tv) /\ forall n x, In (n, x) lt -> dict_get tr n = Some x.
Proof.
  intros HX ND HC RU. destruct (one_run (fun _ _ => 0%R) c s p t td None data HX ND HC) as (k & _ & ONE). destruct (ONE _ _ _ RU) as (m & tv & lt & gs & l2 & N & T & _ & _ & _ & E).
  exists tv, lt. split; [exact T|]. split.
  - apply dict_get_nodup; [exact N|]. rewrite E. apply in_app_iff. right. left. reflexivity.
  - intros n x I. apply dict_get_nodup; [exact N|]. rewrite E. apply in_app_iff. now left.
Qed.

Section Any.
Variable ns_of : Z -> Z.
Variable order : list string -> list string.
Variable keep : path -> bool.
Context {TS : Type}.
Variable tr_fit_transform : TS -> frame R -> TS * res (frame R).
Variable tr_transform : TS -> frame R -> res (frame R).
Context {P : Type}.
Variable svi_run : Z -> nat -> nat -> prog arr -> res (list xr * P).
Variable nuts_run : Z -> nat -> nat -> nat -> prog arr -> res (nat -> nat -> env).
Variable latent_sites : prog arr -> list string.
Notation fit_data := (fit_data ns_of order keep tr_fit_transform).
Notation fit_forecaster := (fit_forecaster ns_of order keep tr_fit_transform svi_run nuts_run latent_sites).
Notation predict_model := (predict_model ns_of keep tr_transform).
Notation day := (fun t => day (ns_of t)).

(** * Fitting *)
Lemma univariate_trend_fit c ob y X ob' (f : fitted (P := P)) : fit_forecaster c ob y X = (ob', Ok f) -> c_hier c = false ->
  exists t0 X1 yt, trend_fit ns_of order t0 X1 yt 1 = (o_trend ob', None) /\ f_levels yt = f_levels y /\ map r_time (f_rows yt) = map r_time (f_rows y).
Proof.
  intros H Hc. apply fit_forecaster_inv in H. destruct H as (s & ys & p & m & post & _ & HY & HF & _ & _).
  unfold fit_data in HF. rewrite Hc in HF. apply univariate_fit_inv in HF. destruct HF as (t0 & t & yt & X1 & Xe & td & data & _ & HD & HT & _ & _ & <- & _).
  exists t0, X, yt. split; [exact HT|]. apply scale_y_index in HY. destruct HY as [IY LY].
  assert (IR : map r_time (f_rows ys) = map r_time (f_rows y)) by (unfold index_of in IY; apply (f_equal (map snd)) in IY; rewrite !map_map in IY; exact IY).
  destruct (discrete c); [|injection HD as <-; auto].
  unfold divide_target in HD. destruct s; (injection HD as <- || discriminate); cbn [map_vals f_levels f_rows]; rewrite map_map; cbn [r_time]; auto.
Qed.

Lemma hierarchical_trend_fit c ob y X ob' (f : fitted (P := P)) ds : fit_forecaster c ob y X = (ob', Ok f) -> c_hier c = true ->
  f_levels y <> 0 -> frame_wf y -> (forall r, In r (f_rows y) -> ~ In "__total" (r_path r)) -> balanced y ->
  StronglySorted Z.lt ds -> (forall t, In t ds <-> In t (map r_time (f_rows y))) ->
  exists t0 X1 yt s, trend_fit ns_of order t0 X1 yt s = (o_trend ob', None) /\ f_rows yt <> [] /\ n_series_of yt = List.length (series_ids y) /\ time_ids yt = ds /\ f_levels yt <> 0.
Proof.
  intros H Hc L W NT [BN BI] S D. apply fit_forecaster_inv in H. destruct H as (s & ys & p & m & post & _ & HY & HF & _ & _).
  pose proof (CompleteFacts.scale_y_wf _ _ _ _ W HY) as WS. apply scale_y_index in HY. destruct HY as [IY LY].
  assert (RP : map r_path (f_rows ys) = map r_path (f_rows y)).
  { unfold index_of in IY. apply (f_equal (map fst)) in IY. rewrite !map_map in IY. exact IY. }
  assert (NTS : forall r, In r (f_rows ys) -> ~ In "__total" (r_path r)).
  { intros r Hr. assert (I : In (r_path r) (map r_path (f_rows y))) by (rewrite <- RP; now apply in_map). apply in_map_iff in I as (r' & <- & I). now apply NT. }
  destruct (hierarchical_setup _ _ _ _ _ _ _ _ _ _ _ _ HF Hc ltac:(congruence) WS NTS) as (tensor & X2 & t0 & td & data & _ & HT & _ & _ & RY & _).
  exists t0, (Some X2), (sort_index ys), (scale_number s). split; [exact HT|]. split; [now apply sort_index_rows|]. split; [|split].
  - unfold n_series_of. change (f_levels (sort_index ys)) with (f_levels ys). rewrite LY. destruct (f_levels y) as [|k]; [congruence|]. rewrite sort_index_ids. unfold series_ids. now rewrite RP.
  - assert (LL : labels ys = labels y) by exact IY.
    apply (sorted_times (map r_path (f_rows y))); [|exact S| |].
    + split; [exact WS|]. split; [congruence|]. rewrite LL. split; [exact BN|]. intros q t. rewrite D. split.
      * intros I. unfold labels in I. apply in_map_iff in I as (r & [= <- <-] & Hr). split; now apply in_map.
      * intros [I1 I2]. now apply BI.
    + rewrite <- RP. destruct (f_rows ys); [congruence|discriminate].
    + intros ->. apply RY. destruct (f_rows ys) as [|r l] eqn:E; [reflexivity|]. exfalso. assert (I : In (r_path r) (map r_path (f_rows y))) by (rewrite <- RP; left; reflexivity).
      apply in_map_iff in I as (r' & _ & Hr'). apply (proj2 (D (r_time r'))). now apply in_map.
  - change (f_levels (sort_index ys)) with (f_levels ys). congruence.
Qed.

(** * Prediction *)
Lemma predict_trend c ob y X ob' (f : fitted (P := P)) : fit_forecaster c ob y X = (ob', Ok f) -> clean_config c ->
  forall ob2 y2 X2 fh m cutoff, predict_model c ob2 f y2 X2 fh = Ok m ->
  max_time (if c_hier c then map snd (p_index (ft_prepared f)) else map r_time (f_rows y2)) = Ok cutoff ->
  exists Xe td, trend_transform ns_of (o_trend ob2) Xe (to_absolute cutoff fh) = Ok td /\
    forall e o tr, run e [] m = Ok (o, tr) -> exists tv lt, eval e (trend_predict (o_trend ob2) td) = Ok (tv, lt) /\
      dict_get tr "trend" = Some (SDet tv) /\ forall n x, In (n, x) lt -> dict_get tr n = Some x.
Proof.
  intros H C ob2 y2 X2 fh m cutoff Hm Hcut. destruct (forecaster_clean _ _ _ _ _ _ _ _ _ _ _ _ _ H C) as (C1 & C2 & HX).
  unfold ForecasterSpec.predict_model in Hm. destruct (c_hier c) eqn:Hc.
  - inv_bind Hm. injection Hm as <-. unfold hierarchical_predict_model in E. rewrite Hcut in E. cbn [bind] in E. do 2 inv_bind E. destruct x1 as [Xb ex]. repeat inv_bind E.
    injection E as <-. cbn [fst]. eexists _, _. split; [eassumption|]. intros e o tr RU. eapply trend_recorded; [|exact C1|exact C2|exact RU]. congruence.
  - unfold univariate_predict_model in Hm. rewrite Hcut in Hm. cbn [bind] in Hm. do 2 inv_bind Hm. rewrite (HX eq_refl) in Hm. inv_bind Hm. inv_bind E1. injection E1 as <-.
    injection Hm as <-. eexists _, _. split; [eassumption|]. intros e o tr RU. eapply trend_recorded; [intros _; exact (HX eq_refl)|exact C1|exact C2|exact RU].
Qed.

Lemma options_trend t0 X yt s t iv rg lg : trend_fit ns_of order t0 X yt s = (t, None) -> piecewise_options t iv rg lg ->
  exists p cap b f, t = TPiecewise p cap b (Some f) /\ piecewise_fit ns_of p yt = Ok f /\ pw_interval p = Scalar iv /\ pw_range p = Scalar rg /\
    lg = match pw_logistic p with None => false | Some _ => true end.
Proof.
  intros H O. assert (SP : scalar_piecewise t) by (destruct t; [|destruct O..]; destruct O as (A & B & _); split; eauto).
  destruct (CompleteFacts.fitted_trend ns_of order _ _ _ _ _ H SP) as (p & cap & b & f & iv' & rg' & -> & F & _ & _). destruct O as (A & B & D).
  exists p, cap, b, f. auto.
Qed.

Section Value.
Variables (c : config) (ob : objects (TS := TS)) (y : frame R) (X : option (frame R)) (ob' : objects (TS := TS)) (f : fitted (P := P)) (ds : list Z) (n : nat).
Variables (iv rg : R) (lg : bool) (K : nat).
Hypothesis HF : fit_forecaster c ob y X = (ob', Ok f).
Hypothesis HC : clean_config c.
Hypothesis HO : piecewise_options (o_trend ob') iv rg lg.
Hypothesis HI : (0 < iv)%R.
Hypothesis HD : increasing (map day ds).
Hypothesis HK : changepoint_count (List.length ds) iv rg K.
Variables (t0 : trend) (X1 : option (frame R)) (yt : frame R) (s : R).
Hypothesis HT : trend_fit ns_of order t0 X1 yt s = (o_trend ob', None).
Hypothesis HN : n_series_of yt = n.
Hypothesis HTi : time_ids yt = ds.
Hypothesis HR : f_levels yt <> 0 -> f_rows yt <> [].

Lemma value_core y2 X2 fh m cutoff e o tr : predict_model c ob' f y2 X2 fh = Ok m ->
  max_time (if c_hier c then map snd (p_index (ft_prepared f)) else map r_time (f_rows y2)) = Ok cutoff ->
  (f_levels yt <> 0 -> NoDup (to_absolute cutoff fh)) -> run e [] m = Ok (o, tr) ->
  exists tv, dict_get tr "trend" = Some (SDet tv) /\ (forall i j t, i < n -> nth_error (to_absolute cutoff fh) j = Some t ->
    nth_error (a_flat tv) (i * List.length (to_absolute cutoff fh) + j) = Some (trend_at e lg K iv i (steps (map day ds) (day t)))) /\
    forall sg, prior_scale_option (o_trend ob') sg -> laplace_prior tr (n * K) sg.
Proof.
  intros Hm Hcut Nd RU. destruct (predict_trend _ _ _ _ _ _ HF HC _ _ _ _ _ _ Hm Hcut) as (Xe & td & Td & Q). destruct (Q _ _ _ RU) as (tv & lt & E & G & All).
  destruct (options_trend _ _ _ _ _ _ _ _ HT HO) as (p & cap & b & f0 & Et & PF & PI & PR & ->). rewrite Et in Td, E. cbn [trend_transform] in Td. inv_bind Td. cbn [attr bind] in Td. injection Td as <-. cbn [trend_predict] in E.
  rewrite <- HTi in HD, HK. rewrite <- HTi. exists tv. split; [exact G|]. split.
  - assert (Y : yields e (piecewise_prog cap f0 (piecewise_transform ns_of f0 (to_absolute cutoff fh))) tv) by (apply eval_yields; eauto).
    destruct (piecewise_formula ns_of _ _ _ _ _ _ _ _ _ PF PI PR HI HD HR Nd Y) as (K' & CK & V). rewrite (count_unique _ _ _ _ _ HK CK). intros i j t Hi Hj. apply V; [now rewrite HN|exact Hj].
  - intros sg Sg. rewrite Et in Sg. cbn in Sg. destruct (piecewise_priors ns_of _ _ _ _ _ _ _ _ _ _ _ PF PI PR Sg HI HD E) as (K' & v & CK & V).
    rewrite (count_unique _ _ _ _ _ HK CK), <- HN. exists v. now apply All.
Qed.
End Value.

Theorem c103_univariate c ob y X ob' (f : fitted (P := P)) iv rg lg K : fit_forecaster c ob y X = (ob', Ok f) -> c_hier c = false -> f_levels y = 0 -> clean_config c ->
  piecewise_options (o_trend ob') iv rg lg -> (0 < iv)%R ->
  forall ds, map r_time (f_rows y) = ds -> increasing (map day ds) -> changepoint_count (List.length ds) iv rg K ->
  forall y2 X2 fh m cutoff ts, predict_model c ob' f y2 X2 fh = Ok m -> max_time (map r_time (f_rows y2)) = Ok cutoff -> to_absolute cutoff fh = ts ->
  forall e o tr, run e [] m = Ok (o, tr) ->
  exists tv, dict_get tr "trend" = Some (SDet tv) /\ (forall j t, nth_error ts j = Some t -> nth_error (a_flat tv) j = Some (trend_at e lg K iv 0 (steps (map day ds) (day t)))) /\
    forall sg, prior_scale_option (o_trend ob') sg -> laplace_prior tr K sg.
Proof.
  intros HF Hc L C HO HI ds Hds Inc HK y2 X2 fh m cutoff ts Hm Hcut Hts e o tr RU. subst ts.
  destruct (univariate_trend_fit _ _ _ _ _ _ HF Hc) as (t0 & X1 & yt & HT & LT & TT).
  assert (TI : time_ids yt = ds) by (unfold time_ids; rewrite TT, Hds; apply times_unique_id; now apply days_nodup in Inc).
  destruct (value_core c ob y X ob' f ds 1 iv rg lg K HF C HO HI Inc HK t0 X1 yt 1%R HT) with (y2 := y2) (X2 := X2) (fh := fh) (m := m) (cutoff := cutoff) (e := e) (o := o) (tr := tr) as (tv & A & B & D); auto.
  - unfold n_series_of. now rewrite LT, L.
  - congruence.
  - now rewrite Hc.
  - congruence.
  - exists tv. split; [exact A|]. split.
    + intros j t Hj. apply (B 0 j t); [lia|exact Hj].
    + intros sg Hsg. specialize (D sg Hsg). rewrite Nat.mul_1_l in D. exact D.
Qed.

Theorem c103_hierarchical c ob y X ob' (f : fitted (P := P)) iv rg lg K : fit_forecaster c ob y X = (ob', Ok f) -> c_hier c = true ->
  f_levels y <> 0 -> frame_wf y -> (forall r, In r (f_rows y) -> ~ In "__total" (r_path r)) -> balanced y -> clean_config c ->
  piecewise_options (o_trend ob') iv rg lg -> (0 < iv)%R ->
  forall ds, StronglySorted Z.lt ds -> (forall t, In t ds <-> In t (map r_time (f_rows y))) -> increasing (map day ds) -> changepoint_count (List.length ds) iv rg K ->
  forall y2 X2 fh m cutoff ts, predict_model c ob' f y2 X2 fh = Ok m -> max_time (map snd (p_index (ft_prepared f))) = Ok cutoff -> to_absolute cutoff fh = ts -> NoDup ts ->
  forall e o tr, run e [] m = Ok (o, tr) ->
  exists tv, dict_get tr "trend" = Some (SDet tv) /\ (forall i j t, i < List.length (series_ids y) -> nth_error ts j = Some t ->
    nth_error (a_flat tv) (i * List.length ts + j) = Some (trend_at e lg K iv i (steps (map day ds) (day t)))) /\
    forall sg, prior_scale_option (o_trend ob') sg -> laplace_prior tr (List.length (series_ids y) * K) sg.
Proof.
  intros HF Hc L W NT B C HO HI ds S D Inc HK y2 X2 fh m cutoff ts Hm Hcut Hts Nd e o tr RU. subst ts.
  destruct (hierarchical_trend_fit _ _ _ _ _ _ ds HF Hc L W NT B S D) as (t0 & X1 & yt & s & HT & RY & NS & TI & LV).
  eapply (value_core c ob y X ob' f ds _ iv rg lg K HF C HO HI Inc HK t0 X1 yt s HT NS TI (fun _ => RY)); eauto. now rewrite Hc.
Qed.
End Any.
