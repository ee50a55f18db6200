(** The priors of the trend parameters, and the trend during training. *)
From Coq Require Import Reals Lra ZArith String Bool List Lia Sorted.
From Verif.Model Require Import Base Num XFloat Frame Arr Prog Likelihood Effect Trend TrendProg Aggregate Scale Expand Engine Forecaster.
From Verif.Spec Require Import FrameSpec ProgSpec EffectSpec AlignSpec ShapeSpec TrendSpec ForecasterSpec SiteSpec ComponentSpec CounterSpec DocsSpec DocsPriorSpec.
From Verif.Facts Require Import BaseFacts FrameFacts OrderFacts NumFacts ArrFacts TimeFacts TrendFacts ProgFacts EffectPredict PosteriorFacts MeanFacts LikelihoodFacts ModelProps ForecasterFacts ForecasterInv SiteFacts ComponentFacts CounterFacts CompleteFacts ShapeFacts ForecasterProps PanelGrid PanelTrend DensityFacts DocsTrend DocsForecaster.
Import ListNotations.
Local Open Scope string_scope.

Lemma finite_all l : forall rs, mapM finite l = Ok rs -> l = map XF rs.
Proof.
  induction l as [|x l IH]; intros rs H; cbn [mapM] in H; [injection H as <-; reflexivity|]. destruct x; try discriminate. cbn [finite bind] in H.
  destruct (mapM finite l) as [ys|]; [|discriminate]. cbn [bind] in H. injection H as <-. cbn [map]. f_equal. now apply IH.
Qed.
Lemma finite_map rs : mapM finite (map XF rs) = Ok rs.
Proof. induction rs as [|r rs IH]; [reflexivity|]. cbn [map mapM finite bind]. now rewrite IH. Qed.
Lemma map_XF_inj a : forall b, map XF a = map XF b -> a = b.
Proof. induction a as [|x a IH]; intros [|z b] H; try discriminate; [reflexivity|]. injection H as -> H. f_equal. now apply IH. Qed.

(** the sites of a piecewise trend *)
Lemma piecewise_sites cap f m e a lt : eval e (piecewise_prog cap f m) = Ok (a, lt) ->
  (exists locs, pf_offset_loc f = map XF locs /\
    In ("offset", SSample (DNormal (mkArr [List.length locs] locs) (mkArr [List.length locs] (repeat (pw_offset_scale (pf_params f)) (List.length locs))))
         (mkArr [List.length locs] (map (e "offset") (seq 0 (List.length locs)))) false) lt) /\
  (pw_logistic (pf_params f) <> None -> In ("capacity", SSample cap (mkArr [pf_n_series f; 1; 1] (map (e "capacity") (seq 0 (pf_n_series f)))) false) lt).
Proof.
  assert (PS : forall n, prod_shape [n] = n) by (intros; unfold prod_shape; simpl; lia).
  assert (PS3 : forall n, prod_shape [n; 1; 1] = n) by (intros; unfold prod_shape; simpl; lia).
  assert (Q : forall k lt, eval e (locs <~ lift_res (mapM finite (pf_offset_loc f)) ;;
    o <~ sample "offset" (DNormal (vector locs) (const_arr [List.length locs] (pw_offset_scale (pf_params f)))) [List.length locs] ;;
    _ <~ (if Nat.eqb (List.length (pf_cp_loc f)) (List.length (pf_cp_scale f)) then Ret tt else Raise ValueError) ;;
    c <~ sample "changepoint_coefficients" (DLaplace (vector (pf_cp_loc f)) (vector (pf_cp_scale f))) [List.length (pf_cp_loc f)] ;;
    k (a_flat o) (a_flat c)) = Ok (a, lt) -> exists locs, pf_offset_loc f = map XF locs /\
    In ("offset", SSample (DNormal (mkArr [List.length locs] locs) (mkArr [List.length locs] (repeat (pw_offset_scale (pf_params f)) (List.length locs))))
         (mkArr [List.length locs] (map (e "offset") (seq 0 (List.length locs)))) false) lt).
  { intros k l Ek. apply eval_split in Ek as (x1 & l1 & l1' & E1 & Ek & ->). apply eval_split in Ek as (x2 & l2 & l2' & E2 & _ & ->).
    exists x1. split.
    - destruct (mapM finite (pf_offset_loc f)) as [rs|] eqn:M; [|discriminate]. cbn [lift_res eval] in E1. injection E1 as <- _. now apply finite_all.
    - cbn [sample eval bind] in E2. injection E2 as _ <-. rewrite !in_app_iff. right. left. left. unfold const_arr, vector. rewrite ?PS, ?Nat.mul_1_r. reflexivity. }
  intros E. unfold piecewise_prog in E. destruct (pw_logistic (pf_params f)) eqn:LG.
  - apply eval_split in E as (x1 & l1 & l1' & _ & E & ->). apply eval_split in E as (x2 & l2 & l2' & E2 & E & ->). split.
    + apply (Q (fun o c => lift_res (logistic_predict (pw_squeeze (pf_params f)) (pf_n_series f) m (a_flat x2) o c))) in E as (locs & L & I). exists locs. split; [exact L|]. rewrite !in_app_iff. auto.
    + intros _. cbn [sample eval bind] in E2. injection E2 as _ <-. rewrite ?Nat.mul_1_r, !in_app_iff. right. left. left. reflexivity.
  - split; [|congruence]. exact (Q (fun o c => lift_res (piecewise_predict (pw_squeeze (pf_params f)) (pf_n_series f) m o c)) _ E).
Qed.

Lemma trend_recorded_any c s p t td y data e o tr : (c_hier c = false -> p_has_exogenous p = true) -> NoDup (map fst (p_effects p)) ->
  (forall n ef, In (n, ef) (p_effects p) -> free_name n /\ unnested ef) ->
  run e [] (model_call c s p t td y (Some data)) = Ok (o, tr) ->
  exists tv lt, eval e (trend_predict t td) = Ok (tv, lt) /\ dict_get tr "trend" = Some (SDet tv) /\ forall n x, In (n, x) lt -> dict_get tr n = Some x.
Proof.
  intros HX ND HC RU. destruct (one_run (fun _ _ => 0%R) c s p t td y data HX ND HC) as (k & _ & ONE). destruct (ONE _ _ _ RU) as (m & tv & lt & gs & l2 & N & T & _ & _ & _ & E).
  exists tv, lt. split; [exact T|]. split.
  - apply dict_get_nodup; [exact N|]. rewrite E. apply in_app_iff. right. left. reflexivity.
  - intros n x I. apply dict_get_nodup; [exact N|]. rewrite E. apply in_app_iff. now left.
Qed.

Section Any.
Variable ns_of : Z -> Z.
Variable order : list string -> list string.
Variable keep : path -> bool.
Context {TS : Type}.
Variable tr_fit_transform : TS -> frame R -> TS * res (frame R).
Variable tr_transform : TS -> frame R -> res (frame R).
Context {P : Type}.
Variable svi_run : Z -> nat -> nat -> prog arr -> res (list xr * P).
Variable nuts_run : Z -> nat -> nat -> nat -> prog arr -> res (nat -> nat -> env).
Variable latent_sites : prog arr -> list string.
Notation fit_data := (fit_data ns_of order keep tr_fit_transform).
Notation fit_forecaster := (fit_forecaster ns_of order keep tr_fit_transform svi_run nuts_run latent_sites).
Notation predict_model := (predict_model ns_of keep tr_transform).
Notation day := (fun t => day (ns_of t)).

(** * Offsets and capacities *)
Lemma fitted_locs p (yt : frame R) f : piecewise_fit ns_of p yt = Ok f -> List.length (pf_offset_loc f) = n_series_of yt /\ pf_n_series f = n_series_of yt /\ pf_params f = p.
Proof. intros H. destruct (piecewise_fit_inv _ _ _ _ H) as (ts & _ & _ & Hn & Hp & _ & Hs & _). destruct (suggest_lengths_any _ _ _ _ _ Hs). auto. Qed.

Lemma prior_sites t0 X1 yt s t Xe fh td e tv lt tr : trend_fit ns_of order t0 X1 yt s = (t, None) -> trend_transform ns_of t Xe fh = Ok td -> eval e (trend_predict t td) = Ok (tv, lt) ->
  (forall n x, In (n, x) lt -> dict_get tr n = Some x) ->
  (forall locs sg, offset_options t locs sg -> List.length locs = n_series_of yt /\ offset_prior e tr locs sg) /\ (forall d, capacity_option t d -> capacity_prior e tr (n_series_of yt) d).
Proof.
  intros HT Td E All. destruct t as [p cap b f| |]; [|split; intros; contradiction..].
  assert (PF : exists f0, f = Some f0 /\ piecewise_fit ns_of p yt = Ok f0).
  { destruct t0 as [p0 c0 b0 f0| |]; cbn [trend_fit] in HT; [|discriminate|destruct (fit _ _ _ _) in HT; discriminate].
    destruct (piecewise_fit ns_of p0 yt) as [f'|] eqn:PF; [|discriminate]. injection HT as <- <- <- <-. eauto. }
  destruct PF as (f0 & -> & PF). destruct (fitted_locs _ _ _ PF) as (Lo & Ln & Lp).
  cbn [trend_transform] in Td. inv_bind Td. cbn [attr bind] in Td. injection Td as <-. cbn [trend_predict] in E.
  destruct (piecewise_sites _ _ _ _ _ _ E) as ((locs & Eo & Io) & Ic). split.
  - intros locs' sg [O1 O2]. assert (locs' = locs) as -> by (apply map_XF_inj; congruence). split.
    + rewrite <- Lo, Eo. now rewrite map_length.
    + unfold offset_prior. rewrite <- O2, <- Lp. now apply All.
  - intros d [O1 O2]. unfold capacity_prior. rewrite <- O2, <- Ln. apply All, Ic. congruence.
Qed.

Lemma predict_trend_any c ob y X ob' (f : fitted (P := P)) : fit_forecaster c ob y X = (ob', Ok f) -> clean_config c ->
  forall ob2 y2 X2 fh m, predict_model c ob2 f y2 X2 fh = Ok m ->
  exists Xe ts td, trend_transform ns_of (o_trend ob2) Xe ts = Ok td /\
    forall e o tr, run e [] m = Ok (o, tr) -> exists tv lt, eval e (trend_predict (o_trend ob2) td) = Ok (tv, lt) /\
      dict_get tr "trend" = Some (SDet tv) /\ forall n x, In (n, x) lt -> dict_get tr n = Some x.
Proof.
  intros H C ob2 y2 X2 fh m Hm.
  destruct (max_time (if c_hier c then map snd (p_index (ft_prepared f)) else map r_time (f_rows y2))) as [cutoff|] eqn:Hcut.
  - destruct (predict_trend ns_of order keep tr_fit_transform tr_transform svi_run nuts_run latent_sites _ _ _ _ _ _ H C _ _ _ _ _ _ Hm Hcut) as (Xe & td & Q). eauto.
  - exfalso. unfold ForecasterSpec.predict_model in Hm. destruct (c_hier c).
    + unfold hierarchical_predict_model in Hm. rewrite Hcut in Hm. discriminate.
    + unfold univariate_predict_model in Hm. rewrite Hcut in Hm. discriminate.
Qed.

(** one configured sample for the whole panel *)
Theorem c103_priors c ob y X ob' (f : fitted (P := P)) : fit_forecaster c ob y X = (ob', Ok f) -> clean_config c ->
  (c_hier c = false -> f_levels y = 0) -> (c_hier c = true -> f_levels y <> 0 /\ frame_wf y /\ forall r, In r (f_rows y) -> ~ In "__total" (r_path r)) ->
  forall n, n = (if c_hier c then List.length (series_ids y) else 1) ->
  forall y2 X2 fh m e o tr, predict_model c ob' f y2 X2 fh = Ok m -> run e [] m = Ok (o, tr) ->
  (forall locs sg, offset_options (o_trend ob') locs sg -> List.length locs = n /\ offset_prior e tr locs sg) /\ (forall d, capacity_option (o_trend ob') d -> capacity_prior e tr n d).
Proof.
  intros HF C HU HH n Hn y2 X2 fh m e o tr Hm RU. destruct (predict_trend_any _ _ _ _ _ _ HF C _ _ _ _ _ Hm) as (Xe & ts & td & Td & Q). destruct (Q _ _ _ RU) as (tv & lt & E & _ & All).
  assert (FT : exists t0 X1 yt s, trend_fit ns_of order t0 X1 yt s = (o_trend ob', None) /\ n_series_of yt = n).
  { destruct (c_hier c) eqn:Hc.
    - destruct (HH eq_refl) as (L & W & NT). apply fit_forecaster_inv in HF. destruct HF as (s & ys & p & m' & post & _ & HY & HF & _ & _).
      pose proof (CompleteFacts.scale_y_wf _ _ _ _ W HY) as WS. apply scale_y_index in HY. destruct HY as [IY LY].
      assert (RP : map r_path (f_rows ys) = map r_path (f_rows y)) by (unfold index_of in IY; apply (f_equal (map fst)) in IY; rewrite !map_map in IY; exact IY).
      assert (NTS : forall r, In r (f_rows ys) -> ~ In "__total" (r_path r)).
      { intros r Hr. assert (I : In (r_path r) (map r_path (f_rows y))) by (rewrite <- RP; now apply in_map). apply in_map_iff in I as (r' & <- & I). now apply NT. }
      destruct (hierarchical_setup _ _ _ _ _ _ _ _ _ _ _ _ HF Hc ltac:(congruence) WS NTS) as (tensor & X2' & t0 & td' & data & _ & HT & _ & _ & RY & _).
      exists t0, (Some X2'), (sort_index ys), (scale_number s). split; [exact HT|].
      unfold n_series_of. change (f_levels (sort_index ys)) with (f_levels ys). rewrite LY. destruct (f_levels y) as [|k]; [congruence|]. rewrite sort_index_ids. unfold series_ids. now rewrite RP, Hn.
    - destruct (univariate_trend_fit ns_of order keep tr_fit_transform svi_run nuts_run latent_sites _ _ _ _ _ _ HF Hc) as (t0 & X1 & yt & HT & LT & _). exists t0, X1, yt, 1%R. split; [exact HT|].
      unfold n_series_of. now rewrite LT, (HU eq_refl), Hn. }
  destruct FT as (t0 & X1 & yt & s & HT & <-). exact (prior_sites _ _ _ _ _ _ _ _ _ _ _ _ HT Td E All).
Qed.

(** * Training *)
Section Value.
Variables (t t0 : trend) (X1 : option (frame R)) (yt : frame R) (s iv rg : R) (lg : bool) (K n : nat) (ds : list Z).
Hypothesis HT : trend_fit ns_of order t0 X1 yt s = (t, None).
Hypothesis HO : piecewise_options t iv rg lg.
Hypothesis HI : (0 < iv)%R.
Hypothesis HD : increasing (map day ds).
Hypothesis HK : changepoint_count (List.length ds) iv rg K.
Hypothesis HN : n_series_of yt = n.
Hypothesis HTi : time_ids yt = ds.
Hypothesis HR : f_levels yt <> 0 -> f_rows yt <> [].

Lemma trend_value Xe fh td e tv lt tr : trend_transform ns_of t Xe fh = Ok td -> (f_levels yt <> 0 -> NoDup fh) -> eval e (trend_predict t td) = Ok (tv, lt) ->
  (forall n x, In (n, x) lt -> dict_get tr n = Some x) ->
  (forall i j u, i < n -> nth_error fh j = Some u -> nth_error (a_flat tv) (i * List.length fh + j) = Some (trend_at e lg K iv i (steps (map day ds) (day u)))) /\
  forall sg, prior_scale_option t sg -> laplace_prior tr (n * K) sg.
Proof.
  intros Td Nd E All. destruct (options_trend ns_of order _ _ _ _ _ _ _ _ HT HO) as (p & cap & b & f0 & Et & PF & PI & PR & ->). rewrite Et in Td, E. cbn [trend_transform] in Td. inv_bind Td. cbn [attr bind] in Td. injection Td as <-. cbn [trend_predict] in E.
  rewrite <- HTi in HD, HK. rewrite <- HTi. split.
  - assert (Y : yields e (piecewise_prog cap f0 (piecewise_transform ns_of f0 fh)) tv) by (apply eval_yields; eauto).
    destruct (piecewise_formula ns_of _ _ _ _ _ _ _ _ _ PF PI PR HI HD HR Nd Y) as (K' & CK & V). rewrite (count_unique _ _ _ _ _ HK CK). intros i j u Hi Hj. apply V; [now rewrite HN|exact Hj].
  - intros sg Sg. rewrite Et in Sg. cbn in Sg. destruct (piecewise_priors ns_of _ _ _ _ _ _ _ _ _ _ _ PF PI PR Sg HI HD E) as (K' & v & CK & V).
    rewrite (count_unique _ _ _ _ _ HK CK), <- HN. exists v. now apply All.
Qed.
End Value.

Notation infer := (infer svi_run nuts_run latent_sites).
Theorem c103_training c ob y X ob' (f : fitted (P := P)) iv rg lg K : fit_forecaster c ob y X = (ob', Ok f) -> c_hier c = false -> f_levels y = 0 -> clean_config c ->
  piecewise_options (o_trend ob') iv rg lg -> (0 < iv)%R ->
  forall ds, map r_time (f_rows y) = ds -> increasing (map day ds) -> changepoint_count (List.length ds) iv rg K ->
  exists ys m, scale_y (discrete c) (ft_scale f) y = Ok ys /\ fit_data c ob (ft_scale f) ys X = (ob', Ok (ft_prepared f, m)) /\ infer (engine_of c) m = Ok (ft_posterior f) /\
  forall e o tr, run e [] m = Ok (o, tr) ->
  (exists tv, dict_get tr "trend" = Some (SDet tv) /\ forall j t, nth_error ds j = Some t -> nth_error (a_flat tv) j = Some (trend_at e lg K iv 0 (steps (map day ds) (day t)))) /\
  (forall sg, prior_scale_option (o_trend ob') sg -> laplace_prior tr K sg) /\
  (forall locs sg, offset_options (o_trend ob') locs sg -> List.length locs = 1 /\ offset_prior e tr locs sg) /\ (forall d, capacity_option (o_trend ob') d -> capacity_prior e tr 1 d).
Proof.
  intros HF Hc L C HO HI ds Hds Inc HK. pose proof (fit_forecaster_inv _ _ _ _ _ _ _ _ _ _ _ _ _ HF) as (s & ys & p & m & post & _ & HY & HD & HP & Ef).
  exists ys, m. rewrite Ef. cbn [ft_scale ft_prepared ft_posterior]. do 3 (split; [assumption|]). intros e o tr RU.
  destruct (fit_effects_clean _ _ _ _ _ _ _ _ _ _ _ _ HD C) as (C1 & C2 & HX).
  assert (UD := HD). unfold Forecaster.fit_data in UD. rewrite Hc in UD. apply univariate_fit_inv in UD. destruct UD as (t0 & t & yt & X1 & Xe & td & data & _ & HDv & HT & _ & _ & Et & Td & _ & _ & _ & _ & Em).
  apply scale_y_index in HY. destruct HY as [IY LY].
  assert (IR : map r_time (f_rows ys) = map r_time (f_rows y)) by (unfold index_of in IY; apply (f_equal (map snd)) in IY; rewrite !map_map in IY; exact IY).
  assert (YT : f_levels yt = f_levels ys /\ map r_time (f_rows yt) = map r_time (f_rows ys)).
  { destruct (discrete c); [|injection HDv as <-; auto]. unfold divide_target in HDv. destruct s; (injection HDv as <- || discriminate); cbn [map_vals f_levels f_rows]; rewrite map_map; cbn [r_time]; auto. }
  destruct YT as [LT TT].
  assert (ND : NoDup ds) by (now apply days_nodup in Inc).
  assert (TI : time_ids yt = ds) by (unfold time_ids; rewrite TT, IR, Hds; now apply times_unique_id).
  assert (TY : time_ids ys = ds) by (unfold time_ids; rewrite IR, Hds; now apply times_unique_id).
  rewrite TY in Td. rewrite Em in RU. destruct (trend_recorded_any _ _ _ _ _ _ _ _ _ _ HX C1 C2 RU) as (tv & lt & E & G & All).
  assert (L0 : f_levels yt = 0) by congruence. assert (N1 : n_series_of yt = 1) by (unfold n_series_of; now rewrite L0).
  rewrite <- Et in HT, Td, E.
  destruct (trend_value _ _ _ _ _ _ _ _ _ _ _ HT HO HI Inc HK N1 TI ltac:(congruence) _ _ _ _ _ _ _ Td ltac:(congruence) E All) as [V Pl].
  destruct (prior_sites _ _ _ _ _ _ _ _ _ _ _ _ HT Td E All) as [Po Pc]. rewrite N1 in Po, Pc.
  split; [exists tv; split; [exact G|]; intros j u Hj; exact (V 0 j u ltac:(lia) Hj)|].
  split; [intros sg Hsg; specialize (Pl sg Hsg); now rewrite Nat.mul_1_l in Pl|]. auto.
Qed.

Theorem c103_panel_training c ob y X ob' (f : fitted (P := P)) iv rg lg K : fit_forecaster c ob y X = (ob', Ok f) -> c_hier c = true ->
  f_levels y <> 0 -> frame_wf y -> (forall r, In r (f_rows y) -> ~ In "__total" (r_path r)) -> balanced y -> clean_config c ->
  piecewise_options (o_trend ob') iv rg lg -> (0 < iv)%R ->
  forall ds n, StronglySorted Z.lt ds -> time_ids y = ds -> increasing (map day ds) -> changepoint_count (List.length ds) iv rg K -> List.length (series_ids y) = n ->
  exists ys m, scale_y (discrete c) (ft_scale f) y = Ok ys /\ fit_data c ob (ft_scale f) ys X = (ob', Ok (ft_prepared f, m)) /\ infer (engine_of c) m = Ok (ft_posterior f) /\
  forall e o tr, run e [] m = Ok (o, tr) ->
  (exists tv, dict_get tr "trend" = Some (SDet tv) /\ forall i j t, i < n -> nth_error ds j = Some t ->
    nth_error (a_flat tv) (i * List.length ds + j) = Some (trend_at e lg K iv i (steps (map day ds) (day t)))) /\
  (forall sg, prior_scale_option (o_trend ob') sg -> laplace_prior tr (n * K) sg) /\
  (forall locs sg, offset_options (o_trend ob') locs sg -> List.length locs = n /\ offset_prior e tr locs sg) /\ (forall d, capacity_option (o_trend ob') d -> capacity_prior e tr n d).
Proof.
  intros HF Hc L W NT B C HO HI ds n S TI Inc HK Hn. pose proof (fit_forecaster_inv _ _ _ _ _ _ _ _ _ _ _ _ _ HF) as (s & ys & p & m & post & _ & HY & HD & HP & Ef).
  exists ys, m. rewrite Ef. cbn [ft_scale ft_prepared ft_posterior]. do 3 (split; [assumption|]). intros e o tr RU.
  destruct (fit_effects_clean _ _ _ _ _ _ _ _ _ _ _ _ HD C) as (C1 & C2 & HX).
  assert (Dt : forall t, In t ds <-> In t (map r_time (f_rows y))) by (intros t; rewrite <- TI; unfold time_ids; apply times_unique_In).
  assert (WS := CompleteFacts.scale_y_wf _ _ _ _ W HY). apply scale_y_index in HY. destruct HY as [IY LY].
  assert (RP : map r_path (f_rows ys) = map r_path (f_rows y)) by (unfold index_of in IY; apply (f_equal (map fst)) in IY; rewrite !map_map in IY; exact IY).
  assert (IR : map r_time (f_rows ys) = map r_time (f_rows y)) by (unfold index_of in IY; apply (f_equal (map snd)) in IY; rewrite !map_map in IY; exact IY).
  assert (NTS : forall r, In r (f_rows ys) -> ~ In "__total" (r_path r)).
  { intros r Hr. assert (I : In (r_path r) (map r_path (f_rows y))) by (rewrite <- RP; now apply in_map). apply in_map_iff in I as (r' & <- & I). now apply NT. }
  destruct (hierarchical_trend_fit ns_of order keep tr_fit_transform svi_run nuts_run latent_sites _ _ _ _ _ _ ds HF Hc L W NT B S Dt) as (t0 & X1 & yt & s' & HT & RY & NS & TT & LV).
  destruct (hierarchical_setup _ _ _ _ _ _ _ _ _ _ _ _ HD Hc ltac:(congruence) WS NTS) as (tensor & X2' & t0' & td & data & _ & _ & Td & _ & _ & Em).
  assert (TY : time_ids ys = ds) by (rewrite <- TI; unfold time_ids; now rewrite IR).
  rewrite TY in Td. 
  assert (RU' : run e [] (model_call c s p (o_trend ob') td (Some (arr_of_data 1 (D3 tensor))) (Some data)) = Ok (o, tr)).
  { unfold model_call. rewrite Hc. rewrite Em in RU. exact RU. }
  destruct (trend_recorded_any _ _ _ _ _ _ _ _ _ _ HX C1 C2 RU') as (tv & lt & E & G & All).
  assert (ND : NoDup ds) by (now apply days_nodup in Inc). rewrite Hn in NS.
  destruct (trend_value _ _ _ _ _ _ _ _ _ _ _ HT HO HI Inc HK NS TT (fun _ => RY) _ _ _ _ _ _ _ Td (fun _ => ND) E All) as [V Pl].
  destruct (prior_sites _ _ _ _ _ _ _ _ _ _ _ _ HT Td E All) as [Po Pc]. rewrite NS in Po, Pc.
  split; [exists tv; split; [exact G|exact V]|]. split; [exact Pl|]. auto.
Qed.
End Any.
