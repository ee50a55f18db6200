(** The components of concrete forecasts. *)
From Coq Require Import Reals Lra String Bool ZArith List Sorted Permutation Lia.
From Verif.Model Require Import Base Num XFloat Regex Frame Arr Expand Aggregate Scale Prog Likelihood Effect Trend TrendProg Engine Predict Forecaster.
From Verif.Spec Require Import RegexSpec FrameSpec ScaleSpec TrendSpec ProgSpec EffectSpec ForecasterSpec AlignSpec SiteSpec ShapeSpec OverlapSpec ResponseSpec.
From Verif.Facts Require Import BaseFacts NumFacts ForecasterFacts ForecasterInv ForecasterProps EffectExamples ForecasterExamples EngineExamples HistoryExamples AlignExamples ComponentExamples CounterExamples OverlapExamples TotalExamples
  DocsExamples EffectFacts ResponseForecaster.
Import ListNotations.
Local Open Scope string_scope.

Lemma docs_covers : covers Xd [0; 7; 14]%Z.
Proof. reflexivity. Qed.
Lemma docs_order : in_order [0; 7; 14]%Z.
Proof. repeat constructor. Qed.
Lemma docs_wf : frame_wf Xd.
Proof. intros r [<-|[<-|[<-|[]]]]; split; reflexivity. Qed.
Lemma docs_first : first_date (map r_time (f_rows ex_y)) 0.
Proof. split; [cbn; auto|]. cbn. intros t [<-|[<-|[<-|[]]]]; lia. Qed.
Lemma docs_y_wf : frame_wf ex_y.
Proof. intros r [<-|[<-|[<-|[]]]]; split; reflexivity. Qed.
Lemma docs_x_wf : frame_wf Xu.
Proof. intros r [<-|[<-|[<-|[]]]]; split; reflexivity. Qed.
Lemma docs_transformer s (Z : frame R) s' Z' : frame_wf Z -> ex_fit_transform s Z = (s', Ok Z') -> frame_wf Z'.
Proof. unfold ex_fit_transform. intros W H. injection H as <- H. destruct s; [injection H as <-; exact W|]. eapply AlignFacts.select_wf; eauto. Qed.
Lemma docs_piecewise trend : In trend ["linear"; "linear_raw"; "logistic"] -> forall ob f, total_fit trend "normal" "mcmc" = (ob, Ok f) -> scalar_piecewise (o_trend ob).
Proof.
  intros HT ob f HF. destruct (named_options ex_ns sorted_sets keep_all ex_fit_transform ex_svi ex_nuts comp_latent _ _ _ _ _ _ trend HF eq_refl HT) as [HO _].
  destruct (o_trend ob); cbn in *; try contradiction. destruct HO as (-> & -> & _). eauto.
Qed.

Lemma docs_no_transformer trend ob f : total_fit trend "normal" "mcmc" = (ob, Ok f) -> run_transform ex_transform ob Xd = Ok Xd.
Proof.
  intros H. apply fit_forecaster_inv in H. destruct H as (s & ys & p & m & post & _ & HY & HF & _ & ->). unfold fit_data in HF. change (c_hier (total_config trend "normal" "mcmc")) with false in HF. cbv iota in HF.
  apply univariate_fit_inv in HF. destruct HF as (tr0 & t & yt & X1 & Xe & td & data & _ & _ & _ & HR & _). apply run_fit_transform_inv in HR as [_ HR]. cbn [o_transformer no_objects] in HR. destruct HR as [-> _]. reflexivity.
Qed.

(** the listed effects that have a column take part *)
Lemma docs_used trend ob f l : total_fit trend "normal" "mcmc" = (ob, Ok f) -> In l [linear_tv; season; hill_web] -> exists ef, In (l_name l, ef) (p_effects (ft_prepared f)).
Proof.
  intros H HI. apply fit_forecaster_inv in H. destruct H as (s & ys & p & m & post & _ & HY & HF & _ & ->). cbn [ft_prepared].
  assert (NY : f_rows ys <> []). { apply scale_y_index in HY as [HY _]. intros E. unfold index_of in HY. rewrite E in HY. discriminate. }
  destruct (c24_univariate ex_ns sorted_sets keep_all ex_fit_transform _ _ _ _ _ _ _ _ HF eq_refl NY) as (Xe & HC & HK). specialize (HC eq_refl). cbv beta iota in HC.
  assert (K : In (l_name l) (dict_keys (p_effects p))).
  { apply HK. left. exists l. split; [exact HI|]. split; [reflexivity|]. destruct HI as [<-|[<-|[<-|[]]]]; [right; exists "tv"|left; reflexivity|right; exists "web"]; rewrite HC; (split; [simpl; auto|]).
    - apply (proj1 (match_columns_In ["tv"; "web"] (l_regex linear_tv) ["tv"] ltac:(vm_compute; reflexivity) "tv")); simpl; auto.
    - apply (proj1 (match_columns_In ["tv"; "web"] (l_regex hill_web) ["web"] ltac:(vm_compute; reflexivity) "web")); simpl; auto. }
  unfold dict_keys in K. apply in_map_iff in K as ([n ef] & <- & K). exists ef. exact K.
Qed.

Lemma docs_columns trend ob f ef cols : total_fit trend "normal" "mcmc" = (ob, Ok f) -> In ("sat", ef, cols) (p_fitted (ft_prepared f)) -> forall x, In x cols -> x = "web".
Proof.
  intros H. apply fit_forecaster_inv in H. destruct H as (s & ys & p & m & post & _ & HY & HF & _ & ->). cbn [ft_prepared].
  destruct (c40 ex_ns sorted_sets keep_all ex_fit_transform _ _ _ _ _ _ _ _ HF) as (Xe & main & dflt & HC & EQ & F & D). specialize (HC eq_refl eq_refl). cbv beta iota in HC. rewrite EQ. intros I.
  apply in_app_iff in I as [I|I].
  - apply Forall2_In_both in F. destruct (proj2 F _ I) as (l & Hl & NM & C & _). cbn [fe_name fe_cols fst snd] in *.
    assert (E : l = hill_web) by (destruct Hl as [<-|[<-|[<-|[]]]]; [discriminate|discriminate|reflexivity]). subst l. intros x Hx. apply C in Hx. rewrite HC in Hx.
    apply (proj2 (match_columns_In ["tv"; "web"] (l_regex hill_web) ["web"] ltac:(vm_compute; reflexivity) x)) in Hx. destruct Hx as [<-|[]]. reflexivity.
  - destruct D as [[-> _]|(g & -> & NM & _)]; [contradiction|]. destruct I as [->|[]]. discriminate.
Qed.

(** the saturation component for the parameters [one]: u / (1 + u) *)
Lemma docs_saturation trend : In trend ["linear"; "linear_raw"; "logistic"] -> forall ob f m o tr, total_fit trend "normal" "mcmc" = (ob, Ok f) -> predict_model ex_ns keep_all ex_transform (docs_config trend) ob f ex_y (Some Xd) hd3 = Ok m ->
  run one [] m = Ok (o, tr) -> exists w, dict_get tr "sat" = Some (SDet w) /\ nth_error (a_flat w) 0 = Some (10 / 11)%R /\ nth_error (a_flat w) 1 = Some (20 / 21)%R /\ nth_error (a_flat w) 2 = Some (30 / 31)%R.
Proof.
  intros HT ob f m o tr HF HM RU. destruct (docs_used trend ob f hill_web HF) as (ef & HU); [simpl; auto|]. change (l_name hill_web) with "sat" in HU.
  assert (HW : forall Z, Some Xu = Some Z -> frame_wf Z) by (intros Z [= <-]; exact docs_x_wf).
  pose proof (docs_no_transformer _ _ _ HF) as NT.
  destruct (c104_univariate ex_ns sorted_sets keep_all ex_fit_transform ex_transform ex_svi ex_nuts comp_latent _ _ _ _ _ _ 0 HF eq_refl eq_refl docs_y_wf (total_clean _ _ _) (or_introl (docs_piecewise trend HT ob f HF))
    HW docs_transformer docs_first ex_y (Some Xd) hd3 m 7 [0; 7; 14]%Z Xd HM eq_refl eq_refl NT docs_covers docs_wf eq_refl ltac:(discriminate) docs_order one o tr RU) as (tv & _ & V).
  destruct (V _ _ HU) as (ef0 & cols & w & CF & IN & G & A & _). exists w. split; [exact G|].
  assert (E0 : ef0 = l_effect hill_web).
  { destruct CF as [(effects & regex & [= <-] & I)|[E _]]; [|discriminate]. destruct I as [I|[I|[I|[]]]]; [discriminate|discriminate|now injection I as <- _]. }
  subst ef0. pose proof (docs_columns _ _ _ _ _ HF IN) as HC.
  assert (W : forall j t a u, nth_error [0; 7; 14]%Z j = Some t -> In (mkRow [] t [a; u]) (f_rows Xd) -> (0 < u)%R -> nth_error (a_flat w) j = Some (u / (1 + u))%R).
  { intros j t a u Hj Hr Hu. destruct (A j t _ Hj Hr eq_refl) as (x & trv & v & VA & _ & NV & AN). cbn [answers l_effect hill_web fst snd] in AN. destruct AN as (z & -> & AN & _).
    unfold values_at in VA. destruct cols as [|c [|c' cols]]; try discriminate. assert (c = "web") by (apply HC; simpl; auto). subst c. cbn in VA. injection VA as <-.
    rewrite NV. f_equal. rewrite AN; [|exact Hu|unfold parameter, one; lra]. cbn [modal]. unfold parameter, one. replace (u / 1)%R with u by field.
    rewrite Rpower_Ropp, Rpower_1 by exact Hu. field. lra. }
  split; [|split].
  - rewrite (W 0 0%Z 1%R 10%R eq_refl); [f_equal; lra|cbn; auto|lra].
  - rewrite (W 1 7%Z 2%R 20%R eq_refl); [f_equal; lra|cbn; auto|lra].
  - rewrite (W 2 14%Z 3%R 30%R eq_refl); [f_equal; lra|cbn; auto|lra].
Qed.

(** * two series with copied columns *)
Definition panel_trace ob (f : fitted (P := unit)) : option trace :=
  match predict_model ex_ns keep_all ex_transform two_config ob f ex_yh (Some ex_X2) (Relative [1; 2]%Z) with
  | Ok m => match run one [] m with Ok (_, tr) => Some tr | Err _ => None end
  | Err _ => None
  end.
Definition panel_ok (d : objects (TS := bool) * res (prepared * prog arr)) (s : scale) : Prop :=
  match d with
  | (ob, Ok (p, m)) => map fst (p_effects p) = ["tv"; "web"] /\ map fe_cols (p_fitted p) = [["tv_dup_a"; "tv_dup_b"]; ["web_dup_a"; "web_dup_b"]] /\
     match infer ex_svi ex_nuts two_latent (engine_of two_config) m with
     | Ok post => let tr := panel_trace ob (mkFitted s p post) in seen_in tr "tv" 0 = Some 1%R /\ seen_in tr "tv" 1 = Some 7%R /\ seen_in tr "tv" 2 = Some 0%R
     | _ => False
     end
  | _ => False
  end.
Lemma panel_data k1 k2 v0 v1 v2 v3 : panel_ok (fit_data ex_ns sorted_sets keep_all ex_fit_transform two_config (no_objects None)
  (STable [(["a"], k1); (["b"], k2)]) (two_by_two v0 v1 v2 v3) (Some ex_Xh)) (STable [(["a"], k1); (["b"], k2)]).
Proof.
  destruct (ex_piecewise v0 v1 v2 v3) as (a & b & rates & o1 & o2 & loc1 & loc2 & E).
  unfold fit_data. cbn [two_config c_hier]. unfold hierarchical_fit_data.
  change (loc_bottom_series (aggregate keep_all (two_by_two v0 v1 v2 v3))) with (Ok (two_by_two v0 v1 v2 v3)). cbv iota beta.
  change (series_to_tensor (two_by_two v0 v1 v2 v3)) with (Ok [[[v0]; [v1]]; [[v2]; [v3]]]). cbv iota beta.
  change (no_columns ex_Xh) with false. cbv iota. change (loc_bottom_series ex_Xh) with (Ok ex_Xh). cbv iota beta.
  change (run_fit_transform ex_fit_transform (no_objects None) ex_Xh) with (no_objects None, Ok ex_Xh). cbv iota beta.
  change (negb (no_columns ex_Xh)) with true. cbv iota.
  set (eb := expand_bottom _ _ _ _ ex_Xh). vm_compute in eb. unfold eb. cbn [bind]. clear eb.
  change (get_trend_model two_config (no_objects None)) with (@Ok trend (TPiecewise pw_params (DShifted (DHalfNormal (scalar (1 / 5)%R)) (11 / 10)%R) base_init None)).
  cbv iota beta. cbn [trend_fit]. rewrite E. cbv iota beta.
  cbn [trend_transform]. set (tr := trend_rows _ _ _). vm_compute in tr. unfold tr. clear tr. cbn [bind attr].
  set (fe := fit_effects _ _ _ _ _). vm_compute in fe. unfold fe. clear fe. cbn [bind].
  set (te := transform_effects _ _ _). vm_compute in te. unfold te. clear te. cbn [bind].
  set (ns := non_skipped _). vm_compute in ns. unfold ns. clear ns. cbn [bind].
  clear E. cbv zeta. split; [vm_compute; reflexivity|]. split; [vm_compute; reflexivity|]. vm_compute. repeat split; f_equal; ring.
Qed.

Lemma panel_example : exists ob f m o tr, two_fit = (ob, Ok f) /\ o_transformer ob = None /\ scalar_piecewise (o_trend ob) /\ max_time (map snd (p_index (ft_prepared f))) = Ok 1%Z /\
  predict_model ex_ns keep_all ex_transform two_config ob f ex_yh (Some ex_X2) (Relative [1; 2]%Z) = Ok m /\ run one [] m = Ok (o, tr) /\
  map fst (p_effects (ft_prepared f)) = ["tv"; "web"] /\ map fe_cols (p_fitted (ft_prepared f)) = [["tv_dup_a"; "tv_dup_b"]; ["web_dup_a"; "web_dup_b"]] /\
  seen_in (Some tr) "tv" 0 = Some 1%R /\ seen_in (Some tr) "tv" 1 = Some 7%R /\ seen_in (Some tr) "tv" 2 = Some 0%R.
Proof.
  unfold two_fit, fit_forecaster.
  assert (SE : exists k1 k2, set_y_scales (c_scale two_config) ex_yh = Ok (STable [(["a"], k1); (["b"], k2)])) by (do 2 eexists; reflexivity).
  destruct SE as (k1 & k2 & SE). rewrite SE. cbn [bind].
  assert (SY : exists v0 v1 v2 v3, scale_y (discrete two_config) (STable [(["a"], k1); (["b"], k2)]) ex_yh = Ok (two_by_two v0 v1 v2 v3)) by (do 4 eexists; reflexivity).
  destruct SY as (v0 & v1 & v2 & v3 & SY). rewrite SY. cbn [bind].
  pose proof (two_steps_data k1 k2 v0 v1 v2 v3) as OK. pose proof (panel_data k1 k2 v0 v1 v2 v3) as PD. unfold two_steps_ok in OK. unfold panel_ok in PD. destruct (fit_data _ _ _ _ _ _ _ _ _) as [ob [[p m]|]]; [|destruct OK].
  destruct OK as (O1 & O2 & O3 & O5). destruct PD as (D1 & D2 & D3). cbn [bind]. destruct (infer _ _ _ _ m) as [post|]; [|destruct O5]. cbn [bind]. destruct O5 as [B1 B2].
  unfold two_steps in B1. unfold panel_trace in D3. cbv zeta in D3. set (f := mkFitted _ p post) in *.
  destruct (predict_model _ _ _ _ ob f ex_yh (Some ex_X2) (Relative [1; 2]%Z)) as [m1|] eqn:E1; [|discriminate]. destruct (run one [] m1) as [[u1 tr1]|] eqn:R1; [|discriminate].
  exists ob, f, m1, u1, tr1. do 8 (split; [assumption || reflexivity|]). exact D3.
Qed.
Lemma panel_copyable : copyable [] (f_cols ex_Xh) (bottom_series ex_Xh).
Proof.
  assert (EB : bottom_series ex_Xh = [["a"]; ["b"]]) by reflexivity. rewrite EB. cbn [ex_Xh f_cols]. split; [repeat constructor; simpl; intuition discriminate|]. split.
  { repeat constructor; intros c Hc HM; simpl in Hc; repeat (destruct Hc as [<-|Hc]; [simpl in HM; intuition discriminate|]); destruct Hc. }
  split; [intros c s _ _ _ []|]. split.
  - intros c i c' i' [<-|[<-|[]]] [<-|[<-|[]]] [<-|[<-|[]]] [<-|[<-|[]]] H; try (vm_compute in H; discriminate); auto.
  - intros c i [<-|[<-|[]]] [<-|[<-|[]]] [H|[H|[]]]; vm_compute in H; discriminate.
Qed.
Lemma Xh_wf : frame_wf ex_Xh.
Proof. intros r Hr. cbn in Hr. repeat (destruct Hr as [<-|Hr]; [split; reflexivity|]). destruct Hr. Qed.
Lemma panel_first p : In p (bottom_series ex_Xh) -> first_date (dates ex_Xh p) 0.
Proof. intros [<-|[<-|[]]]; (split; [cbn; auto|]); cbn; intros t [<-|[<-|[]]]; lia. Qed.

(** * two series without exogenous data: a weekly seasonality *)
Definition weekly : listed := ("season", mk_fourier [7%R] [1] 1 "additive", None).
Definition week_config : config :=
  mkConfig true (TrendName "linear_raw") 25 (4 / 5) (1 / 1000) (1 / 10) (1 / 5) (11 / 10) (Some [weekly])
    None (1 / 20) "normal" None None 1 "mcmc" None 10 0 3 5 2.
Definition week_fit := fit_forecaster ex_ns sorted_sets keep_all ex_fit_transform ex_svi ex_nuts bare_latent week_config (no_objects None) ex_yh None.
Definition Xb0 : frame R := blank 1 [(["a"], 0%Z); (["a"], 1%Z); (["b"], 0%Z); (["b"], 1%Z)].
Definition Xb1 : frame R := blank 1 [(["a"], 2%Z); (["a"], 3%Z); (["b"], 2%Z); (["b"], 3%Z)].
Definition weekly_fitted : effect :=
  Fourier [7%R] [1] 1%R "additive" (mkBase (Some []) (Some true)) (Some (mkFF [(7%R, 1)] [(["a"], 0%Z); (["b"], 0%Z)]))
    (Some (mkExpander false ["sin_"; "cos_"] [["a"]; ["b"]] [("sin__dup_a", "sin_"); ("cos__dup_a", "cos_"); ("sin__dup_b", "sin_"); ("cos__dup_b", "cos_")]))
    (Some (Additive, mkBase (Some ["sin__dup_a"; "sin__dup_b"; "cos__dup_a"; "cos__dup_b"]) (Some true))).
Lemma weekly_fit s : fit_effects sorted_sets None [weekly] (Some Xb0) s = Ok [("season", weekly_fitted, [])].
Proof.
  assert (FF : fourier_fit [7%R] [1] (Some Xb0) = Ok (mkFF [(7%R, 1)] [(["a"], 0%Z); (["b"], 0%Z)])).
  { unfold fourier_fit. cbn [Datatypes.length Nat.eqb negb combine existsb fst snd]. unfold Rltb. destruct (Rlt_dec 7 (INR 1)) as [H|_]; [exfalso; simpl in H; lra|]. reflexivity. }
  unfold fit_effects. cbn [mapM]. unfold fit_one, weekly. cbn [match_columns bind].
  set (sc := select_columns _ _ _). vm_compute in sc. unfold sc. clear sc. cbn [bind].
  change (clone (mk_fourier [7%R] [1] 1 "additive")) with (mk_fourier [7%R] [1] 1 "additive").
  unfold fit. cbn. unfold Xb0, blank in FF. cbn in FF. rewrite FF. vm_compute. reflexivity.
Qed.
Definition week_steps ob (f : fitted (P := unit)) : bool :=
  match predict_model ex_ns keep_all ex_transform week_config ob f ex_yh None (Relative [1; 2]%Z) with
  | Ok m => match run one [] m with Ok _ => true | Err _ => false end
  | Err _ => false
  end.
Definition week_ok (d : objects (TS := bool) * res (prepared * prog arr)) (s : scale) : Prop :=
  match d with
  | (ob, Ok (p, m)) => scalar_piecewise (o_trend ob) /\ o_transformer ob = None /\ max_time (map snd (p_index p)) = Ok 1%Z /\ map fst (p_effects p) = ["season"] /\
     match infer ex_svi ex_nuts bare_latent (engine_of week_config) m with
     | Ok post => week_steps ob (mkFitted s p post) = true
     | _ => False
     end
  | _ => False
  end.
Lemma week_data k1 k2 v0 v1 v2 v3 : week_ok (fit_data ex_ns sorted_sets keep_all ex_fit_transform week_config (no_objects None)
  (STable [(["a"], k1); (["b"], k2)]) (two_by_two v0 v1 v2 v3) None) (STable [(["a"], k1); (["b"], k2)]).
Proof.
  destruct (ex_piecewise v0 v1 v2 v3) as (a & b & rates & o1 & o2 & loc1 & loc2 & E).
  unfold fit_data. cbn [week_config c_hier]. unfold hierarchical_fit_data.
  change (loc_bottom_series (aggregate keep_all (two_by_two v0 v1 v2 v3))) with (Ok (two_by_two v0 v1 v2 v3)). cbv iota beta.
  change (series_to_tensor (two_by_two v0 v1 v2 v3)) with (Ok [[[v0]; [v1]]; [[v2]; [v3]]]). cbv iota beta.
  match goal with |- context [loc_bottom_series ?x] => change (loc_bottom_series x) with (Ok Xb0) end. cbv iota beta.
  unfold run_fit_transform. change (o_transformer (no_objects None)) with (@None bool). cbv iota beta.
  change (no_columns Xb0) with true. cbv iota. cbn [negb].
  change (get_trend_model week_config (no_objects None)) with (@Ok trend (TPiecewise pw_params (DShifted (DHalfNormal (scalar (1 / 5)%R)) (11 / 10)%R) base_init None)).
  cbv iota beta. cbn [bind]. cbn [trend_fit]. rewrite E. cbv iota beta.
  cbn [trend_transform]. set (tr := trend_rows _ _ _). vm_compute in tr. unfold tr. clear tr. cbn [bind attr].
  change (effects_of week_config) with [weekly]. change (c_default week_config) with (@None effect). rewrite weekly_fit. cbn [bind].
  set (te := transform_effects _ _ _). vm_compute in te. unfold te. clear te. cbn [bind].
  set (ns := non_skipped _). vm_compute in ns. unfold ns. clear ns. cbn [bind].
  clear E. vm_compute. repeat split; eexists; reflexivity.
Qed.
Lemma week_example : exists ob f m o tr, week_fit = (ob, Ok f) /\ o_transformer ob = None /\ scalar_piecewise (o_trend ob) /\
  max_time (map snd (p_index (ft_prepared f))) = Ok 1%Z /\ map fst (p_effects (ft_prepared f)) = ["season"] /\
  predict_model ex_ns keep_all ex_transform week_config ob f ex_yh None (Relative [1; 2]%Z) = Ok m /\ run one [] m = Ok (o, tr).
Proof.
  unfold week_fit, fit_forecaster.
  assert (SE : exists k1 k2, set_y_scales (c_scale week_config) ex_yh = Ok (STable [(["a"], k1); (["b"], k2)])) by (do 2 eexists; reflexivity).
  destruct SE as (k1 & k2 & SE). rewrite SE. cbn [bind].
  assert (SY : exists v0 v1 v2 v3, scale_y (discrete week_config) (STable [(["a"], k1); (["b"], k2)]) ex_yh = Ok (two_by_two v0 v1 v2 v3)) by (do 4 eexists; reflexivity).
  destruct SY as (v0 & v1 & v2 & v3 & SY). rewrite SY. cbn [bind].
  pose proof (week_data k1 k2 v0 v1 v2 v3) as OK. unfold week_ok in OK. destruct (fit_data _ _ _ _ _ _ _ _ _) as [ob [[p m]|]]; [|destruct OK].
  destruct OK as (O1 & O2 & O3 & O4 & O5). cbn [bind]. destruct (infer _ _ _ _ m) as [post|]; [|destruct O5]. cbn [bind].
  unfold week_steps in O5. set (f := mkFitted _ p post) in *.
  destruct (predict_model _ _ _ _ ob f ex_yh None (Relative [1; 2]%Z)) as [m1|] eqn:E1; [|discriminate]. destruct (run one [] m1) as [[u1 tr1]|] eqn:R1; [|discriminate].
  exists ob, f, m1, u1, tr1. repeat (split; [assumption || reflexivity|]). assumption.
Qed.
Lemma week_panel : bare_panel ex_yh.
Proof. split; [discriminate|]. split; [discriminate|]. split; [exact yh_wf|exact yh_no_total]. Qed.
Lemma week_training : given_training None ex_yh Xb0.
Proof.
  right. split; [discriminate|]. split; [exact week_panel|]. eexists. split; [reflexivity|]. split; [|reflexivity]. repeat constructor.
Qed.
Lemma week_forecast : given_forecast None ex_yh [2; 3]%Z Xb1.
Proof.
  right. split; [discriminate|]. split; [exact week_panel|]. exists [["a"]; ["b"]]. split; [|reflexivity]. split; [repeat constructor; simpl; intuition discriminate|]. split; [repeat constructor|].
  intros p. split.
  - intros [<-|[<-|[]]]; (split; [reflexivity|]); intros i Hi; cbn in Hi; (destruct i; [|lia]); [exists (mkRow ["a"] 0 [1%R])|exists (mkRow ["b"] 0 [3%R])]; (split; [cbn; auto|reflexivity]).
  - intros [L H]. cbn in L. destruct p as [|x [|x' p]]; try discriminate. destruct (H 0 ltac:(cbn; lia)) as (r & Hr & Er). cbn in Hr, Er. destruct Hr as [<-|[<-|[<-|[<-|[]]]]]; cbn in Er; subst x; simpl; auto.
Qed.
Lemma week_clean : clean_config week_config.
Proof.
  split; [|exact I]. intros l [<-|[]]; (split; [|exact I]; split; [reflexivity|]; intros H; vm_compute in H; repeat (destruct H as [H|H]; [discriminate|]); destruct H).
Qed.
Lemma blank_wf0 : frame_wf Xb0 /\ frame_wf Xb1.
Proof. split; intros r Hr; cbn in Hr; repeat (destruct Hr as [<-|Hr]; [split; reflexivity|]); destruct Hr. Qed.

(** * two series and a transformer that keeps the column web only *)
Definition pick_fit := fit_forecaster ex_ns sorted_sets keep_all ex_fit_transform ex_svi ex_nuts two_latent two_config (no_objects (Some false)) ex_yh (Some ex_Xh).
Definition Xp0 : frame R := mkFrame 1 ["web"] [mkRow ["a"] 0 [10]; mkRow ["a"] 1 [20]; mkRow ["b"] 0 [30]; mkRow ["b"] 1 [40]]%R.
Definition X_pick : frame R := mkFrame 1 ["tv"; "web"] [mkRow ["a"] 2 [1; 5]; mkRow ["a"] 3 [7; 6]; mkRow ["b"] 2 [0; 7]; mkRow ["b"] 3 [0; 8]]%R.
Definition Xp1 : frame R := mkFrame 1 ["web"] [mkRow ["a"] 2 [5]; mkRow ["a"] 3 [6]; mkRow ["b"] 2 [7]; mkRow ["b"] 3 [8]]%R.
Definition pick_trace ob (f : fitted (P := unit)) : option trace :=
  match predict_model ex_ns keep_all ex_transform two_config ob f ex_yh (Some X_pick) (Relative [1; 2]%Z) with
  | Ok m => match run one [] m with Ok (_, tr) => Some tr | Err _ => None end
  | Err _ => None
  end.
Definition pick_ok (d : objects (TS := bool) * res (prepared * prog arr)) (s : scale) : Prop :=
  match d with
  | (ob, Ok (p, m)) => scalar_piecewise (o_trend ob) /\ run_transform ex_transform ob X_pick = Ok Xp1 /\ max_time (map snd (p_index p)) = Ok 1%Z /\
     map fst (p_effects p) = ["web"] /\ map fe_cols (p_fitted p) = [[]; ["web_dup_a"; "web_dup_b"]] /\
     match infer ex_svi ex_nuts two_latent (engine_of two_config) m with
     | Ok post => let tr := pick_trace ob (mkFitted s p post) in seen_in tr "web" 0 = Some 5%R /\ seen_in tr "web" 1 = Some 6%R /\ seen_in tr "web" 2 = Some 7%R
     | _ => False
     end
  | _ => False
  end.
Lemma pick_data k1 k2 v0 v1 v2 v3 : pick_ok (fit_data ex_ns sorted_sets keep_all ex_fit_transform two_config (no_objects (Some false))
  (STable [(["a"], k1); (["b"], k2)]) (two_by_two v0 v1 v2 v3) (Some ex_Xh)) (STable [(["a"], k1); (["b"], k2)]).
Proof.
  destruct (ex_piecewise v0 v1 v2 v3) as (a & b & rates & o1 & o2 & loc1 & loc2 & E).
  unfold fit_data. cbn [two_config c_hier]. unfold hierarchical_fit_data.
  change (loc_bottom_series (aggregate keep_all (two_by_two v0 v1 v2 v3))) with (Ok (two_by_two v0 v1 v2 v3)). cbv iota beta.
  change (series_to_tensor (two_by_two v0 v1 v2 v3)) with (Ok [[[v0]; [v1]]; [[v2]; [v3]]]). cbv iota beta.
  change (no_columns ex_Xh) with false. cbv iota. change (loc_bottom_series ex_Xh) with (Ok ex_Xh). cbv iota beta.
  change (run_fit_transform ex_fit_transform (no_objects (Some false)) ex_Xh) with (no_objects (Some false), Ok Xp0). cbv iota beta.
  change (negb (no_columns Xp0)) with true. cbv iota.
  set (eb := expand_bottom _ _ _ _ Xp0). vm_compute in eb. unfold eb. cbn [bind]. clear eb.
  change (get_trend_model two_config (no_objects (Some false))) with (@Ok trend (TPiecewise pw_params (DShifted (DHalfNormal (scalar (1 / 5)%R)) (11 / 10)%R) base_init None)).
  cbv iota beta. cbn [trend_fit]. rewrite E. cbv iota beta.
  cbn [trend_transform]. set (tr := trend_rows _ _ _). vm_compute in tr. unfold tr. clear tr. cbn [bind attr].
  set (fe := fit_effects _ _ _ _ _). vm_compute in fe. unfold fe. clear fe. cbn [bind].
  set (te := transform_effects _ _ _). vm_compute in te. unfold te. clear te. cbn [bind].
  set (ns := non_skipped _). vm_compute in ns. unfold ns. clear ns. cbn [bind].
  clear E. cbv zeta. split; [vm_compute; repeat split; eexists; reflexivity|]. do 4 (split; [vm_compute; reflexivity|]). vm_compute. repeat split; f_equal; ring.
Qed.
Lemma pick_example : exists ob f m o tr, pick_fit = (ob, Ok f) /\ run_transform ex_transform ob X_pick = Ok Xp1 /\ scalar_piecewise (o_trend ob) /\ max_time (map snd (p_index (ft_prepared f))) = Ok 1%Z /\
  predict_model ex_ns keep_all ex_transform two_config ob f ex_yh (Some X_pick) (Relative [1; 2]%Z) = Ok m /\ run one [] m = Ok (o, tr) /\
  map fst (p_effects (ft_prepared f)) = ["web"] /\ map fe_cols (p_fitted (ft_prepared f)) = [[]; ["web_dup_a"; "web_dup_b"]] /\
  seen_in (Some tr) "web" 0 = Some 5%R /\ seen_in (Some tr) "web" 1 = Some 6%R /\ seen_in (Some tr) "web" 2 = Some 7%R.
Proof.
  unfold pick_fit, fit_forecaster.
  assert (SE : exists k1 k2, set_y_scales (c_scale two_config) ex_yh = Ok (STable [(["a"], k1); (["b"], k2)])) by (do 2 eexists; reflexivity).
  destruct SE as (k1 & k2 & SE). rewrite SE. cbn [bind].
  assert (SY : exists v0 v1 v2 v3, scale_y (discrete two_config) (STable [(["a"], k1); (["b"], k2)]) ex_yh = Ok (two_by_two v0 v1 v2 v3)) by (do 4 eexists; reflexivity).
  destruct SY as (v0 & v1 & v2 & v3 & SY). rewrite SY. cbn [bind].
  pose proof (pick_data k1 k2 v0 v1 v2 v3) as PD. unfold pick_ok in PD. destruct (fit_data _ _ _ _ _ _ _ _ _) as [ob [[p m]|]]; [|destruct PD].
  destruct PD as (O1 & O2 & O3 & D1 & D2 & D3). cbn [bind]. destruct (infer _ _ _ _ m) as [post|]; [|destruct D3]. cbn [bind].
  unfold pick_trace in D3. cbv zeta in D3. set (f := mkFitted _ p post) in *.
  destruct (predict_model _ _ _ _ ob f ex_yh (Some X_pick) (Relative [1; 2]%Z)) as [m1|] eqn:E1; [|destruct D3; discriminate]. destruct (run one [] m1) as [[u1 tr1]|] eqn:R1; [|destruct D3; discriminate].
  exists ob, f, m1, u1, tr1. do 8 (split; [assumption || reflexivity|]). exact D3.
Qed.
Lemma pick_training : given_training (Some ex_Xh) ex_yh ex_Xh /\ given_forecast (Some X_pick) ex_yh [2; 3]%Z X_pick.
Proof. split; left; eexists; (split; [reflexivity|]); (split; [discriminate|reflexivity]). Qed.
Lemma pick_copyable : copyable [] (f_cols Xp0) (series_ids Xp0).
Proof.
  assert (EB : series_ids Xp0 = [["a"]; ["b"]]) by reflexivity. rewrite EB. cbn [Xp0 f_cols]. split; [repeat constructor; simpl; intuition discriminate|]. split.
  { repeat constructor; intros c Hc HM; simpl in Hc; repeat (destruct Hc as [<-|Hc]; [simpl in HM; intuition discriminate|]); destruct Hc. }
  split; [intros c s _ _ _ []|]. split.
  - intros c i c' i' [<-|[]] [<-|[]] [<-|[<-|[]]] [<-|[<-|[]]] H; try (vm_compute in H; discriminate); auto.
  - intros c i [<-|[]] [<-|[<-|[]]] [H|[]]; vm_compute in H; discriminate.
Qed.
Lemma pick_wf : frame_wf Xp0 /\ frame_wf Xp1.
Proof. split; intros r Hr; cbn in Hr; repeat (destruct Hr as [<-|Hr]; [split; reflexivity|]); destruct Hr. Qed.
