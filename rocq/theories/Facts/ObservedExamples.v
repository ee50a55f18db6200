(** The observation model of concrete fits and forecasts. *)
From Coq Require Import Reals Lra ZArith String Bool List Lia Permutation Sorted.
From Verif.Model Require Import Base Num XFloat Regex Frame Arr Expand Aggregate Scale Predict Prog Likelihood Trend Effect TrendProg Engine Forecaster.
From Verif.Spec Require Import FrameSpec ScaleSpec ProgSpec PredictSpec ForecasterSpec AlignSpec ShapeSpec SiteSpec ComponentSpec CounterSpec OverlapSpec ResponseSpec ObservedSpec.
From Verif.Facts Require Import NumFacts EffectExamples ForecasterExamples EngineExamples HistoryExamples AlignExamples ComponentExamples CounterExamples OverlapExamples ResponseExamples.
From Verif.Facts Require TrendExamples.
Import ListNotations.
Local Open Scope string_scope.

(** * one series: training *)
Definition comp_training likelihood : option trace :=
  match scale_y (discrete (comp_config likelihood)) (SFloat 2) ex_y with
  | Err e => None
  | Ok ys => match fit_data ex_ns sorted_sets keep_all ex_fit_transform (comp_config likelihood) (no_objects None) (SFloat 2) ys (Some Xu) with
      | (_, Ok (p, m)) => match run one [] m with Ok (_, tr) => Some tr | Err _ => None end
      | _ => None
      end
  end.
Lemma comp_trained likelihood : In likelihood ["normal"; "gamma"; "negbinomial"] ->
  exists ob f ys m o tr, comp_fit likelihood = (ob, Ok f) /\ flat_trend (o_trend ob) /\ ft_scale f = SFloat 2 /\ map fst (p_effects (ft_prepared f)) = ["tv"; "exogenous_variables_effect"] /\
    scale_y (discrete (comp_config likelihood)) (ft_scale f) ex_y = Ok ys /\
    fit_data ex_ns sorted_sets keep_all ex_fit_transform (comp_config likelihood) (no_objects None) (ft_scale f) ys (Some Xu) = (ob, Ok (ft_prepared f, m)) /\
    run one [] m = Ok (o, tr) /\ comp_training likelihood = Some tr.
Proof.
  intros H. assert (S : is_some (comp_training likelihood) = true) by (simpl in H; destruct H as [<-|[<-|[<-|[]]]]; vm_compute; reflexivity).
  destruct (comp_runs likelihood H) as (ob & f & _ & _ & E & _ & _ & FT & SC & PE). rewrite comp_fit_eq in *. pose proof E as E0. unfold comp_fit2 in E. unfold comp_training in *. exists ob, f.
  destruct (scale_y _ (SFloat 2) ex_y) as [ys|] eqn:SY; [|discriminate]. destruct (fit_data _ _ _ _ _ _ _ ys _) as [ob1 [[p m]|]] eqn:FD; [|discriminate]. cbn [bind] in E.
  destruct (infer _ _ _ _ m) as [post|]; [|discriminate]. cbn [bind] in E. injection E as <- <-. destruct (run one [] m) as [[o tr]|] eqn:RU; [|discriminate].
  exists ys, m, o, tr. repeat (split; [assumption || reflexivity|]). reflexivity.
Qed.
(** the values 3, 4, 8 are divided by the scale 2, counts are not; all parameters are one: 1 + 1 + 10 on the first day *)
Lemma comp_targets : seen_in (comp_training "normal") "obs" 0 = Some (3 / 2)%R /\ seen_in (comp_training "gamma") "obs" 2 = Some (8 / 2)%R /\ seen_in (comp_training "negbinomial") "obs" 1 = Some 4%R /\
  mean_at (comp_training "normal") 0 = Some 12%R.
Proof. repeat split; compute_real. Qed.
Lemma comp_y : one_column ex_y /\ NoDup (map r_time (f_rows ex_y)) /\ NoDup (labels Xu).
Proof.
  split; [split; [|reflexivity]; intros r Hr; cbn in Hr; repeat (destruct Hr as [<-|Hr]; [split; reflexivity|]); destruct Hr|]. split; [|unfold labels]; cbn; repeat constructor; simpl; intuition congruence.
Qed.

(** * two series: training *)
Definition trained_ok (d : objects (TS := bool) * res (prepared * prog arr)) (s : scale) (v0 v2 : R) : Prop :=
  match d with
  | (ob, Ok (p, m)) => scalar_piecewise (o_trend ob) /\ map fst (p_effects p) = ["tv"; "web"] /\
     match infer ex_svi ex_nuts two_latent (engine_of two_config) m with
     | Ok post => match run one [] m with Ok (_, tr) => seen_in (Some tr) "obs" 0 = Some v0 /\ seen_in (Some tr) "obs" 1 = Some v2 | Err _ => False end
     | _ => False
     end
  | _ => False
  end.
Lemma trained_data k1 k2 v0 v1 v2 v3 : trained_ok (fit_data ex_ns sorted_sets keep_all ex_fit_transform two_config (no_objects None)
  (STable [(["a"], k1); (["b"], k2)]) (two_by_two v0 v1 v2 v3) (Some ex_Xh)) (STable [(["a"], k1); (["b"], k2)]) v0 v2.
Proof.
  destruct (ex_piecewise v0 v1 v2 v3) as (a & b & rates & o1 & o2 & loc1 & loc2 & E).
  unfold fit_data. cbn [two_config c_hier]. unfold hierarchical_fit_data.
  change (loc_bottom_series (aggregate keep_all (two_by_two v0 v1 v2 v3))) with (Ok (two_by_two v0 v1 v2 v3)). cbv iota beta.
  change (series_to_tensor (two_by_two v0 v1 v2 v3)) with (Ok [[[v0]; [v1]]; [[v2]; [v3]]]). cbv iota beta.
  change (no_columns ex_Xh) with false. cbv iota. change (loc_bottom_series ex_Xh) with (Ok ex_Xh). cbv iota beta.
  change (run_fit_transform ex_fit_transform (no_objects None) ex_Xh) with (no_objects None, Ok ex_Xh). cbv iota beta.
  change (negb (no_columns ex_Xh)) with true. cbv iota.
  set (eb := expand_bottom _ _ _ _ ex_Xh). vm_compute in eb. unfold eb. cbn [bind]. clear eb.
  change (get_trend_model two_config (no_objects None)) with (@Ok trend (TPiecewise pw_params (DShifted (DHalfNormal (scalar (1 / 5)%R)) (11 / 10)%R) base_init None)).
  cbv iota beta. cbn [trend_fit]. rewrite E. cbv iota beta.
  cbn [trend_transform]. set (tr := trend_rows _ _ _). vm_compute in tr. unfold tr. clear tr. cbn [bind attr].
  set (fe := fit_effects _ _ _ _ _). vm_compute in fe. unfold fe. clear fe. cbn [bind].
  set (te := transform_effects _ _ _). vm_compute in te. unfold te. clear te. cbn [bind].
  set (ns := non_skipped _). vm_compute in ns. unfold ns. clear ns. cbn [bind].
  clear E. vm_compute. split; [repeat split; eexists; reflexivity|]. repeat split; reflexivity.
Qed.
Lemma two_trained : exists ob f k1 k2 ys m o tr, two_fit = (ob, Ok f) /\ scalar_piecewise (o_trend ob) /\ ft_scale f = STable [(["a"], k1); (["b"], k2)] /\ map fst (p_effects (ft_prepared f)) = ["tv"; "web"] /\
  scale_y (discrete two_config) (ft_scale f) ex_yh = Ok ys /\ fit_data ex_ns sorted_sets keep_all ex_fit_transform two_config (no_objects None) (ft_scale f) ys (Some ex_Xh) = (ob, Ok (ft_prepared f, m)) /\
  run one [] m = Ok (o, tr) /\ seen_in (Some tr) "obs" 0 = Some (1 / k1)%R /\ seen_in (Some tr) "obs" 1 = Some (3 / k2)%R.
Proof.
  unfold two_fit, fit_forecaster.
  assert (SE : exists k1 k2, set_y_scales (c_scale two_config) ex_yh = Ok (STable [(["a"], k1); (["b"], k2)])) by (do 2 eexists; reflexivity).
  destruct SE as (k1 & k2 & SE). rewrite SE. cbn [bind].
  assert (SY : scale_y (discrete two_config) (STable [(["a"], k1); (["b"], k2)]) ex_yh = Ok (two_by_two (1 / k1) (2 / k1) (3 / k2) (4 / k2))) by reflexivity.
  rewrite SY. cbn [bind].
  pose proof (trained_data k1 k2 (1 / k1) (2 / k1) (3 / k2) (4 / k2)) as OK. unfold trained_ok in OK. destruct (fit_data _ _ _ _ _ _ _ _ _) as [ob [[p m]|]] eqn:FD; [|destruct OK].
  destruct OK as (O1 & O2 & O3). cbn [bind]. destruct (infer _ _ _ _ m) as [post|]; [|destruct O3]. cbn [bind]. destruct (run one [] m) as [[o tr]|] eqn:RU; [|destruct O3].
  exists ob. eexists. exists k1, k2. eexists. exists m, o, tr. cbn [ft_scale ft_prepared]. do 2 (split; [reflexivity || assumption|]). split; [reflexivity|]. split; [exact O2|]. split; [exact SY|]. split; [exact FD|]. split; [exact RU|exact O3].
Qed.
Lemma yh_rectangle : rectangle ex_yh [["a"]; ["b"]] [0; 1]%Z.
Proof.
  split; [repeat constructor; simpl; intuition congruence|]. split; [repeat constructor|]. split; [unfold sorted_labels, crossing; simpl; repeat constructor|]. apply Permutation_refl.
Qed.
Lemma yh_one : one_column ex_yh.
Proof. split; [exact yh_wf|reflexivity]. Qed.

(** * a panel of one series *)
Definition lone (v0 v1 : R) : frame R := mkFrame 1 ["y"] [mkRow ["a"] 0 [v0]; mkRow ["a"] 1 [v1]].
Definition lone_y : frame R := lone 1 2.
Definition lone_X : frame R := mkFrame 1 ["tv"; "web"] [mkRow ["a"] 0 [1; 10]; mkRow ["a"] 1 [2; 20]]%R.
Definition lone_X2 : frame R := mkFrame 1 ["tv"; "web"] [mkRow ["a"] 2 [5; 0]; mkRow ["a"] 3 [7; 0]]%R.
Definition lone_latent (m : prog arr) : list string := (trend_sites ++ ["tv/coefs"; "web/coefs"; "std_observation"])%list.
Definition lone_fit := fit_forecaster ex_ns sorted_sets keep_all ex_fit_transform ex_svi ex_nuts lone_latent two_config (no_objects None) lone_y (Some lone_X).
Lemma lone_piecewise v0 v1 : exists a b rates o1 loc1,
  piecewise_fit ex_ns pw_params (lone v0 v1) =
  Ok (mkPWF pw_params a b 1 [[INR 0 * 25]]%R rates [XF o1] [loc1] [1 / 1000]%R (Some [["a"]])).
Proof.
  unfold piecewise_fit. change (time_ids (lone v0 v1)) with [0; 1]%Z. cbn [map].
  assert (D0 : days_since_epoch (ex_ns 0) = 0%R) by (unfold days_since_epoch; change (ex_ns 0 / 1000000000)%Z with 0%Z; lra).
  assert (D1 : days_since_epoch (ex_ns 1) = 1%R) by (unfold days_since_epoch; change (ex_ns 1 / 1000000000)%Z with 86400%Z; lra).
  rewrite D0, D1, TrendExamples.fit_two. cbn [bind map hd tl].
  unfold scale_time. replace (0 / 1 - 0)%R with 0%R by lra. replace (1 / 1 - 0)%R with 1%R by lra.
  change (n_series_of (lone v0 v1)) with 1%nat.
  assert (M : Rmax_list 0 [1%R] = 1%R). { unfold Rmax_list. simpl. rewrite Rmax_right; lra. }
  rewrite M. cbn [pw_params pw_interval pw_range].
  unfold setup_changepoints. cbn [to_list_if_scalar repeat combine mapM fst snd bind]. rewrite ex_cps. cbn [bind].
  unfold suggest. cbn [pw_params pw_detrend pw_logistic pw_prior_scale].
  change (target_matrix (lone v0 v1)) with (Ok (A := list (list R)) [[v0; v1]]). cbn [bind].
  cbn [endpoints mapM bind last map fst snd hd].
  do 5 eexists. reflexivity.
Qed.
Definition lone_steps ob (f : fitted (P := unit)) : bool :=
  match predict_model ex_ns keep_all ex_transform two_config ob f lone_y (Some lone_X2) (Relative [1; 2]%Z) with
  | Ok m => match run one [] m with Ok _ => true | Err _ => false end
  | Err _ => false
  end.
Definition lone_ok (d : objects (TS := bool) * res (prepared * prog arr)) (s : scale) (v1 : R) : Prop :=
  match d with
  | (ob, Ok (p, m)) => scalar_piecewise (o_trend ob) /\ map fst (p_effects p) = ["tv"; "web"] /\ max_time (map snd (p_index p)) = Ok 1%Z /\
     match infer ex_svi ex_nuts lone_latent (engine_of two_config) m with
     | Ok post => lone_steps ob (mkFitted s p post) = true /\ match run one [] m with Ok (_, tr) => seen_in (Some tr) "obs" 1 = Some v1 | Err _ => False end
     | _ => False
     end
  | _ => False
  end.
Lemma lone_data k1 v0 v1 : lone_ok (fit_data ex_ns sorted_sets keep_all ex_fit_transform two_config (no_objects None)
  (STable [(["a"], k1)]) (lone v0 v1) (Some lone_X)) (STable [(["a"], k1)]) v1.
Proof.
  destruct (lone_piecewise v0 v1) as (a & b & rates & o1 & loc1 & E).
  unfold fit_data. cbn [two_config c_hier]. unfold hierarchical_fit_data.
  change (loc_bottom_series (aggregate keep_all (lone v0 v1))) with (Ok (lone v0 v1)). cbv iota beta.
  change (series_to_tensor (lone v0 v1)) with (Ok [[[v0]; [v1]]]). cbv iota beta.
  change (no_columns lone_X) with false. cbv iota. change (loc_bottom_series lone_X) with (Ok lone_X). cbv iota beta.
  change (run_fit_transform ex_fit_transform (no_objects None) lone_X) with (no_objects None, Ok lone_X). cbv iota beta.
  change (negb (no_columns lone_X)) with true. cbv iota.
  set (eb := expand_bottom _ _ _ _ lone_X). vm_compute in eb. unfold eb. cbn [bind]. clear eb.
  change (get_trend_model two_config (no_objects None)) with (@Ok trend (TPiecewise pw_params (DShifted (DHalfNormal (scalar (1 / 5)%R)) (11 / 10)%R) base_init None)).
  cbv iota beta. cbn [trend_fit]. rewrite E. cbv iota beta.
  cbn [trend_transform]. set (tr := trend_rows _ _ _). vm_compute in tr. unfold tr. clear tr. cbn [bind attr].
  set (fe := fit_effects _ _ _ _ _). vm_compute in fe. unfold fe. clear fe. cbn [bind].
  set (te := transform_effects _ _ _). vm_compute in te. unfold te. clear te. cbn [bind].
  set (ns := non_skipped _). vm_compute in ns. unfold ns. clear ns. cbn [bind].
  clear E. vm_compute. split; [repeat split; eexists; reflexivity|]. repeat split; reflexivity.
Qed.
Lemma lone_example : exists ob f k1 ys m m2 o tr o2 tr2, lone_fit = (ob, Ok f) /\ scalar_piecewise (o_trend ob) /\ ft_scale f = STable [(["a"], k1)] /\ map fst (p_effects (ft_prepared f)) = ["tv"; "web"] /\ max_time (map snd (p_index (ft_prepared f))) = Ok 1%Z /\
  scale_y (discrete two_config) (ft_scale f) lone_y = Ok ys /\ fit_data ex_ns sorted_sets keep_all ex_fit_transform two_config (no_objects None) (ft_scale f) ys (Some lone_X) = (ob, Ok (ft_prepared f, m)) /\
  run one [] m = Ok (o, tr) /\ seen_in (Some tr) "obs" 1 = Some (2 / k1)%R /\
  predict_model ex_ns keep_all ex_transform two_config ob f lone_y (Some lone_X2) (Relative [1; 2]%Z) = Ok m2 /\ run one [] m2 = Ok (o2, tr2).
Proof.
  unfold lone_fit, fit_forecaster.
  assert (SE : exists k1, set_y_scales (c_scale two_config) lone_y = Ok (STable [(["a"], k1)])) by (eexists; reflexivity).
  destruct SE as (k1 & SE). rewrite SE. cbn [bind].
  assert (SY : scale_y (discrete two_config) (STable [(["a"], k1)]) lone_y = Ok (lone (1 / k1) (2 / k1))) by reflexivity.
  rewrite SY. cbn [bind].
  pose proof (lone_data k1 (1 / k1) (2 / k1)) as OK. unfold lone_ok in OK. destruct (fit_data _ _ _ _ _ _ _ _ _) as [ob [[p m]|]] eqn:FD; [|destruct OK].
  destruct OK as (O1 & O2 & O3 & O4). cbn [bind]. destruct (infer _ _ _ _ m) as [post|]; [|destruct O4]. cbn [bind]. destruct O4 as [O4 O5]. destruct (run one [] m) as [[o tr]|] eqn:RU; [|destruct O5].
  unfold lone_steps in O4. set (f := mkFitted _ p post) in *. destruct (predict_model _ _ _ _ ob f lone_y _ _) as [m2|] eqn:PM; [|discriminate]. destruct (run one [] m2) as [[o2 tr2]|] eqn:R2; [|discriminate].
  exists ob, f, k1. eexists. exists m, m2, o, tr, o2, tr2. do 2 (split; [reflexivity || assumption|]). split; [reflexivity|]. split; [exact O2|]. split; [exact O3|]. split; [exact SY|]. split; [exact FD|]. split; [exact RU|]. split; [exact O5|]. split; [exact PM|exact R2].
Qed.
Lemma lone_y_ok : one_column lone_y /\ (forall r, In r (f_rows lone_y) -> ~ In "__total" (r_path r)) /\ rectangle lone_y [["a"]] [0; 1]%Z /\ List.length (series_ids lone_y) = 1.
Proof.
  split; [split; [|reflexivity]; intros r Hr; cbn in Hr; repeat (destruct Hr as [<-|Hr]; [split; reflexivity|]); destruct Hr|].
  split; [intros r Hr; cbn in Hr; repeat (destruct Hr as [<-|Hr]; [simpl; intuition discriminate|]); destruct Hr|]. split; [|reflexivity].
  split; [repeat constructor; simpl; intuition congruence|]. split; [repeat constructor|]. split; [unfold sorted_labels, crossing; simpl; repeat constructor|]. apply Permutation_refl.
Qed.
