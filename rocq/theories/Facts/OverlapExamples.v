(** The same dates in two horizons: concrete forecasts. *)
From Coq Require Import Reals String Bool ZArith List Lra Lia Sorted.
From Verif.Model Require Import Base Num XFloat Regex Frame Arr Expand Aggregate Scale Predict Prog Likelihood Trend Effect
  TrendProg Engine Forecaster.
From Verif.Spec Require Import FrameSpec ScaleSpec ProgSpec PredictSpec ForecasterSpec AlignSpec ShapeSpec SiteSpec ComponentSpec CounterSpec OverlapSpec.
From Verif.Facts Require Import NumFacts EffectExamples ForecasterExamples EngineExamples HistoryExamples AlignExamples ComponentExamples CounterExamples.
Import ListNotations.
Local Open Scope string_scope.

(** * one series: steps 1, 2 and steps 2, 4; the data also have other dates *)
Definition Xo : frame R := mkFrame 0 ["tv"; "web"] [mkRow [] 7 [9; 9]; mkRow [] 8 [1; 10]; mkRow [] 9 [2; 20]; mkRow [] 10 [5; 30]; mkRow [] 11 [3; 40]]%R.
Definition hs1 : horizon := Relative [1; 2]%Z.
Definition hs2 : horizon := Relative [2; 4]%Z.
Lemma order_1 : in_order [8; 9]%Z.
Proof. repeat constructor. Qed.
Lemma order_2 : in_order [9; 11]%Z.
Proof. repeat constructor. Qed.
Lemma Xo_covers : covers Xo [8; 9]%Z /\ covers Xo [9; 11]%Z.
Proof. split; reflexivity. Qed.
Lemma Xo_wf : frame_wf Xo.
Proof. intros r Hr. cbn in Hr. repeat (destruct Hr as [<-|Hr]; [split; reflexivity|]). destruct Hr. Qed.

Definition at_steps likelihood (X : option (frame R)) (fh : horizon) : option trace :=
  match comp_fit2 likelihood with
  | (ob, Ok f) => match predict_model ex_ns keep_all ex_transform (comp_config likelihood) ob f ex_y X fh with
      | Ok m => match run one [] m with Ok (_, tr) => Some tr | Err _ => None end
      | Err _ => None
      end
  | _ => None
  end.
Lemma steps_univariate likelihood : In likelihood ["normal"; "gamma"; "negbinomial"] ->
  exists ob f m1 m2 o1 tr1 o2 tr2, comp_fit likelihood = (ob, Ok f) /\ o_transformer ob = None /\ flat_trend (o_trend ob) /\
    predict_model ex_ns keep_all ex_transform (comp_config likelihood) ob f ex_y (Some Xo) hs1 = Ok m1 /\
    predict_model ex_ns keep_all ex_transform (comp_config likelihood) ob f ex_y (Some Xo) hs2 = Ok m2 /\
    run one [] m1 = Ok (o1, tr1) /\ run one [] m2 = Ok (o2, tr2) /\ at_steps likelihood (Some Xo) hs1 = Some tr1 /\ at_steps likelihood (Some Xo) hs2 = Some tr2.
Proof.
  intros H.
  assert (S1 : is_some (at_steps likelihood (Some Xo) hs1) = true) by (simpl in H; destruct H as [<-|[<-|[<-|[]]]]; vm_compute; reflexivity).
  assert (S2 : is_some (at_steps likelihood (Some Xo) hs2) = true) by (simpl in H; destruct H as [<-|[<-|[<-|[]]]]; vm_compute; reflexivity).
  assert (S3 : shape_ok likelihood) by (simpl in H; destruct H as [<-|[<-|[<-|[]]]]; vm_compute; repeat split).
  rewrite comp_fit_eq. unfold at_steps in S1, S2 |- *. unfold shape_ok in S3. destruct (comp_fit2 likelihood) as [ob [f|]]; [|discriminate].
  destruct S3 as (O & FT & SC & FC & PE).
  destruct (predict_model _ _ _ _ ob f ex_y (Some Xo) hs1) as [m1|] eqn:E1; [|discriminate]. destruct (run one [] m1) as [[o1 tr1]|] eqn:R1; [|discriminate].
  destruct (predict_model _ _ _ _ ob f ex_y (Some Xo) hs2) as [m2|] eqn:E2; [|discriminate]. destruct (run one [] m2) as [[o2 tr2]|] eqn:R2; [|discriminate].
  exists ob, f, m1, m2, o1, tr1, o2, tr2. repeat (split; [assumption || reflexivity|]). reflexivity.
Qed.
(** day 9 is second in one horizon and first in the other; expected 23 in both; the other days differ *)
Lemma steps_values : mean_at (at_steps "normal" (Some Xo) hs1) 1 = Some 23%R /\ mean_at (at_steps "normal" (Some Xo) hs2) 0 = Some 23%R /\
  mean_at (at_steps "normal" (Some Xo) hs1) 0 = Some 12%R /\ mean_at (at_steps "normal" (Some Xo) hs2) 1 = Some 44%R.
Proof. repeat split; compute_real. Qed.

(** * two series: steps 1, 2 and step 2 alone *)
Definition two_steps ob (f : fitted (P := unit)) (fh : horizon) : bool :=
  match predict_model ex_ns keep_all ex_transform two_config ob f ex_yh (Some ex_X2) fh with
  | Ok m => match run one [] m with Ok _ => true | Err _ => false end
  | Err _ => false
  end.
Definition two_steps_ok (d : objects (TS := bool) * res (prepared * prog arr)) (s : scale) : Prop :=
  match d with
  | (ob, Ok (p, m)) => scalar_piecewise (o_trend ob) /\ o_transformer ob = None /\ max_time (map snd (p_index p)) = Ok 1%Z /\
     match infer ex_svi ex_nuts two_latent (engine_of two_config) m with
     | Ok post => two_steps ob (mkFitted s p post) (Relative [1; 2]%Z) = true /\ two_steps ob (mkFitted s p post) (Relative [2]%Z) = true
     | _ => False
     end
  | _ => False
  end.
Lemma two_steps_data k1 k2 v0 v1 v2 v3 : two_steps_ok (fit_data ex_ns sorted_sets keep_all ex_fit_transform two_config (no_objects None)
  (STable [(["a"], k1); (["b"], k2)]) (two_by_two v0 v1 v2 v3) (Some ex_Xh)) (STable [(["a"], k1); (["b"], k2)]).
Proof.
  destruct (ex_piecewise v0 v1 v2 v3) as (a & b & rates & o1 & o2 & loc1 & loc2 & E).
  unfold fit_data. cbn [two_config c_hier]. unfold hierarchical_fit_data.
  change (loc_bottom_series (aggregate keep_all (two_by_two v0 v1 v2 v3))) with (Ok (two_by_two v0 v1 v2 v3)). cbv iota beta.
  change (series_to_tensor (two_by_two v0 v1 v2 v3)) with (Ok [[[v0]; [v1]]; [[v2]; [v3]]]). cbv iota beta.
  change (no_columns ex_Xh) with false. cbv iota. change (loc_bottom_series ex_Xh) with (Ok ex_Xh). cbv iota beta.
  change (run_fit_transform ex_fit_transform (no_objects None) ex_Xh) with (no_objects None, Ok ex_Xh). cbv iota beta.
  change (negb (no_columns ex_Xh)) with true. cbv iota.
  set (eb := expand_bottom _ _ _ _ ex_Xh). vm_compute in eb. unfold eb. cbn [bind]. clear eb.
  change (get_trend_model two_config (no_objects None)) with (@Ok trend (TPiecewise pw_params (DShifted (DHalfNormal (scalar (1 / 5)%R)) (11 / 10)%R) base_init None)).
  cbv iota beta. cbn [trend_fit]. rewrite E. cbv iota beta.
  cbn [trend_transform]. set (tr := trend_rows _ _ _). vm_compute in tr. unfold tr. clear tr. cbn [bind attr].
  set (fe := fit_effects _ _ _ _ _). vm_compute in fe. unfold fe. clear fe. cbn [bind].
  set (te := transform_effects _ _ _). vm_compute in te. unfold te. clear te. cbn [bind].
  set (ns := non_skipped _). vm_compute in ns. unfold ns. clear ns. cbn [bind].
  clear E. vm_compute. repeat split; eexists; reflexivity.
Qed.
Lemma steps_hierarchical : exists ob f m1 m2 o1 tr1 o2 tr2, two_fit = (ob, Ok f) /\ o_transformer ob = None /\ scalar_piecewise (o_trend ob) /\
  max_time (map snd (p_index (ft_prepared f))) = Ok 1%Z /\
  predict_model ex_ns keep_all ex_transform two_config ob f ex_yh (Some ex_X2) (Relative [1; 2]%Z) = Ok m1 /\
  predict_model ex_ns keep_all ex_transform two_config ob f ex_yh (Some ex_X2) (Relative [2]%Z) = Ok m2 /\
  run one [] m1 = Ok (o1, tr1) /\ run one [] m2 = Ok (o2, tr2).
Proof.
  unfold two_fit, fit_forecaster.
  assert (SE : exists k1 k2, set_y_scales (c_scale two_config) ex_yh = Ok (STable [(["a"], k1); (["b"], k2)])) by (do 2 eexists; reflexivity).
  destruct SE as (k1 & k2 & SE). rewrite SE. cbn [bind].
  assert (SY : exists v0 v1 v2 v3, scale_y (discrete two_config) (STable [(["a"], k1); (["b"], k2)]) ex_yh = Ok (two_by_two v0 v1 v2 v3)) by (do 4 eexists; reflexivity).
  destruct SY as (v0 & v1 & v2 & v3 & SY). rewrite SY. cbn [bind].
  pose proof (two_steps_data k1 k2 v0 v1 v2 v3) as OK. unfold two_steps_ok in OK. destruct (fit_data _ _ _ _ _ _ _ _ _) as [ob [[p m]|]]; [|destruct OK].
  destruct OK as (O1 & O2 & O3 & O5). cbn [bind]. destruct (infer _ _ _ _ m) as [post|]; [|destruct O5]. cbn [bind]. destruct O5 as [B1 B2].
  unfold two_steps in B1, B2. set (f := mkFitted _ p post) in *.
  destruct (predict_model _ _ _ _ ob f ex_yh (Some ex_X2) (Relative [1; 2]%Z)) as [m1|] eqn:E1; [|discriminate]. destruct (run one [] m1) as [[u1 tr1]|] eqn:R1; [|discriminate].
  destruct (predict_model _ _ _ _ ob f ex_yh (Some ex_X2) (Relative [2]%Z)) as [m2|] eqn:E2; [|discriminate]. destruct (run one [] m2) as [[u2 tr2]|] eqn:R2; [|discriminate].
  exists ob, f, m1, m2, u1, tr1, u2, tr2. repeat (split; [assumption || reflexivity|]). assumption.
Qed.
Lemma X2_covers : covers ex_X2 [2; 3]%Z /\ covers ex_X2 [3]%Z.
Proof. split; reflexivity. Qed.
Lemma X2_wf : frame_wf ex_X2.
Proof. intros r Hr. cbn in Hr. repeat (destruct Hr as [<-|Hr]; [split; reflexivity|]). destruct Hr. Qed.
Lemma yh_wf : frame_wf ex_yh.
Proof. intros r Hr. cbn in Hr. repeat (destruct Hr as [<-|Hr]; [split; reflexivity|]). destruct Hr. Qed.
Lemma yh_no_total r : In r (f_rows ex_yh) -> ~ In "__total" (r_path r).
Proof. intros Hr. cbn in Hr. repeat (destruct Hr as [<-|Hr]; [simpl; intuition discriminate|]). destruct Hr. Qed.

(** * without exogenous data *)
Definition none_config : config :=
  mkConfig false (TrendName "flat") 25 (4 / 5) (1 / 1000) (1 / 10) (1 / 5) (11 / 10) None None (1 / 20) "normal" (Some (SFloat 2)) None 1
    "mcmc" None 10 0 2 5 1.
Definition none_latent (m : prog arr) : list string := ["trend_flat_coefficient"; "noise_scale"].
Definition none_fit := fit_forecaster ex_ns sorted_sets keep_all ex_fit_transform ex_svi ex_nuts none_latent none_config (no_objects None) ex_y None.
Definition none_fit2 :=
  match scale_y (discrete none_config) (SFloat 2) ex_y with
  | Err e => (no_objects None, Err e)
  | Ok ys =>
      let '(ob, data) := fit_data ex_ns sorted_sets keep_all ex_fit_transform none_config (no_objects None) (SFloat 2) ys None in
      (ob, '(p, model) <- data ;;
           post <- infer ex_svi ex_nuts none_latent (engine_of none_config) model ;;
           Ok (mkFitted (SFloat 2) p post))
  end.
Lemma none_fit_eq : none_fit = none_fit2.
Proof. unfold none_fit, fit_forecaster. cbn [c_scale none_config]. rewrite ex_scale. cbn [bind]. unfold none_fit2. destruct (scale_y _ _ _); reflexivity. Qed.
Definition none_run fh : bool :=
  match none_fit2 with
  | (ob, Ok f) => match predict_model ex_ns keep_all ex_transform none_config ob f ex_y None fh with
      | Ok m => match run one [] m with Ok _ => true | Err _ => false end
      | Err _ => false
      end
  | _ => false
  end.
Lemma none_univariate : exists ob f m1 m2 o1 tr1 o2 tr2, none_fit = (ob, Ok f) /\ o_transformer ob = None /\ flat_trend (o_trend ob) /\
    predict_model ex_ns keep_all ex_transform none_config ob f ex_y None hs1 = Ok m1 /\
    predict_model ex_ns keep_all ex_transform none_config ob f ex_y None hs2 = Ok m2 /\
    run one [] m1 = Ok (o1, tr1) /\ run one [] m2 = Ok (o2, tr2).
Proof.
  assert (S1 : none_run hs1 = true) by (vm_compute; reflexivity). assert (S2 : none_run hs2 = true) by (vm_compute; reflexivity).
  assert (S3 : match none_fit2 with (ob, Ok f) => o_transformer ob = None /\ flat_trend (o_trend ob) | _ => False end) by (vm_compute; repeat split).
  rewrite none_fit_eq. unfold none_run in S1, S2. destruct none_fit2 as [ob [f|]]; [|discriminate]. destruct S3 as (O & FT).
  destruct (predict_model _ _ _ _ ob f ex_y None hs1) as [m1|] eqn:E1; [|discriminate]. destruct (run one [] m1) as [[o1 tr1]|] eqn:R1; [|discriminate].
  destruct (predict_model _ _ _ _ ob f ex_y None hs2) as [m2|] eqn:E2; [|discriminate]. destruct (run one [] m2) as [[o2 tr2]|] eqn:R2; [|discriminate].
  exists ob, f, m1, m2, o1, tr1, o2, tr2. repeat (split; [assumption || reflexivity|]). assumption.
Qed.

Definition bare_config : config :=
  mkConfig true (TrendName "linear_raw") 25 (4 / 5) (1 / 1000) (1 / 10) (1 / 5) (11 / 10) None
    None (1 / 20) "normal" None None 1 "mcmc" None 10 0 3 5 2.
Definition bare_latent (m : prog arr) : list string := (trend_sites ++ ["std_observation"; "corr_matrix"])%list.
Definition bare_fit := fit_forecaster ex_ns sorted_sets keep_all ex_fit_transform ex_svi ex_nuts bare_latent bare_config (no_objects None) ex_yh None.
Definition bare_steps ob (f : fitted (P := unit)) (fh : horizon) : bool :=
  match predict_model ex_ns keep_all ex_transform bare_config ob f ex_yh None fh with
  | Ok m => match run one [] m with Ok _ => true | Err _ => false end
  | Err _ => false
  end.
Definition bare_steps_ok (d : objects (TS := bool) * res (prepared * prog arr)) (s : scale) : Prop :=
  match d with
  | (ob, Ok (p, m)) => scalar_piecewise (o_trend ob) /\ o_transformer ob = None /\ max_time (map snd (p_index p)) = Ok 1%Z /\
     match infer ex_svi ex_nuts bare_latent (engine_of bare_config) m with
     | Ok post => bare_steps ob (mkFitted s p post) (Relative [1; 2]%Z) = true /\ bare_steps ob (mkFitted s p post) (Relative [2; 5]%Z) = true
     | _ => False
     end
  | _ => False
  end.
Lemma bare_steps_data k1 k2 v0 v1 v2 v3 : bare_steps_ok (fit_data ex_ns sorted_sets keep_all ex_fit_transform bare_config (no_objects None)
  (STable [(["a"], k1); (["b"], k2)]) (two_by_two v0 v1 v2 v3) None) (STable [(["a"], k1); (["b"], k2)]).
Proof.
  destruct (ex_piecewise v0 v1 v2 v3) as (a & b & rates & o1 & o2 & loc1 & loc2 & E).
  unfold fit_data. cbn [bare_config c_hier]. unfold hierarchical_fit_data.
  change (loc_bottom_series (aggregate keep_all (two_by_two v0 v1 v2 v3))) with (Ok (two_by_two v0 v1 v2 v3)). cbv iota beta.
  change (series_to_tensor (two_by_two v0 v1 v2 v3)) with (Ok [[[v0]; [v1]]; [[v2]; [v3]]]). cbv iota beta.
  set (lb := loc_bottom_series _). vm_compute in lb. unfold lb. clear lb. cbv iota beta.
  unfold run_fit_transform. change (o_transformer (no_objects None)) with (@None bool). cbv iota beta.
  set (nc := no_columns _). vm_compute in nc. unfold nc. clear nc. cbv iota. cbn [negb].
  change (get_trend_model bare_config (no_objects None)) with (@Ok trend (TPiecewise pw_params (DShifted (DHalfNormal (scalar (1 / 5)%R)) (11 / 10)%R) base_init None)).
  cbv iota beta. cbn [bind]. cbn [trend_fit]. rewrite E. cbv iota beta.
  cbn [trend_transform]. set (tr := trend_rows _ _ _). vm_compute in tr. unfold tr. clear tr. cbn [bind attr].
  set (fe := fit_effects _ _ _ _ _). vm_compute in fe. unfold fe. clear fe. cbn [bind].
  set (te := transform_effects _ _ _). vm_compute in te. unfold te. clear te. cbn [bind].
  set (ns := non_skipped _). vm_compute in ns. unfold ns. clear ns. cbn [bind].
  clear E. vm_compute. repeat split; eexists; reflexivity.
Qed.
Lemma none_hierarchical : exists ob f m1 m2 o1 tr1 o2 tr2, bare_fit = (ob, Ok f) /\ o_transformer ob = None /\ scalar_piecewise (o_trend ob) /\
  max_time (map snd (p_index (ft_prepared f))) = Ok 1%Z /\
  predict_model ex_ns keep_all ex_transform bare_config ob f ex_yh None (Relative [1; 2]%Z) = Ok m1 /\
  predict_model ex_ns keep_all ex_transform bare_config ob f ex_yh None (Relative [2; 5]%Z) = Ok m2 /\
  run one [] m1 = Ok (o1, tr1) /\ run one [] m2 = Ok (o2, tr2).
Proof.
  unfold bare_fit, fit_forecaster.
  assert (SE : exists k1 k2, set_y_scales (c_scale bare_config) ex_yh = Ok (STable [(["a"], k1); (["b"], k2)])) by (do 2 eexists; reflexivity).
  destruct SE as (k1 & k2 & SE). rewrite SE. cbn [bind].
  assert (SY : exists v0 v1 v2 v3, scale_y (discrete bare_config) (STable [(["a"], k1); (["b"], k2)]) ex_yh = Ok (two_by_two v0 v1 v2 v3)) by (do 4 eexists; reflexivity).
  destruct SY as (v0 & v1 & v2 & v3 & SY). rewrite SY. cbn [bind].
  pose proof (bare_steps_data k1 k2 v0 v1 v2 v3) as OK. unfold bare_steps_ok in OK. destruct (fit_data _ _ _ _ _ _ _ _ _) as [ob [[p m]|]]; [|destruct OK].
  destruct OK as (O1 & O2 & O3 & O5). cbn [bind]. destruct (infer _ _ _ _ m) as [post|]; [|destruct O5]. cbn [bind]. destruct O5 as [B1 B2].
  unfold bare_steps in B1, B2. set (f := mkFitted _ p post) in *.
  destruct (predict_model _ _ _ _ ob f ex_yh None (Relative [1; 2]%Z)) as [m1|] eqn:E1; [|discriminate]. destruct (run one [] m1) as [[u1 tr1]|] eqn:R1; [|discriminate].
  destruct (predict_model _ _ _ _ ob f ex_yh None (Relative [2; 5]%Z)) as [m2|] eqn:E2; [|discriminate]. destruct (run one [] m2) as [[u2 tr2]|] eqn:R2; [|discriminate].
  exists ob, f, m1, m2, u1, tr1, u2, tr2. repeat (split; [assumption || reflexivity|]). assumption.
Qed.
