(** Two scenarios: concrete forecasts. *)
From Coq Require Import Reals String Bool ZArith List Lra Lia.
From Verif.Model Require Import Base Num XFloat Regex Frame Arr Expand Aggregate Scale Predict Prog Likelihood Trend Effect
  TrendProg Engine Forecaster.
From Verif.Spec Require Import FrameSpec ScaleSpec ProgSpec PredictSpec ForecasterSpec AlignSpec ShapeSpec SiteSpec ComponentSpec CounterSpec.
From Verif.Facts Require Import NumFacts EffectExamples ForecasterExamples EngineExamples HistoryExamples AlignExamples ComponentExamples.
Import ListNotations.
Local Open Scope string_scope.

(** * univariate: twice the advertising on the second day *)
Definition Xg : frame R := mkFrame 0 ["tv"; "web"] [mkRow [] 8 [1; 10]; mkRow [] 9 [4; 20]]%R.
Lemma Xg_agree : agree_except ["tv"] Xf Xg.
Proof.
  split; [reflexivity|]. split; [reflexivity|]. cbn [Xf Xg f_rows f_cols]. constructor; [|constructor; [|constructor]].
  - split; [reflexivity|]. split; [reflexivity|]. auto.
  - split; [reflexivity|]. split; [reflexivity|]. intros n N. simpl. destruct (String.eqb_spec n "tv") as [->|]; [destruct N; simpl; auto|reflexivity].
Qed.
Lemma Xf_rectangular : rectangular Xf.
Proof. unfold rectangular. repeat constructor. Qed.
Lemma Xg_rectangular : rectangular Xg.
Proof. unfold rectangular. repeat constructor. Qed.

Definition one (n : string) (i : nat) : R := 1%R.
Definition scenario_run likelihood (X : frame R) : option trace :=
  match comp_fit2 likelihood with
  | (ob, Ok f) => match predict_model ex_ns keep_all ex_transform (comp_config likelihood) ob f ex_y (Some X) (Relative [1; 2]%Z) with
      | Ok m => match run one [] m with Ok (_, tr) => Some tr | Err _ => None end
      | Err _ => None
      end
  | _ => None
  end.
Definition shape_ok likelihood : Prop :=
  match comp_fit2 likelihood with
  | (ob, Ok f) => o_transformer ob = None /\ flat_trend (o_trend ob) /\ ft_scale f = SFloat 2 /\ map (fun g => (fe_name g, fe_cols g)) (p_fitted (ft_prepared f)) = [("tv", ["tv"]); ("exogenous_variables_effect", ["web"])] /\
      map fst (p_effects (ft_prepared f)) = ["tv"; "exogenous_variables_effect"]
  | _ => False
  end.
Lemma scenario_univariate likelihood : In likelihood ["normal"; "gamma"; "negbinomial"] ->
  exists ob f m1 m2 o1 tr1 o2 tr2, comp_fit likelihood = (ob, Ok f) /\ o_transformer ob = None /\ flat_trend (o_trend ob) /\ ft_scale f = SFloat 2 /\
    predict_model ex_ns keep_all ex_transform (comp_config likelihood) ob f ex_y (Some Xf) (Relative [1; 2]%Z) = Ok m1 /\
    predict_model ex_ns keep_all ex_transform (comp_config likelihood) ob f ex_y (Some Xg) (Relative [1; 2]%Z) = Ok m2 /\
    run one [] m1 = Ok (o1, tr1) /\ run one [] m2 = Ok (o2, tr2) /\
    scenario_run likelihood Xf = Some tr1 /\ scenario_run likelihood Xg = Some tr2 /\
    map (fun g => (fe_name g, fe_cols g)) (p_fitted (ft_prepared f)) = [("tv", ["tv"]); ("exogenous_variables_effect", ["web"])] /\
    map fst (p_effects (ft_prepared f)) = ["tv"; "exogenous_variables_effect"].
Proof.
  intros H.
  assert (S1 : is_some (scenario_run likelihood Xf) = true) by (simpl in H; destruct H as [<-|[<-|[<-|[]]]]; vm_compute; reflexivity).
  assert (S2 : is_some (scenario_run likelihood Xg) = true) by (simpl in H; destruct H as [<-|[<-|[<-|[]]]]; vm_compute; reflexivity).
  assert (S3 : shape_ok likelihood) by (simpl in H; destruct H as [<-|[<-|[<-|[]]]]; vm_compute; repeat split).
  rewrite comp_fit_eq. unfold scenario_run in S1, S2 |- *. unfold shape_ok in S3. destruct (comp_fit2 likelihood) as [ob [f|]]; [|discriminate].
  destruct S3 as (O & FT & SC & FC & PE).
  destruct (predict_model _ _ _ _ ob f ex_y (Some Xf) _) as [m1|] eqn:E1; [|discriminate]. destruct (run one [] m1) as [[o1 tr1]|] eqn:R1; [|discriminate].
  destruct (predict_model _ _ _ _ ob f ex_y (Some Xg) _) as [m2|] eqn:E2; [|discriminate]. destruct (run one [] m2) as [[o2 tr2]|] eqn:R2; [|discriminate].
  exists ob, f, m1, m2, o1, tr1, o2, tr2. repeat (split; [assumption || reflexivity|]). assumption.
Qed.
Lemma only_tv (fitted : list fitted_effect) : map (fun g => (fe_name g, fe_cols g)) fitted = [("tv", ["tv"]); ("exogenous_variables_effect", ["web"])] ->
  affected false ["tv"] fitted "tv" /\ forall n, n <> "tv" -> ~ affected false ["tv"] fitted n.
Proof.
  destruct fitted as [|[[n1 e1] c1] [|[[n2 e2] c2] [|]]]; cbn; try discriminate. intros [= -> -> -> ->]. split.
  - exists e1, ["tv"], "tv". cbn. repeat split; auto. left. simpl. auto.
  - intros n N (e & cols & x & I & Ix & [Sh|[? _]]); [|discriminate]. cbn in I, Sh. destruct I as [[= <- <- <-]|[[= <- <- <-]|[]]]; [congruence|].
    destruct Sh as [<-|[]]. simpl in Ix. intuition discriminate.
Qed.
Definition seen_in (tr : option trace) (n : string) (k : nat) : option R :=
  match tr with Some tr => match dict_get tr n with Some (SDet v) | Some (SSample _ v _) => Some (entry v k) | _ => None end | None => None end.
Definition mean_at (tr : option trace) (k : nat) : option R := match tr with Some tr => mean_in tr k | None => None end.
(** second day: advertising contributes 2 and 4, everything else as before, the expected value grows by 2 *)
Lemma scenario_values : seen_in (scenario_run "normal" Xf) "tv" 1 = Some 2%R /\ seen_in (scenario_run "normal" Xg) "tv" 1 = Some 4%R /\
  seen_in (scenario_run "normal" Xf) "exogenous_variables_effect" 1 = Some 20%R /\ seen_in (scenario_run "normal" Xg) "exogenous_variables_effect" 1 = Some 20%R /\
  mean_at (scenario_run "normal" Xf) 1 = Some 23%R /\ mean_at (scenario_run "normal" Xg) 1 = Some 25%R.
Proof. repeat split; compute_real. Qed.

(** * two series with a piecewise trend and one effect per column *)
Definition two_config : config :=
  mkConfig true (TrendName "linear_raw") 25 (4 / 5) (1 / 1000) (1 / 10) (1 / 5) (11 / 10)
    (Some [("tv", Linear Additive (DUser 0) base_init, Some "tv"); ("web", Linear Additive (DUser 0) base_init, Some "web")])
    None (1 / 20) "normal" None None 1 "mcmc" None 10 0 3 5 2.
Lemma two_clean : clean_config two_config.
Proof.
  split; [|exact I]. intros l [<-|[<-|[]]]; (split; [|exact I]; split; [reflexivity|]; intros H; vm_compute in H; repeat (destruct H as [H|H]; [discriminate|]); destruct H).
Qed.
(** the first series on the first day *)
Definition ex_X3 : frame R := mkFrame 1 ["tv"; "web"]
  [mkRow ["a"] 2 [5; 0]; mkRow ["a"] 3 [7; 0]; mkRow ["b"] 2 [0; 0]; mkRow ["b"] 3 [0; 0]]%R.
Lemma X3_agree : agree_except ["tv"] ex_X2 ex_X3.
Proof.
  split; [reflexivity|]. split; [reflexivity|]. cbn [ex_X2 ex_X3 f_rows f_cols]. repeat (apply Forall2_cons; [split; [reflexivity|]; split; [reflexivity|]; intros n N; simpl|]); [|reflexivity..|constructor].
  destruct (String.eqb_spec n "tv") as [->|]; [destruct N; simpl; auto|reflexivity].
Qed.
Lemma X2_rectangular : rectangular ex_X2.
Proof. unfold rectangular. repeat constructor. Qed.
Lemma X3_rectangular : rectangular ex_X3.
Proof. unfold rectangular. repeat constructor. Qed.

Definition two_latent (m : prog arr) : list string := (trend_sites ++ ["tv/coefs"; "web/coefs"; "std_observation"; "corr_matrix"])%list.
Definition two_fit := fit_forecaster ex_ns sorted_sets keep_all ex_fit_transform ex_svi ex_nuts two_latent two_config (no_objects None) ex_yh (Some ex_Xh).
Definition two_run ob (f : fitted (P := unit)) (X : frame R) : bool :=
  match predict_model ex_ns keep_all ex_transform two_config ob f ex_yh (Some X) (Relative [1; 2]%Z) with
  | Ok m => match run one [] m with Ok _ => true | Err _ => false end
  | Err _ => false
  end.
Definition two_ok (d : objects (TS := bool) * res (prepared * prog arr)) (s : scale) : Prop :=
  match d with
  | (ob, Ok (p, m)) => scalar_piecewise (o_trend ob) /\ o_transformer ob = None /\ map fst (p_effects p) = ["tv"; "web"] /\
     map (fun g => (fe_name g, fe_cols g)) (p_fitted p) = [("tv", ["tv_dup_a"; "tv_dup_b"]); ("web", ["web_dup_a"; "web_dup_b"])] /\
     match infer ex_svi ex_nuts two_latent (engine_of two_config) m with
     | Ok post => two_run ob (mkFitted s p post) ex_X2 = true /\ two_run ob (mkFitted s p post) ex_X3 = true
     | _ => False
     end
  | _ => False
  end.
Lemma two_data k1 k2 v0 v1 v2 v3 : two_ok (fit_data ex_ns sorted_sets keep_all ex_fit_transform two_config (no_objects None)
  (STable [(["a"], k1); (["b"], k2)]) (two_by_two v0 v1 v2 v3) (Some ex_Xh)) (STable [(["a"], k1); (["b"], k2)]).
Proof.
  destruct (ex_piecewise v0 v1 v2 v3) as (a & b & rates & o1 & o2 & loc1 & loc2 & E).
  unfold fit_data. cbn [two_config c_hier]. unfold hierarchical_fit_data.
  change (loc_bottom_series (aggregate keep_all (two_by_two v0 v1 v2 v3))) with (Ok (two_by_two v0 v1 v2 v3)). cbv iota beta.
  change (series_to_tensor (two_by_two v0 v1 v2 v3)) with (Ok [[[v0]; [v1]]; [[v2]; [v3]]]). cbv iota beta.
  change (no_columns ex_Xh) with false. cbv iota. change (loc_bottom_series ex_Xh) with (Ok ex_Xh). cbv iota beta.
  change (run_fit_transform ex_fit_transform (no_objects None) ex_Xh) with (no_objects None, Ok ex_Xh). cbv iota beta.
  change (negb (no_columns ex_Xh)) with true. cbv iota.
  set (eb := expand_bottom _ _ _ _ ex_Xh). vm_compute in eb. unfold eb. cbn [bind]. clear eb.
  change (get_trend_model two_config (no_objects None)) with (@Ok trend (TPiecewise pw_params (DShifted (DHalfNormal (scalar (1 / 5)%R)) (11 / 10)%R) base_init None)).
  cbv iota beta. cbn [trend_fit]. rewrite E. cbv iota beta.
  cbn [trend_transform]. set (tr := trend_rows _ _ _). vm_compute in tr. unfold tr. clear tr. cbn [bind attr].
  set (fe := fit_effects _ _ _ _ _). vm_compute in fe. unfold fe. clear fe. cbn [bind].
  set (te := transform_effects _ _ _). vm_compute in te. unfold te. clear te. cbn [bind].
  set (ns := non_skipped _). vm_compute in ns. unfold ns. clear ns. cbn [bind].
  clear E. vm_compute. repeat split; eexists; reflexivity.
Qed.
Lemma scenario_hierarchical : exists ob f m1 m2 o1 tr1 o2 tr2, two_fit = (ob, Ok f) /\ o_transformer ob = None /\ scalar_piecewise (o_trend ob) /\
  predict_model ex_ns keep_all ex_transform two_config ob f ex_yh (Some ex_X2) (Relative [1; 2]%Z) = Ok m1 /\
  predict_model ex_ns keep_all ex_transform two_config ob f ex_yh (Some ex_X3) (Relative [1; 2]%Z) = Ok m2 /\
  run one [] m1 = Ok (o1, tr1) /\ run one [] m2 = Ok (o2, tr2) /\
  map (fun g => (fe_name g, fe_cols g)) (p_fitted (ft_prepared f)) = [("tv", ["tv_dup_a"; "tv_dup_b"]); ("web", ["web_dup_a"; "web_dup_b"])] /\
  map fst (p_effects (ft_prepared f)) = ["tv"; "web"].
Proof.
  unfold two_fit, fit_forecaster.
  assert (SE : exists k1 k2, set_y_scales (c_scale two_config) ex_yh = Ok (STable [(["a"], k1); (["b"], k2)])) by (do 2 eexists; reflexivity).
  destruct SE as (k1 & k2 & SE). rewrite SE. cbn [bind].
  assert (SY : exists v0 v1 v2 v3, scale_y (discrete two_config) (STable [(["a"], k1); (["b"], k2)]) ex_yh = Ok (two_by_two v0 v1 v2 v3)) by (do 4 eexists; reflexivity).
  destruct SY as (v0 & v1 & v2 & v3 & SY). rewrite SY. cbn [bind].
  pose proof (two_data k1 k2 v0 v1 v2 v3) as OK. unfold two_ok in OK. destruct (fit_data _ _ _ _ _ _ _ _ _) as [ob [[p m]|]]; [|destruct OK].
  destruct OK as (O1 & O2 & O3 & O4 & O5). cbn [bind]. destruct (infer _ _ _ _ m) as [post|]; [|destruct O5]. cbn [bind]. destruct O5 as [B1 B2].
  unfold two_run in B1, B2. set (f := mkFitted _ p post) in *.
  destruct (predict_model _ _ _ _ ob f ex_yh (Some ex_X2) _) as [m1|] eqn:E1; [|discriminate]. destruct (run one [] m1) as [[u1 tr1]|] eqn:R1; [|discriminate].
  destruct (predict_model _ _ _ _ ob f ex_yh (Some ex_X3) _) as [m2|] eqn:E2; [|discriminate]. destruct (run one [] m2) as [[u2 tr2]|] eqn:R2; [|discriminate].
  exists ob, f, m1, m2, u1, tr1, u2, tr2. repeat (split; [assumption || reflexivity|]). assumption.
Qed.
Lemma only_tv_copies (fitted : list fitted_effect) :
  map (fun g => (fe_name g, fe_cols g)) fitted = [("tv", ["tv_dup_a"; "tv_dup_b"]); ("web", ["web_dup_a"; "web_dup_b"])] ->
  affected true ["tv"] fitted "tv" /\ forall n, n <> "tv" -> ~ affected true ["tv"] fitted n.
Proof.
  destruct fitted as [|[[n1 e1] c1] [|[[n2 e2] c2] [|]]]; cbn; try discriminate. intros [= -> -> -> ->]. split.
  - exists e1, ["tv_dup_a"; "tv_dup_b"], "tv_dup_a". split; [left; reflexivity|]. split; [left; reflexivity|]. right. split; [reflexivity|]. exists "tv", ["a"]. split; [left; reflexivity|reflexivity].
  - intros n N (e & cols & x & I & Ix & Sh). cbn in I. destruct I as [[= <- <- <-]|[[= <- <- <-]|[]]]; [congruence|].
    destruct Sh as [[<-|[]]|(_ & c & i & [<-|[]] & ->)]; simpl in Ix; intuition discriminate.
Qed.
