(** A panel forecaster with a feature transformer that keeps the column web only, with one effect and with two. *)
From Coq Require Import Reals Lra String Bool ZArith List Sorted Permutation Lia.
From Verif.Model Require Import Base Num XFloat Regex Frame Arr Expand Aggregate Scale Prog Likelihood Effect Trend TrendProg Engine Predict Forecaster.
From Verif.Spec Require Import RegexSpec FrameSpec ScaleSpec TrendSpec ProgSpec EffectSpec ForecasterSpec AlignSpec SiteSpec LineSpec ShapeSpec TotalSpec PanelSpec OverlapSpec DocsSpec ResponseSpec UpwardSpec SeasonSpec AddedSpec.
From Verif.Facts Require Import BaseFacts NumFacts FrameFacts ForecasterFacts ForecasterInv ForecasterProps EffectFacts SiteFacts EffectExamples ForecasterExamples EngineExamples HistoryExamples AlignExamples ComponentExamples InsampleExamples CounterExamples DocsForecaster
  DocsExamples TablePanel ResponseExamples.
Import ListNotations.
Local Open Scope string_scope.

Definition web_effects (more : bool) : list listed := ("web", Linear Additive (DUser 0) base_init, Some "web") :: if more then [("extra", Linear Multiplicative (DUser 1) base_init, Some "web")] else [].
Definition web_config (more : bool) : config :=
  mkConfig true (TrendName "linear_raw") 25 (4 / 5) (1 / 1000) (1 / 10) (1 / 5) (11 / 10)
    (Some (web_effects more)) None (1 / 20) "normal" None None 1 "mcmc" None 10 0 3 5 2.
Lemma web_clean more : clean_config (web_config more).
Proof.
  split; [|exact I]. intros l Hl. destruct more; cbn [web_config c_effects web_effects] in Hl.
  - destruct Hl as [<-|[<-|[]]]; (split; [|exact I]; split; [reflexivity|]; intros H; vm_compute in H; repeat (destruct H as [H|H]; [discriminate|]); destruct H).
  - destruct Hl as [<-|[]]; (split; [|exact I]; split; [reflexivity|]; intros H; vm_compute in H; repeat (destruct H as [H|H]; [discriminate|]); destruct H).
Qed.
Definition web_fit more := fit_forecaster ex_ns sorted_sets keep_all ex_fit_transform ex_svi ex_nuts two_latent (web_config more) (no_objects (Some false)) ex_yh (Some ex_Xh).
(** more of web for the first series on day 2, the second series keeps what it had on day 2 *)
Definition X_more : frame R := mkFrame 1 ["tv"; "web"] [mkRow ["a"] 2 [3; 9]; mkRow ["a"] 3 [7; 6]; mkRow ["b"] 2 [4; 7]; mkRow ["b"] 3 [2; 7]]%R.
Definition Xp2 : frame R := mkFrame 1 ["web"] [mkRow ["a"] 2 [9]; mkRow ["a"] 3 [6]; mkRow ["b"] 2 [7]; mkRow ["b"] 3 [7]]%R.
Definition web_trace more ob (f : fitted (P := unit)) (X : frame R) : option trace :=
  match predict_model ex_ns keep_all ex_transform (web_config more) ob f ex_yh (Some X) (Relative [1; 2]%Z) with
  | Ok m => match run one [] m with Ok (_, tr) => Some tr | Err _ => None end
  | Err _ => None
  end.
Definition web_columns : list string := ["web_dup_a"; "web_dup_b"].
Definition web_ok more (d : objects (TS := bool) * res (prepared * prog arr)) (s : scale) : Prop :=
  match d with
  | (ob, Ok (p, m)) => scalar_piecewise (o_trend ob) /\ run_transform ex_transform ob X_pick = Ok Xp1 /\ run_transform ex_transform ob X_more = Ok Xp2 /\ max_time (map snd (p_index p)) = Ok 1%Z /\
     map fst (p_effects p) = map (fun l => fst (fst l)) (web_effects more) /\ map fe_cols (p_fitted p) = map (fun _ => web_columns) (web_effects more) /\
     match infer ex_svi ex_nuts two_latent (engine_of (web_config more)) m with
     | Ok post => let tr := web_trace more ob (mkFitted s p post) in seen_in (tr X_pick) "web" 0 = Some 5%R /\ seen_in (tr X_more) "web" 0 = Some 9%R
     | _ => False
     end
  | _ => False
  end.
Lemma web_data more k1 k2 v0 v1 v2 v3 : web_ok more (fit_data ex_ns sorted_sets keep_all ex_fit_transform (web_config more) (no_objects (Some false))
  (STable [(["a"], k1); (["b"], k2)]) (two_by_two v0 v1 v2 v3) (Some ex_Xh)) (STable [(["a"], k1); (["b"], k2)]).
Proof.
  destruct (ex_piecewise v0 v1 v2 v3) as (a & b & rates & o1 & o2 & loc1 & loc2 & E).
  unfold fit_data. cbn [web_config c_hier]. unfold hierarchical_fit_data.
  change (loc_bottom_series (aggregate keep_all (two_by_two v0 v1 v2 v3))) with (Ok (two_by_two v0 v1 v2 v3)). cbv iota beta.
  change (series_to_tensor (two_by_two v0 v1 v2 v3)) with (Ok [[[v0]; [v1]]; [[v2]; [v3]]]). cbv iota beta.
  change (no_columns ex_Xh) with false. cbv iota. change (loc_bottom_series ex_Xh) with (Ok ex_Xh). cbv iota beta.
  change (run_fit_transform ex_fit_transform (no_objects (Some false)) ex_Xh) with (no_objects (Some false), Ok Xp0). cbv iota beta.
  change (negb (no_columns Xp0)) with true. cbv iota.
  set (eb := expand_bottom _ _ _ _ Xp0). vm_compute in eb. unfold eb. cbn [bind]. clear eb.
  change (get_trend_model (web_config more) (no_objects (Some false))) with (@Ok trend (TPiecewise pw_params (DShifted (DHalfNormal (scalar (1 / 5)%R)) (11 / 10)%R) base_init None)).
  cbv iota beta. cbn [trend_fit]. rewrite E. cbv iota beta.
  cbn [trend_transform]. set (tr := trend_rows _ _ _). vm_compute in tr. unfold tr. clear tr. cbn [bind attr]. destruct more.
  all: set (fe := fit_effects _ _ _ _ _); vm_compute in fe; unfold fe; clear fe; cbn [bind].
  all: set (te := transform_effects _ _ _); vm_compute in te; unfold te; clear te; cbn [bind].
  all: set (ns := non_skipped _); vm_compute in ns; unfold ns; clear ns; cbn [bind].
  all: clear E; cbv zeta; split; [vm_compute; repeat split; eexists; reflexivity|]; do 5 (split; [vm_compute; reflexivity|]); vm_compute; repeat split; f_equal; ring.
Qed.
Lemma web_run more : exists ob f m1 m2 o1 o2 tr1 tr2, web_fit more = (ob, Ok f) /\ run_transform ex_transform ob X_pick = Ok Xp1 /\ run_transform ex_transform ob X_more = Ok Xp2 /\ scalar_piecewise (o_trend ob) /\
  max_time (map snd (p_index (ft_prepared f))) = Ok 1%Z /\ map fst (p_effects (ft_prepared f)) = map (fun l => fst (fst l)) (web_effects more) /\ map fe_cols (p_fitted (ft_prepared f)) = map (fun _ => web_columns) (web_effects more) /\
  predict_model ex_ns keep_all ex_transform (web_config more) ob f ex_yh (Some X_pick) (Relative [1; 2]%Z) = Ok m1 /\ predict_model ex_ns keep_all ex_transform (web_config more) ob f ex_yh (Some X_more) (Relative [1; 2]%Z) = Ok m2 /\
  run one [] m1 = Ok (o1, tr1) /\ run one [] m2 = Ok (o2, tr2) /\ seen_in (Some tr1) "web" 0 = Some 5%R /\ seen_in (Some tr2) "web" 0 = Some 9%R.
Proof.
  unfold web_fit, fit_forecaster.
  assert (SE : exists k1 k2, set_y_scales (c_scale (web_config more)) ex_yh = Ok (STable [(["a"], k1); (["b"], k2)])) by (do 2 eexists; reflexivity).
  destruct SE as (k1 & k2 & SE). rewrite SE. cbn [bind].
  assert (SY : exists v0 v1 v2 v3, scale_y (discrete (web_config more)) (STable [(["a"], k1); (["b"], k2)]) ex_yh = Ok (two_by_two v0 v1 v2 v3)) by (do 4 eexists; reflexivity).
  destruct SY as (v0 & v1 & v2 & v3 & SY). rewrite SY. cbn [bind].
  pose proof (web_data more k1 k2 v0 v1 v2 v3) as PD. unfold web_ok in PD. destruct (fit_data _ _ _ _ _ _ _ _ _) as [ob [[p m]|]]; [|destruct PD].
  destruct PD as (O1 & O2 & O3 & O4 & D1 & D2 & D3). cbn [bind]. destruct (infer _ _ _ _ m) as [post|]; [|destruct D3]. cbn [bind].
  unfold web_trace in D3. cbv zeta in D3. set (f := mkFitted _ p post) in *. destruct D3 as [D3 D4].
  destruct (predict_model _ _ _ _ ob f ex_yh (Some X_pick) (Relative [1; 2]%Z)) as [m1|] eqn:E1; [|discriminate]. destruct (run one [] m1) as [[u1 tr1]|] eqn:R1; [|discriminate].
  destruct (predict_model _ _ _ _ ob f ex_yh (Some X_more) (Relative [1; 2]%Z)) as [m2|] eqn:E2; [|discriminate]. destruct (run one [] m2) as [[u2 tr2]|] eqn:R2; [|discriminate].
  exists ob, f, m1, m2, u1, u2, tr1, tr2. repeat (split; [assumption || reflexivity|]). exact D4.
Qed.

(** * The given tables *)
Lemma web_given : given_training (Some ex_Xh) ex_yh ex_Xh /\ given_forecast (Some X_pick) ex_yh [2; 3]%Z X_pick /\ given_forecast (Some X_more) ex_yh [2; 3]%Z X_more.
Proof. repeat split; left; eexists; (split; [reflexivity|]); (split; [discriminate|reflexivity]). Qed.
Lemma more_wf : frame_wf Xp2.
Proof. intros r Hr; cbn in Hr; repeat (destruct Hr as [<-|Hr]; [split; reflexivity|]); destruct Hr. Qed.

(** * Rows *)
Definition a_less : row R := mkRow ["a"] 2 [5]%R.
Definition a_more : row R := mkRow ["a"] 2 [9]%R.
Definition b_first : row R := mkRow ["b"] 2 [7]%R.
Definition b_next : row R := mkRow ["b"] 3 [7]%R.
Ltac read_web := repeat match goal with A : seen _ _ _ _ _ _ |- _ => destruct A as [(_ & [] & _)|(? & ? & ? & _ & ? & ? & ?)] end;
  change (series_ids Xp1) with [["a"]; ["b"]] in *; change (series_ids Xp2) with [["a"]; ["b"]] in *; cbn [f_cols Xp1 Xp2 In] in *;
  repeat match goal with A : _ \/ _ |- _ => destruct A as [A|A] | A : False |- _ => destruct A | A : _ /\ _ |- _ => destruct A end; subst; try congruence; try (match goal with A : _ = _ ++ _ |- _ => vm_compute in A; discriminate end); try lra;
  repeat match goal with A : FrameSpec.value_of _ _ _ = Some _ |- _ => cbn in A; injection A as A end; subst; try lra; try (match goal with A : _ <> r_path _ |- _ => now contradiction A end).
Lemma web_le cols x1 x2 : Forall2 (seen [] (series_ids Xp1) Xp1 a_less) cols x1 -> Forall2 (seen [] (series_ids Xp2) Xp2 a_more) cols x2 -> forall k u1 u2, nth_error x1 k = Some u1 -> nth_error x2 k = Some u2 -> (u1 <= u2)%R.
Proof.
  intros V1 V2 k u1 u2 H1 H2. revert cols x1 x2 V1 V2 H1 H2. induction k as [|k IH]; intros cols [|a x1] [|b x2] V1 V2 H1 H2; try discriminate; inversion V1; inversion V2; subst; [|match goal with A : _ :: _ = _ :: _ |- _ => injection A as _ -> end; eapply IH; eauto].
  cbn in H1, H2. injection H1 as ->. injection H2 as ->. match goal with A : _ :: _ = _ :: _ |- _ => injection A as -> _ end. read_web.
Qed.
Lemma web_same cols x1 : Forall2 (seen [] (series_ids Xp1) Xp1 b_first) cols x1 -> forall x2, Forall2 (seen [] (series_ids Xp2) Xp2 b_next) cols x2 -> x1 = x2.
Proof.
  intros V1. induction V1 as [|col u cols x1 A V1 IH]; intros x2 V2; inversion V2; subst; [reflexivity|]. f_equal; [|now apply IH]. clear IH V1 V2. match goal with B : Forall2 _ _ _ |- _ => clear B end. read_web.
Qed.
Lemma web_effect more name ef0 : configured (web_config more) name ef0 -> (more = true -> name <> "extra") -> exists d, ef0 = Linear Additive d base_init.
Proof.
  intros [(effects & regex & [= <-] & HI)|[_ [[=]|[_ ->]]]] N; [|eauto]. destruct HI as [HI|HI]; [injection HI as _ <- _; eauto|]. destruct more; [|destruct HI]. destruct HI as [HI|[]]. injection HI as <- _ _. now contradiction N.
Qed.
Lemma web_raised : forall name ef0 cols v x1 x2, configured (web_config false) name ef0 -> Forall2 (seen [] (series_ids Xp1) Xp1 a_less) cols x1 -> Forall2 (seen [] (series_ids Xp2) Xp2 a_more) cols x2 -> raises one name v ef0 x1 x2.
Proof.
  intros name ef0 cols v x1 x2 CF V1 V2. destruct (web_effect _ _ _ CF ltac:(discriminate)) as (d & ->). right. split; [exact I|]. intros k u1 u2 H1 H2. right. left. split; [unfold parameter, one; lra|exact (web_le _ _ _ V1 V2 k _ _ H1 H2)].
Qed.
Lemma web_recurs : forall name ef0 cols x1 x2, configured (web_config false) name ef0 -> Forall2 (seen [] (series_ids Xp1) Xp1 b_first) cols x1 -> Forall2 (seen [] (series_ids Xp2) Xp2 b_next) cols x2 -> recurs 1 ef0 x1 x2 /\ effect_mode ef0 Additive.
Proof. intros name ef0 cols x1 x2 CF V1 V2. destruct (web_effect _ _ _ CF ltac:(discriminate)) as (d & ->). split; [exact (web_same _ _ V1 _ V2)|reflexivity]. Qed.
Lemma seen_web_unique (X : frame R) r cols x1 : In (X, r) [(Xp1, b_first); (Xp2, b_next)] -> Forall2 (seen [] (series_ids X) X r) cols x1 -> forall x2, Forall2 (seen [] (series_ids X) X r) cols x2 -> x1 = x2.
Proof.
  intros HX V1. induction V1 as [|col u cols x1 A V1 IH]; intros x2 V2; inversion V2; subst; [reflexivity|]. f_equal; [|now apply IH]. clear IH V1 V2. match goal with B : Forall2 _ _ _ |- _ => clear B end. destruct HX as [HX|[HX|[]]]; injection HX as <- <-; read_web.
Qed.
Lemma web_cols more (f : fitted (P := unit)) : map fe_cols (p_fitted (ft_prepared f)) = map (fun _ => web_columns) (web_effects more) -> forall name ef cols, In (name, ef, cols) (p_fitted (ft_prepared f)) -> cols = web_columns.
Proof. intros E name ef cols I. apply (in_map fe_cols) in I. rewrite E in I. apply in_map_iff in I as (l & Q & _). symmetry. exact Q. Qed.
Lemma web_common (f1 f2 : fitted (P := unit)) : map fe_cols (p_fitted (ft_prepared f1)) = map (fun _ => web_columns) (web_effects false) -> map fe_cols (p_fitted (ft_prepared f2)) = map (fun _ => web_columns) (web_effects true) ->
  forall name, In name ["web"] ->
  common (web_config false) (web_config true) (p_fitted (ft_prepared f1)) (p_fitted (ft_prepared f2)) (Forall2 (seen [] (series_ids Xp1) Xp1 b_first)) (Forall2 (seen [] (series_ids Xp1) Xp1 b_first)) one one name.
Proof.
  intros C1 C2 name [<-|[]]. split; [reflexivity|]. intros ef1 ef2 ef01 ef02 cols1 cols2 x1 x2 I1 I2 CF1 CF2 V1 V2. rewrite (web_cols _ _ C1 _ _ _ I1) in V1. rewrite (web_cols _ _ C2 _ _ _ I2) in V2.
  destruct (web_effect _ _ _ CF1 ltac:(discriminate)) as (d1 & ->). destruct (web_effect _ _ _ CF2 ltac:(discriminate)) as (d2 & ->). split; [reflexivity|]. exact (seen_web_unique Xp1 b_first _ _ ltac:(simpl; auto) V1 _ V2).
Qed.
