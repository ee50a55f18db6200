(** Components of concrete forecasts. *)
From Coq Require Import Reals String Bool ZArith List Lra Lia.
From Verif.Model Require Import Base Num XFloat Regex Frame Arr Expand Aggregate Scale Predict Prog Likelihood Trend Effect
  TrendProg Engine Forecaster.
From Verif.Spec Require Import FrameSpec ScaleSpec ProgSpec PredictSpec ForecasterSpec AlignSpec ShapeSpec SiteSpec ComponentSpec.
From Verif.Facts Require Import NumFacts LikelihoodFacts EffectExamples ForecasterExamples EngineExamples HistoryExamples AlignExamples PanelRuns.
Import ListNotations.
Local Open Scope string_scope.

Definition comp_config (likelihood : string) : config :=
  mkConfig false (TrendName "flat") 25 (4 / 5) (1 / 1000) (1 / 10) (1 / 5) (11 / 10) (Some [linear_tv]) None (1 / 20) likelihood (Some (SFloat 2)) None 1
    "mcmc" None 10 0 2 5 1.
Definition comp_latent (m : prog arr) : list string := ["trend_flat_coefficient"; "tv/coefs"; "exogenous_variables_effect/coefs"; "noise_scale"].

Definition comp_fit likelihood :=
  fit_forecaster ex_ns sorted_sets keep_all ex_fit_transform ex_svi ex_nuts comp_latent (comp_config likelihood) (no_objects None) ex_y (Some Xu).
Definition comp_forecast likelihood ob f :=
  forecast_all_sites ex_ns keep_all ex_transform ex_guide ex_complete (comp_config likelihood) ob f ex_y (Some Xf) (Relative [1; 2]%Z).
Definition comp_out likelihood : option (frame R) :=
  match comp_fit likelihood with
  | (ob, Ok f) => match comp_forecast likelihood ob f with (_, Ok out) => Some out | _ => None end
  | _ => None
  end.


(** the fit with its scale computed *)
Definition comp_fit2 likelihood :=
  match scale_y (discrete (comp_config likelihood)) (SFloat 2) ex_y with
  | Err e => (no_objects None, Err e)
  | Ok ys =>
      let '(ob, data) := fit_data ex_ns sorted_sets keep_all ex_fit_transform (comp_config likelihood) (no_objects None) (SFloat 2) ys (Some Xu) in
      (ob, '(p, model) <- data ;;
           post <- infer ex_svi ex_nuts comp_latent (engine_of (comp_config likelihood)) model ;;
           Ok (mkFitted (SFloat 2) p post))
  end.
Lemma comp_fit_eq likelihood : comp_fit likelihood = comp_fit2 likelihood.
Proof. unfold comp_fit, fit_forecaster. cbn [c_scale comp_config]. rewrite ex_scale. cbn [bind]. unfold comp_fit2. destruct (scale_y _ _ _); reflexivity. Qed.

Definition comp_out2 likelihood : option (frame R) :=
  match comp_fit2 likelihood with
  | (ob, Ok f) => match comp_forecast likelihood ob f with (_, Ok out) => Some out | _ => None end
  | _ => None
  end.
Lemma comp_out_eq likelihood : comp_out likelihood = comp_out2 likelihood.
Proof. unfold comp_out, comp_out2. now rewrite comp_fit_eq. Qed.

Definition is_some {A} (o : option A) : bool := match o with Some _ => true | None => false end.
Lemma comp_runs likelihood : In likelihood ["normal"; "gamma"; "negbinomial"] ->
  exists ob f f' out, comp_fit likelihood = (ob, Ok f) /\ comp_forecast likelihood ob f = (f', Ok out) /\ comp_out likelihood = Some out /\
    flat_trend (o_trend ob) /\ ft_scale f = SFloat 2 /\ map fst (p_effects (ft_prepared f)) = ["tv"; "exogenous_variables_effect"].
Proof.
  intros H. assert (S : is_some (comp_out2 likelihood) = true) by (simpl in H; destruct H as [<-|[<-|[<-|[]]]]; vm_compute; reflexivity).
  assert (F : match comp_fit2 likelihood with
              | (ob, Ok f) => flat_trend (o_trend ob) /\ ft_scale f = SFloat 2 /\ map fst (p_effects (ft_prepared f)) = ["tv"; "exogenous_variables_effect"]
              | _ => True end) by (simpl in H; destruct H as [<-|[<-|[<-|[]]]]; vm_compute; repeat split).
  rewrite comp_out_eq, comp_fit_eq. unfold comp_out2 in *. destruct (comp_fit2 likelihood) as [ob [f|]]; [|discriminate].
  destruct (comp_forecast likelihood ob f) as [f' [out|]] eqn:E; [|discriminate]. exists ob, f, f', out. tauto.
Qed.

Lemma comp_clean likelihood : clean_config (comp_config likelihood).
Proof.
  split; [|exact I]. intros l [<-|[]]. split; [|exact I]. split; [reflexivity|]. intros H. vm_compute in H.
  repeat (destruct H as [H|H]; [discriminate|]). destruct H.
Qed.

Definition comp_cell likelihood (t : Z) (name : string) : option R :=
  match comp_out2 likelihood with
  | Some out => match filter (fun r => Z.eqb (r_time r) t) (f_rows out) with r :: _ => cell out r name | [] => None end
  | None => None
  end.
(** trend 1, tv 2 times 1, web 20 times 1, all times the scale 2 *)
Lemma comp_values : comp_cell "normal" 9 "trend" = Some 2%R /\ comp_cell "normal" 9 "tv" = Some 4%R /\
  comp_cell "normal" 9 "exogenous_variables_effect" = Some 40%R /\ comp_cell "normal" 9 "obs" = Some 1%R.
Proof. repeat split; compute_real. Qed.
Lemma comp_counts : comp_cell "negbinomial" 9 "trend" = Some 1%R /\ comp_cell "negbinomial" 9 "tv" = Some 2%R /\
  comp_cell "negbinomial" 9 "exogenous_variables_effect" = Some 20%R.
Proof. repeat split; compute_real. Qed.

(** expected observations of the draws *)
Definition mean_in (tr : trace) (k : nat) : option R :=
  match dict_get tr "obs" with
  | Some (SSample (DNormal a _) _ _) => Some (entry a k)
  | Some (SSample (DGamma a b) _ _) => Some (gamma_mean (entry a k) (entry b k))
  | Some (SSample (DNegBinomial2 a b) _ _) => Some (nb2_mean (entry a k) (entry b k))
  | _ => None
  end.
Lemma expected_mean_in tr k v : expected tr k v -> mean_in tr k = Some v.
Proof. intros (d & x & b & G & E). unfold mean_in. rewrite G. destruct d; try contradiction; now subst. Qed.

Definition comp_means likelihood (k : nat) : list (option R) :=
  match comp_fit2 likelihood with
  | (ob, Ok f) => match predict_model ex_ns keep_all ex_transform (comp_config likelihood) ob f ex_y (Some Xf) (Relative [1; 2]%Z) with
      | Ok m => map (fun e => match run e [] m with Ok (_, tr) => mean_in tr k | Err _ => None end)
                  (draws ex_guide ex_complete (engine_of (comp_config likelihood)) (ft_posterior f) m)
      | Err _ => []
      end
  | _ => []
  end.
Lemma comp_means_counts k : k < 2 -> forall x, In x (comp_means "negbinomial" k) -> exists v, x = Some v /\ (1 <= v)%R.
Proof.
  intros H x Hx. assert (E : comp_means "negbinomial" k = let v := (to_positive1 (/ 100000) (/ 10000000000) (1 * 1 + (INR (k + 1) * 1 + 0) + (10 * INR (k + 1) * 1 + 0)) * 2)%R in [Some v; Some v]).
  { destruct k as [|[|k]]; [| |lia].
    - replace (INR (0 + 1)) with 1%R by (simpl; lra). replace (10 * 1)%R with 10%R by lra. vm_cast_no_check (eq_refl (comp_means "negbinomial" 0)).
    - replace (INR (1 + 1)) with 2%R by (simpl; lra). replace (10 * 2)%R with 20%R by lra. vm_cast_no_check (eq_refl (comp_means "negbinomial" 1)). }
  rewrite E in Hx. cbv zeta in Hx. pose proof (pos_INR (k + 1)). rewrite to_positive1_id in Hx by lra.
  destruct Hx as [<-|[<-|[]]]; eexists; (split; [reflexivity|lra]).
Qed.
Lemma comp_means_gamma k : k < 2 -> forall x, In x (comp_means "gamma" k) -> exists v, x = Some v /\ (1 <= v)%R.
Proof.
  intros H x Hx. assert (E : comp_means "gamma" k = let l := to_positive1 (/ 100000) (/ 10000000000) (1 * 1 + (INR (k + 1) * 1 + 0) + (10 * INR (k + 1) * 1 + 0)) in
    let v := (l * (l / (1 * 1)) / (l / (1 * 1)))%R in [Some v; Some v]).
  { destruct k as [|[|k]]; [| |lia].
    - replace (INR (0 + 1)) with 1%R by (simpl; lra). replace (10 * 1)%R with 10%R by lra. vm_cast_no_check (eq_refl (comp_means "gamma" 0)).
    - replace (INR (1 + 1)) with 2%R by (simpl; lra). replace (10 * 2)%R with 20%R by lra. vm_cast_no_check (eq_refl (comp_means "gamma" 1)). }
  rewrite E in Hx. cbv zeta in Hx. pose proof (pos_INR (k + 1)). rewrite to_positive1_id in Hx by lra.
  set (l := (1 * 1 + (INR (k + 1) * 1 + 0) + (10 * INR (k + 1) * 1 + 0))%R) in *. assert (1 <= l)%R by (unfold l; lra).
  assert (F : (l * (l / (1 * 1)) / (l / (1 * 1)))%R = l) by (field; lra). rewrite F in Hx.
  destruct Hx as [<-|[<-|[]]]; exists l; auto.
Qed.

Definition all_ones likelihood : Prop :=
  match comp_fit2 likelihood with
  | (ob, Ok f) => match predict_model ex_ns keep_all ex_transform (comp_config likelihood) ob f ex_y (Some Xf) (Relative [1; 2]%Z) with
      | Ok m => forall e, In e (draws ex_guide ex_complete (engine_of (comp_config likelihood)) (ft_posterior f) m) -> e "noise_scale" 0%nat = 1%R
      | Err _ => True
      end
  | _ => True
  end.
Lemma comp_noise : all_ones "gamma".
Proof. unfold all_ones. vm_compute. intros e [<-|[<-|[]]]; reflexivity. Qed.

Lemma comp_positive likelihood : In likelihood ["gamma"; "negbinomial"] -> forall ob f, comp_fit likelihood = (ob, Ok f) ->
  forall m times e o tr, predict_model ex_ns keep_all ex_transform (comp_config likelihood) ob f ex_y (Some Xf) (Relative [1; 2]%Z) = Ok m ->
    fh_to_index ex_y (Relative [1; 2]%Z) = Ok times -> In e (draws ex_guide ex_complete (engine_of (comp_config likelihood)) (ft_posterior f) m) ->
    run e [] m = Ok (o, tr) -> forall k v, k < List.length times -> expected tr k v -> (1 <= v)%R.
Proof.
  intros HL ob f HF m times e o tr HM HT He HR k v Hk EX. injection HT as <-. cbn [List.length] in Hk. apply expected_mean_in in EX.
  assert (I : In (Some v) (comp_means likelihood k)).
  { unfold comp_means. rewrite <- comp_fit_eq, HF, HM. apply in_map_iff. exists e. rewrite HR. auto. }
  destruct HL as [<-|[<-|[]]]; [apply comp_means_gamma in I|apply comp_means_counts in I]; auto; destruct I as (w & [= <-] & G); exact G.
Qed.

(** two series with a piecewise trend *)
Definition parts_latent (m : prog arr) : list string := (trend_sites ++ ["all/coefs"; "std_observation"; "corr_matrix"])%list.
Definition parts_fit := fit_forecaster ex_ns sorted_sets keep_all ex_fit_transform ex_svi ex_nuts parts_latent pw_config (no_objects None) ex_yh (Some ex_Xh).
Definition parts_forecast ob f := forecast_all_sites ex_ns keep_all ex_transform ex_guide ex_complete pw_config ob f ex_yh (Some ex_X2) (Relative [1; 2]%Z).
Definition parts_ok (d : objects (TS := bool) * res (prepared * prog arr)) (s : scale) : Prop :=
  match d with
  | (ob, Ok (p, m)) => scalar_piecewise (o_trend ob) /\ map fst (p_effects p) = ["all"] /\
     index_series (mkLab 1 (p_index p) true s false) = [["a"]; ["b"]] /\
     match infer ex_svi ex_nuts parts_latent (engine_of pw_config) m with
     | Ok post => is_some (match parts_forecast ob (mkFitted s p post) with (_, Ok out) => Some out | _ => None end) = true
     | _ => False
     end
  | _ => False
  end.
Lemma parts_runs : exists ob f f' out, parts_fit = (ob, Ok f) /\ parts_forecast ob f = (f', Ok out) /\ scalar_piecewise (o_trend ob) /\
  map fst (p_effects (ft_prepared f)) = ["all"] /\ index_series (labeller_of pw_config f ex_yh) = [["a"]; ["b"]] /\
  exists k1 k2, ft_scale f = STable [(["a"], k1); (["b"], k2)].
Proof.
  assert (SE : exists k1 k2, set_y_scales None ex_yh = Ok (pw_scale k1 k2)) by (do 2 eexists; reflexivity). destruct SE as (k1 & k2 & SE).
  assert (SY : exists v0 v1 v2 v3, scale_y (discrete pw_config) (pw_scale k1 k2) ex_yh = Ok (two_by_two v0 v1 v2 v3)) by (do 4 eexists; reflexivity).
  destruct SY as (v0 & v1 & v2 & v3 & SY).
  destruct (pw_data_eq sorted_sets (pw_scale k1 k2) (Some ex_Xh) v0 v1 v2 v3) as (a & b & rates & o1 & o2 & loc1 & loc2 & E).
  assert (OK : parts_ok (fit_data ex_ns sorted_sets keep_all ex_fit_transform pw_config (no_objects None) (pw_scale k1 k2) (two_by_two v0 v1 v2 v3) (Some ex_Xh)) (pw_scale k1 k2)).
  { rewrite E. clear. vm_compute. repeat split; eauto. }
  unfold parts_fit, fit_forecaster. change (c_scale pw_config) with (@None scale). rewrite SE. cbn [bind]. rewrite SY. cbn [bind].
  unfold parts_ok in OK. destruct (fit_data _ _ _ _ _ _ _ _ _) as [ob [[p m]|]]; [|destruct OK]. destruct OK as (O1 & O2 & O3 & O4). cbn [bind].
  destruct (infer _ _ _ _ m) as [post|]; [|destruct O4]. cbn [bind]. destruct (parts_forecast ob _) as [f' [out|]] eqn:F; [|discriminate].
  exists ob, (mkFitted (pw_scale k1 k2) p post), f', out. split; [reflexivity|]. split; [exact F|]. split; [exact O1|]. split; [exact O2|]. split; [exact O3|].
  exists k1, k2. reflexivity.
Qed.
Lemma parts_clean : clean_config pw_config.
Proof.
  split; [|exact I]. intros l [<-|[]]. split; [|exact I]. split; [reflexivity|]. intros H. vm_compute in H.
  repeat (destruct H as [H|H]; [discriminate|]). destruct H.
Qed.
