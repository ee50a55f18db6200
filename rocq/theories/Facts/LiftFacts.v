(** Programs without the results of lift experiments. *)
From Coq Require Import Reals String Ascii Bool ZArith List Lia Lra FunctionalExtensionality.
From Verif.Model Require Import Base Num XFloat Regex Frame Arr Expand Aggregate Scale Predict Prog Likelihood Effect Trend TrendProg Engine Forecaster.
From Verif.Spec Require Import ProgSpec ForecasterSpec SiteSpec RelistSpec RenameSpec LiftSpec.
From Verif.Facts Require Import BaseFacts FrameFacts MeanFacts EffectPredict ForecasterFacts ForecasterInv RenameFacts.
Import ListNotations.
Local Open Scope string_scope.

(** * Programs *)
Lemma forget_bind {A B} K (m : prog A) (f : A -> prog B) : forget K (pbind m f) = pbind (forget K m) (fun x => forget K (f x)).
Proof.
  induction m as [a|x|n d sh o k IH|n v k IH|n s k IH]; cbn [pbind forget]; try reflexivity; try now rewrite IH.
  destruct o as [y|]; [destruct (K n); [apply IH|]|]; cbn [pbind]; f_equal; apply functional_extensionality; intros v; apply IH.
Qed.
Lemma forget_lift {A} K (r : res A) : forget K (lift_res r) = lift_res r.
Proof. destruct r; reflexivity. Qed.
Lemma forget_scope {A} K p (m : prog A) : forget K (scope p m) = scope p (forget (fun n => K (p ++ "/" ++ n)) m).
Proof.
  induction m as [a|x|n d sh o k IH|n v k IH|n s k IH]; cbn [scope forget]; try reflexivity; try now rewrite IH.
  destruct o as [y|]; [destruct (K _); [apply IH|]|]; cbn [scope]; f_equal; apply functional_extensionality; intros v; apply IH.
Qed.
Lemma same_bind {A B} (m : prog A) (f g : A -> prog B) : (forall x, f x = g x) -> pbind m f = pbind m g.
Proof. intros H. f_equal. apply functional_extensionality. exact H. Qed.

Lemma pbind_ret {A} (m : prog A) : pbind m (fun x => Ret x) = m.
Proof. induction m as [a|x|n d sh o k IH|n v k IH|n s k IH]; cbn [pbind]; try reflexivity; try now rewrite IH. f_equal. apply functional_extensionality. exact IH. Qed.

(** observations of a program *)
Fixpoint no_observation {A} (m : prog A) : Prop :=
  match m with
  | Ret _ | Raise _ => True
  | Sample _ _ _ o k => o = None /\ forall v, no_observation (k v)
  | Det _ _ k | Plate _ _ k => no_observation k
  end.
Lemma forget_silent {A} K (m : prog A) : no_observation m -> forget K m = m.
Proof.
  induction m as [a|x|n d sh o k IH|n v k IH|n s k IH]; cbn [forget no_observation]; try reflexivity; intros H; try now rewrite IH.
  destruct H as [-> H]. f_equal. apply functional_extensionality. intros v. apply IH, H.
Qed.
Lemma silent_bind {A B} (m : prog A) (f : A -> prog B) : no_observation m -> (forall x, no_observation (f x)) -> no_observation (pbind m f).
Proof. induction m as [a|x|n d sh o k IH|n v k IH|n s k IH]; cbn [pbind no_observation]; intros H1 H2; auto. destruct H1 as [-> H1]. split; [reflexivity|]. intros v. now apply IH. Qed.
Lemma silent_lift {A} (r : res A) : no_observation (lift_res r).
Proof. destruct r; exact I. Qed.
Lemma silent_scope {A} p (m : prog A) : no_observation m -> no_observation (scope p m).
Proof. induction m as [a|x|n d sh o k IH|n v k IH|n s k IH]; cbn [scope no_observation]; intros H; auto. destruct H as [-> H]. auto. Qed.

Ltac quiet := repeat first [progress (cbn [pbind no_observation]) | split; [reflexivity|] | exact I | apply silent_lift | apply silent_bind; [|intros] | intros ].
Lemma silent_linear prior d : no_observation (linear_raw prior d).
Proof. unfold linear_raw. destruct d as [|a|]; try exact I. destruct (rev (a_shape a)) as [|[|k] l]; try exact I. unfold plate, sample. quiet. Qed.
Lemma silent_log sp rp d : no_observation (log_raw sp rp d).
Proof. unfold log_raw. destruct d; try exact I. unfold sample. quiet. Qed.
Lemma silent_hill hp sp mp d : no_observation (hill_raw hp sp mp d).
Proof. unfold hill_raw. destruct d; try exact I. unfold sample. quiet. Qed.
Lemma silent_mode m raw pe : no_observation raw -> no_observation (predict_mode m raw pe).
Proof. intros H. unfold predict_mode. apply silent_bind; [apply silent_lift|]. intros t. apply silent_bind; [exact H|]. intros x. apply silent_bind; [apply silent_lift|]. intros z. destruct m; [exact I|apply silent_lift]. Qed.

(** * Effects *)
Fixpoint fits (e : effect) (d : edata) : Prop := match e with Lift i _ _ _ _ => match d with ELift d _ => fits i d | _ => False end | _ => True end.
Fixpoint inner_data (e : effect) (d : edata) : edata := match e with Lift i _ _ _ _ => match d with ELift d _ => inner_data i d | _ => d end | _ => d end.
Lemma forget_effect K e d pe : K "lift_experiment" = true -> fits e d -> forget K (predict e d pe) = predict (without_lift e) (inner_data e d) pe.
Proof.
  intros HK. revert d. induction e as [m p b|m p q b|m p q r b|i IH t ps b s|sp tl ps m b ff x l]; intros d F; cbn [without_lift inner_data predict].
  - apply forget_silent, silent_mode, silent_linear.
  - apply forget_silent, silent_mode, silent_log.
  - apply forget_silent, silent_mode, silent_hill.
  - cbn [fits] in F. destruct d as [| |d lift]; try contradiction. rewrite forget_bind, (IH d F). rewrite <- (pbind_ret (predict (without_lift i) (inner_data i d) pe)) at 2. apply same_bind. intros v. unfold observe. cbn [pbind forget]. now rewrite HK.
  - apply forget_silent. destruct l as [[mm bb]|]; [|exact I]. apply silent_mode, silent_linear.
Qed.

(** * Models *)
Lemma silent_trend t td : no_observation (trend_predict t td).
Proof.
  destruct t as [p c b [f|]|s b [loc|]|e]; destruct td as [m|a|d]; cbn [trend_predict]; try exact I.
  - unfold piecewise_prog. destruct (pw_logistic (pf_params f)).
    + unfold plate, sample. quiet. destruct (Nat.eqb _ _); quiet.
    + unfold sample. quiet. destruct (Nat.eqb _ _); quiet.
  - unfold flat_prog. destruct (flat_prior loc s). unfold sample. quiet.
  - destruct (effect_raises e d) as [x ->]. exact I.
Qed.

Lemma lift_scoped n x : no_slash n = true -> lift_site (n ++ "/" ++ x) = String.eqb ("/" ++ x) "/lift_experiment".
Proof. intros H. unfold lift_site. now rewrite cut_scoped. Qed.
Lemma lift_plain n : no_slash n = true -> lift_site n = false.
Proof. intros H. unfold lift_site. now rewrite cut_plain. Qed.

(** data that the effects can be applied to, and the data of the effects without experiments *)
Definition data_fits (effs : dict effect) (data : dict edata) : Prop := forall n e d, In (n, e) effs -> dict_get data n = Some d -> fits e d.
Definition data_same (effs : dict effect) (data data' : dict edata) : Prop := forall n e, In (n, e) effs -> dict_item data' n = (d <- dict_item data n ;; Ok (inner_data e d)).
Lemma forget_effects (data data' : dict edata) effs : (forall n, In n (dict_keys effs) -> no_slash n = true) -> data_fits effs data -> data_same effs data data' -> forall mp,
  forget lift_site (apply_effects data mp (effect_fns effs)) = apply_effects data' mp (effect_fns (unlift_values effs)).
Proof.
  induction effs as [|[n ef] effs IH]; intros NS DF DS [m pe]; [reflexivity|].
  unfold effect_fns. cbn [unlift_values map fst snd apply_effects apply_effect]. fold (effect_fns effs). fold (unlift_values effs). fold (effect_fns (unlift_values effs)).
  assert (NN : no_slash n = true) by (apply NS; now left). rewrite (DS n ef) by now left. unfold dict_item in *. destruct (dict_get data n) as [d|] eqn:ED; cbn [bind lift_res pbind]; [|reflexivity].
  rewrite !pbind_assoc, forget_bind, forget_scope, (forget_effect _ ef d); [|rewrite lift_scoped by exact NN; reflexivity|apply (DF n); [now left|exact ED]].
  apply same_bind. intros v. unfold deterministic. cbn [pbind forget]. f_equal. destruct (arr_zip Rplus m v) as [m'|]; cbn [lift_res pbind forget]; [|reflexivity].
  apply IH; [intros q Hq; apply NS; now right|intros a b z Hab; apply DF; now right|intros a b Hab; apply DS; now right].
Qed.
Lemma forget_mean t td data data' effs : (forall n, In n (dict_keys effs) -> no_slash n = true) -> data_fits effs data -> data_same effs data data' ->
  forget lift_site (compute_mean (trend_predict t td) (Some data) (Some (effect_fns effs))) = compute_mean (trend_predict t td) (Some data') (Some (effect_fns (unlift_values effs))).
Proof.
  intros NS DF DS. unfold compute_mean. rewrite forget_bind, (forget_silent _ _ (silent_trend t td)). apply same_bind. intros tv. unfold deterministic. cbn [pbind forget]. f_equal.
  destruct effs as [|[n ef] effs]; [reflexivity|]. pose proof (forget_effects data data' _ NS DF DS (tv, [("trend", tv)])) as G.
  transitivity (forget lift_site (mp <~ apply_effects data (tv, [("trend", tv)]) (effect_fns ((n, ef) :: effs)) ;; Ret (fst mp))); [reflexivity|]. rewrite forget_bind, G. reflexivity.
Qed.
Lemma forget_mean_none t td (data data' : option (dict edata)) : forget lift_site (compute_mean (trend_predict t td) data None) = compute_mean (trend_predict t td) data' None.
Proof. unfold compute_mean. rewrite forget_bind, (forget_silent _ _ (silent_trend t td)). apply same_bind. intros tv. reflexivity. Qed.

Lemma forget_call c es s p t td y data data' : (forall n, In n (dict_keys (p_effects p)) -> no_slash n = true) -> data_fits (p_effects p) data -> data_same (p_effects p) data data' ->
  forget lift_site (model_call c s p t td y (Some data)) = model_call (with_effects c es) s (unlift_prepared p) t td y (Some data').
Proof.
  intros NS DF DS. unfold model_call. cbn [with_effects c_hier c_noise c_concentration c_likelihood unlift_prepared p_effects p_has_exogenous p_single]. pose proof (forget_mean t td data data' _ NS DF DS) as M. destruct (c_hier c).
  - unfold multivariate_model. rewrite forget_bind, M. apply same_bind. intros m. rewrite forget_bind.
    replace (forget lift_site match y with Some y0 => s0 <~ lift_res (squeeze_last y0) ;; Ret (Some (transpose s0)) | None => Ret None end) with (match y with Some y0 => s0 <~ lift_res (squeeze_last y0) ;; Ret (Some (transpose s0)) | None => Ret None end) by (destruct y as [y0|]; [destruct (squeeze_last y0)|]; reflexivity).
    apply same_bind. intros yo. destruct (p_single p).
    + unfold sample, plate, observe. cbn [pbind forget]. destruct yo; reflexivity.
    + rewrite forget_bind, forget_lift. apply same_bind. intros n. unfold sample. cbn [pbind forget]. f_equal. apply functional_extensionality. intros sd. f_equal. apply functional_extensionality. intros co.
      rewrite forget_bind, forget_lift. apply same_bind. intros h. rewrite forget_bind, forget_lift. apply same_bind. intros cv. rewrite forget_bind, forget_lift. apply same_bind. intros tt_. unfold plate. cbn [pbind forget]. f_equal.
      rewrite forget_bind, forget_lift. apply same_bind. intros l. unfold observe. cbn [forget]. destruct yo; reflexivity.
  - assert (MM : forget lift_site (compute_mean (trend_predict t td) (Some data) (if p_has_exogenous p then Some (effect_fns (p_effects p)) else None)) = compute_mean (trend_predict t td) (Some data') (if p_has_exogenous p then Some (effect_fns (unlift_values (p_effects p))) else None)).
    { destruct (p_has_exogenous p); [exact M|apply forget_mean_none]. }
    destruct (String.eqb (c_likelihood c) "normal"); [|destruct (String.eqb (c_likelihood c) "gamma"); [|destruct (String.eqb (c_likelihood c) "negbinomial"); [|reflexivity]]].
    + unfold univariate_model. rewrite forget_bind, MM. apply same_bind. intros m. unfold sample. cbn [pbind forget]. f_equal. apply functional_extensionality. intros no. rewrite forget_bind, forget_lift. apply same_bind. intros n. unfold plate, observe. cbn [pbind forget]. destruct y; reflexivity.
    + unfold univariate_gamma_model. rewrite forget_bind, MM. apply same_bind. intros m. cbv zeta. unfold sample. cbn [pbind forget]. f_equal. apply functional_extensionality. intros no. rewrite forget_bind, forget_lift. apply same_bind. intros n. unfold plate, observe. cbn [pbind forget]. destruct y; reflexivity.
    + unfold univariate_negbinomial_model. rewrite forget_bind, MM. apply same_bind. intros m. cbv zeta. unfold sample. cbn [pbind forget]. f_equal. apply functional_extensionality. intros no. rewrite forget_bind, forget_lift. apply same_bind. intros n. unfold plate, observe. cbn [pbind forget]. destruct y; reflexivity.
Qed.
Lemma forget_call_none c es s p t td y : p_has_exogenous p = false -> c_hier c = false ->
  forget lift_site (model_call c s p t td y None) = model_call (with_effects c es) s (unlift_prepared p) t td y None.
Proof.
  intros HX HH. unfold model_call. cbn [with_effects c_hier c_noise c_concentration c_likelihood unlift_prepared p_effects p_has_exogenous p_single]. rewrite HH, HX.
  destruct (String.eqb (c_likelihood c) "normal"); [|destruct (String.eqb (c_likelihood c) "gamma"); [|destruct (String.eqb (c_likelihood c) "negbinomial"); [|reflexivity]]];
  [unfold univariate_model|unfold univariate_gamma_model|unfold univariate_negbinomial_model]; rewrite forget_bind, (forget_mean_none t td None None); apply same_bind; intros m; cbv zeta; unfold sample; cbn [pbind forget]; f_equal; apply functional_extensionality; intros no; rewrite forget_bind, forget_lift; apply same_bind; intros n; unfold plate, observe; cbn [pbind forget]; destruct y; reflexivity.
Qed.

(** * Runs *)
Lemma get_but {V} (d : dict V) n : lift_site n = false -> dict_get (but_lifts d) n = dict_get d n.
Proof.
  intros H. induction d as [|[k v] d IH]; [reflexivity|]. unfold but_lifts. cbn [filter fst dict_get]. destruct (lift_site k) eqn:E; cbn [negb].
  - destruct (String.eqb_spec n k) as [->|N]; [congruence|exact IH].
  - cbn [dict_get]. destruct (String.eqb n k); [reflexivity|exact IH].
Qed.
Lemma set_but {V} (d : dict V) n v : lift_site n = false -> dict_set (but_lifts d) n v = but_lifts (dict_set d n v).
Proof.
  intros H. induction d as [|[k w] d IH]; [unfold but_lifts; cbn [filter dict_set fst]; now rewrite H|]. unfold but_lifts in *. cbn [filter dict_set fst]. destruct (String.eqb_spec n k) as [<-|N].
  - rewrite H. cbn [negb filter fst dict_set]. rewrite H. cbn [negb]. now rewrite String.eqb_refl.
  - cbn [filter fst]. destruct (lift_site k); cbn [negb]; [exact IH|]. cbn [dict_set]. destruct (String.eqb_spec n k); [congruence|]. now rewrite IH.
Qed.
Lemma set_lift {V} (d : dict V) n v : lift_site n = true -> dict_get d n = None -> but_lifts (dict_set d n v) = but_lifts d.
Proof.
  intros H. induction d as [|[k w] d IH]; [intros _; unfold but_lifts; cbn [filter dict_set fst]; now rewrite H|]. cbn [dict_get dict_set]. destruct (String.eqb n k); [discriminate|]. intros G. unfold but_lifts in *. cbn [filter fst]. now rewrite (IH G).
Qed.
(** sites other than observations are no results of experiments *)
Fixpoint sites_plain {A} (m : prog A) : Prop :=
  match m with
  | Ret _ | Raise _ => True
  | Sample n _ _ o k => (o = None -> lift_site n = false) /\ forall v, sites_plain (k v)
  | Det n _ k | Plate n _ k => lift_site n = false /\ sites_plain k
  end.
Lemma forget_run {A} (m : prog A) e : sites_plain m -> forall tr o tr1, run e tr m = Ok (o, tr1) -> run e (but_lifts tr) (forget lift_site m) = Ok (o, but_lifts tr1).
Proof.
  assert (RC : forall tr n s tr', lift_site n = false -> record tr n s = Ok tr' -> record (but_lifts tr) n s = Ok (but_lifts tr')).
  { intros tr n s tr' L H. unfold record in *. rewrite get_but, set_but by exact L. destruct s; [destruct (dict_get tr n); [discriminate|]| |]; injection H as <-; reflexivity. }
  induction m as [a|x|n d sh o k IH|n v k IH|n s k IH]; intros SP tr oo tr1 H; cbn [run forget sites_plain] in *; try discriminate.
  - injection H as <- <-. reflexivity.
  - destruct SP as [S1 S2]. destruct (record tr n _) as [tr'|] eqn:ER; [|discriminate]. cbn [bind] in H. destruct o as [y|].
    + cbn [site_value] in *. destruct (lift_site n) eqn:L.
      * assert (B : but_lifts tr' = but_lifts tr) by (unfold record in ER; destruct (dict_get tr n) eqn:G; [discriminate|]; injection ER as <-; now apply set_lift). rewrite <- B. now apply IH.
      * cbn [run site_value]. rewrite (RC _ _ _ _ L ER). cbn [bind]. now apply IH.
    + cbn [run]. rewrite (RC _ _ _ _ (S1 eq_refl) ER). cbn [bind]. now apply IH.
  - destruct SP as [S1 S2]. destruct (record tr n _) as [tr'|] eqn:ER; [|discriminate]. cbn [bind] in *. rewrite (RC _ _ _ _ S1 ER). cbn [bind]. now apply IH.
  - destruct SP as [S1 S2]. destruct (record tr n _) as [tr'|] eqn:ER; [|discriminate]. cbn [bind] in *. rewrite (RC _ _ _ _ S1 ER). cbn [bind]. now apply IH.
Qed.
Lemma density_split logpdf tr : log_joint logpdf tr = (log_joint logpdf (but_lifts tr) + log_joint logpdf (only_lifts tr))%R.
Proof.
  unfold log_joint, but_lifts, only_lifts. induction tr as [|[n s] tr IH]; [cbn; lra|]. cbn [filter map fst snd Rsum]. destruct (lift_site n); cbn [negb filter map fst snd Rsum]; unfold Rsum in *; cbn [map fold_right snd] in *; rewrite IH; lra.
Qed.
