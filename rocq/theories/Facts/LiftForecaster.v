(** Forecasters without the results of lift experiments. *)
From Coq Require Import Reals String Ascii Bool ZArith List Lia FunctionalExtensionality.
From Verif.Model Require Import Base Num XFloat Regex Frame Arr Expand Aggregate Scale Predict Prog Likelihood Effect Trend TrendProg Engine Forecaster.
From Verif.Spec Require Import ProgSpec ForecasterSpec SiteSpec ShiftSpec RelistSpec RenameSpec LiftSpec.
From Verif.Facts Require Import BaseFacts FrameFacts MeanFacts EffectPredict ForecasterFacts ForecasterInv ForecasterProps ModelProps RenameFacts RenameModel LiftFacts.
Import ListNotations.
Local Open Scope string_scope.

(** * Fitting effects *)
Lemma clone_unlift e : clone (without_lift e) = without_lift (clone e).
Proof. induction e; try reflexivity. exact IHe. Qed.
Fixpoint settled (cols : list string) (e : effect) : Prop :=
  match e with
  | Lift i _ _ b s => b = mkBase (Some cols) (Some true) /\ (exists r, s = Some r) /\ settled cols i
  | _ => get_base e = mkBase (Some cols) (Some true)
  end.
Lemma settled_base cols e : settled cols e -> get_base e = mkBase (Some cols) (Some true).
Proof. destruct e; try (intros H; exact H). intros [H _]. exact H. Qed.
Lemma settled_inner cols e : settled cols e -> settled cols (without_lift e).
Proof. induction e; cbn [settled without_lift]; try (intros H; exact H). intros (_ & _ & H). auto. Qed.

Section Effects.
Variable order : list string -> list string.
Definition no_lift (e : effect) : Prop := match e with Lift _ _ _ _ _ => False | _ => True end.
Lemma base_fit_settled e X e' : no_lift e -> base_fit order e X = (e', None) -> settled (columns_seen X) e' /\ without_lift e' = e'.
Proof.
  intros NL H. unfold base_fit in H. destruct (_ && _); [discriminate|]. destruct e as [m p b|m p q b|m p q r b|i t ps b s|sp tl ps m b ff x l]; try (cbn in H; injection H as <-; split; reflexivity).
  - destruct NL.
  - cbn [set_cols set_base get_base] in H. cbn [inner_fit] in H. destruct (fourier_fit sp tl X) as [f|]; [|discriminate]. destruct X as [X|]; [|discriminate]. destruct (fourier_transform f X) as [XF|]; [|discriminate].
    cbv zeta in H. match type of H with context [match (if ?b then ?u else ?v) with _ => _ end] => destruct (if b then u else v) as [[XE x']|] end; [|discriminate]. destruct (check_mode m); [|discriminate]. cbn in H. injection H as <-. split; reflexivity.
Qed.
Lemma fit_unlift e X s e' : fit order e X s = (e', None) -> fit order (without_lift e) X s = (without_lift e', None) /\ settled (columns_seen X) e'.
Proof.
  revert e'. induction e as [m p b|m p q b|m p q r b|i IH t ps b s0|sp tl ps m b ff x l]; intros e' H.
  1-3,5: (cbn [fit without_lift] in *; match type of H with base_fit _ ?e _ = _ => pose proof (base_fit_settled e X e' I H) as [S E] end; rewrite E; auto).
  cbn [fit without_lift] in *. destruct (fit order i X s) as [i' [x|]] eqn:F; [discriminate|]. destruct (IH i' eq_refl) as [F' S']. unfold base_fit in H. destruct (_ && _); [discriminate|]. cbn in H. injection H as <-. cbn [without_lift settled]. split; [exact F'|].
  split; [reflexivity|]. split; [eexists; reflexivity|exact S'].
Qed.

Lemma inner_unlift cols e X fh d : settled cols e -> inner_transform e X fh = Ok d -> fits e d /\ inner_transform (without_lift e) X fh = Ok (inner_data e d).
Proof.
  revert d. induction e as [m p b|m p q b|m p q r b|i IH t ps b s0|sp tl ps m b ff x l]; intros d S H; try (split; [exact I|exact H]).
  cbn [settled] in S. destruct S as (_ & _ & S). cbn [inner_transform] in H. destruct (inner_transform i X fh) as [d'|] eqn:E; [|discriminate]. cbn [bind] in H. destruct s0 as [s0|]; [|discriminate]. cbn [attr bind] in H. injection H as <-. destruct (IH d' S eq_refl) as [F Q]. split; [exact F|exact Q].
Qed.
Lemma cols_settled cols e : settled cols e -> input_feature_column_names e = Ok cols.
Proof.
  intros S. pose proof (settled_base _ _ S) as B. destruct e; cbn [input_feature_column_names]; try (now rewrite B). destruct S as (_ & _ & S). now rewrite (settled_base _ _ S).
Qed.
Definition same_skip (e : effect) : Prop := should_skip_predict (without_lift e) = should_skip_predict e.
Lemma transform_unlift cols e X fh d : settled cols e -> should_skip_predict e = Ok false -> same_skip e -> transform e (Some X) fh = Ok d -> fits e d /\ transform (without_lift e) (Some X) fh = Ok (inner_data e d).
Proof.
  intros S SK SS H. pose proof (settled_inner _ _ S) as S'. unfold transform in *. unfold same_skip in SS. rewrite (settled_base _ _ S) in H. rewrite (settled_base _ _ S'). cbn [b_fitted attr bind negb] in *. rewrite SS, SK in *. cbn [bind] in *.
  rewrite (cols_settled _ _ S) in H. rewrite (cols_settled _ _ S'). cbn [bind] in *. destruct (select_columns _ _ _) as [XC|]; [|discriminate]. cbn [bind] in *. now apply (inner_unlift cols).
Qed.
Lemma use_skip cols e : settled cols e -> b_cols (get_base e) <> Some [] \/ skip_if_no_match (without_lift e) = skip_if_no_match e -> same_skip e.
Proof.
  intros S H. unfold same_skip, should_skip_predict, should_skip_base. rewrite (settled_base _ _ S) in *. rewrite (settled_base _ _ (settled_inner _ _ S)). cbn [b_cols attr bind] in *. destruct cols as [|k cols]; [|reflexivity]. destruct H as [H| ->]; [congruence|reflexivity].
Qed.

(** * Lists of effects *)
Lemma fit_one_unlift X s l f : fit_one order (Some X) s l = Ok f -> fit_one order (Some X) s (unlift_listed l) = Ok (unlift_fitted f) /\ exists k, settled k (fe_effect f).
Proof.
  destruct l as [[n e] re]. unfold fit_one, unlift_listed, l_name, l_effect, l_regex. cbn [fst snd]. destruct (match_columns _ re) as [cols|]; [|discriminate]. cbn [bind]. destruct (select_columns _ _ _) as [XC|]; [|discriminate]. cbn [bind].
  rewrite clone_unlift. destruct (fit order (clone e) (Some XC) s) as [e' [x|]] eqn:F; [discriminate|]. intros [= <-]. apply fit_unlift in F as [-> S]. split; [reflexivity|]. cbn [fe_effect fst snd]. eauto.
Qed.
Lemma uncovered_unlift cols fitted : uncovered cols (map unlift_fitted fitted) = uncovered cols fitted.
Proof. unfold uncovered. do 2 f_equal. apply filter_ext. intros c. f_equal. induction fitted as [|f fitted IH]; [reflexivity|]. cbn [map existsb]. rewrite IH. reflexivity. Qed.
Lemma fit_effects_unlift default es X s g : plain_default default -> fit_effects order default es (Some X) s = Ok g ->
  fit_effects order default (map unlift_listed es) (Some X) s = Ok (map unlift_fitted g) /\ forall f, In f g -> exists k, settled k (fe_effect f).
Proof.
  intros PD H. unfold fit_effects in *. destruct (mapM (fit_one order (Some X) s) es) as [a|] eqn:M; [|discriminate]. cbn [bind] in H.
  assert (Q : mapM (fit_one order (Some X) s) (map unlift_listed es) = Ok (map unlift_fitted a) /\ forall f, In f a -> exists k, settled k (fe_effect f)).
  { clear H. revert a M. induction es as [|l es IH]; intros a M; cbn [map mapM] in *; [injection M as <-; split; [reflexivity|intros f []]|].
    destruct (fit_one order (Some X) s l) as [f|] eqn:F; [|discriminate]. cbn [bind] in M. destruct (mapM _ es) as [fs|] eqn:M'; [|discriminate]. injection M as <-. apply fit_one_unlift in F as [-> SF]. destruct (IH fs eq_refl) as [Q1 Q2]. cbn [bind]. rewrite Q1. split; [reflexivity|]. intros g0 [<-|I]; auto. }
  destruct Q as [-> QS]. cbn [bind]. rewrite uncovered_unlift. destruct (uncovered (f_cols X) a) as [|u us]; [injection H as <-; auto|]. destruct (select_columns _ _ _) as [XC|]; [|discriminate]. cbn [bind] in *.
  set (dd := match default with Some e => e | None => default_linear end) in *. assert (PP : without_lift dd = dd) by (unfold dd; destruct default as [e|]; [now apply PD|reflexivity]).
  assert (FD : forall e1 e2, fit order e1 (Some XC) s = (e2, None) -> without_lift e1 = e1 -> without_lift e2 = e2 /\ exists k, settled k e2).
  { intros e1 e2 F W. pose proof (fit_unlift _ _ _ _ F) as [F' S]. rewrite W, F in F'. injection F' as F'. split; [now symmetry|eauto]. }
  destruct (fit order _ _ _) as [e' [x|]] eqn:F; [discriminate|]. injection H as <-.
  destruct (FD _ _ F) as [W S]; [now rewrite <- clone_unlift, PP|]. rewrite map_app. cbn [map]. unfold unlift_fitted at 3, fe_name, fe_effect, fe_cols. cbn [fst snd]. rewrite W. split; [reflexivity|].
  intros f I. apply in_app_or in I as [I|[<-|[]]]; [exact (QS f I)|exact S].
Qed.
End Effects.

(** what fitted effects satisfy *)
Definition ready (g : list fitted_effect) : Prop := forall f, In f g -> same_skip (fe_effect f) /\ exists k, settled k (fe_effect f).
Lemma in_use_ready g : in_use g -> (forall f, In f g -> exists k, settled k (fe_effect f)) -> ready g.
Proof. intros U S [[n e] cols] I. destruct (S _ I) as [k K]. split; [|eauto]. exact (use_skip k e K (U n e cols I)). Qed.

Lemma set_unlift (d : dict effect) n e : unlift_values (dict_set d n e) = dict_set (unlift_values d) n (without_lift e).
Proof. unfold unlift_values. induction d as [|[k v] d IH]; [reflexivity|]. cbn [dict_set map fst snd]. destruct (String.eqb n k); [reflexivity|]. cbn [map fst snd]. now rewrite IH. Qed.
Lemma non_skipped_unlift g effs : ready g -> non_skipped g = Ok effs -> non_skipped (map unlift_fitted g) = Ok (unlift_values effs).
Proof.
  unfold non_skipped. change (@nil (string * effect)) with (unlift_values []) at 2. generalize (@nil (string * effect)) as out. induction g as [|[[n e] cols] g IH]; intros out R H; [cbn in *; injection H as <-; reflexivity|].
  assert (R' : ready g) by (intros f I; apply R; now right). destruct (R _ (or_introl eq_refl)) as [SS _]. unfold same_skip, fe_effect in SS. cbn [fst snd] in SS.
  cbn [map foldM] in *. unfold unlift_fitted at 1, fe_name, fe_effect, fe_cols. cbn [fst snd]. rewrite SS. destruct (should_skip_predict e) as [[]|]; cbn [bind] in *; [now apply IH| |discriminate]. rewrite <- set_unlift. now apply IH.
Qed.

(** data and effects together *)
Definition paired (effs : dict effect) (data data' : dict edata) : Prop :=
  forall n e, dict_get effs n = Some e -> exists d, dict_get data n = Some d /\ fits e d /\ dict_get data' n = Some (inner_data e d).
Lemma transform_effects_unlift g X fh effs data : ready g -> non_skipped g = Ok effs -> transform_effects g X fh = Ok data ->
  exists data', transform_effects (map unlift_fitted g) X fh = Ok data' /\ paired effs data data'.
Proof.
  unfold non_skipped, transform_effects. intros R HN HT.
  assert (Q : forall g (oe : dict effect) (od od' : dict edata), ready g -> paired oe od od' ->
    foldM (fun out (f : fitted_effect) => let '(name, e, _) := f in skip <- should_skip_predict e ;; Ok (if (skip : bool) then out else dict_set out name e)) oe g = Ok effs ->
    foldM (fun out (f : fitted_effect) => let '(name, e, cols) := f in skip <- should_skip_predict e ;; if (skip : bool) then Ok out else XC <- select_columns 0%R X cols ;; d <- transform e (Some XC) fh ;; Ok (dict_set out name d)) od g = Ok data ->
    exists data', foldM (fun out (f : fitted_effect) => let '(name, e, cols) := f in skip <- should_skip_predict e ;; if (skip : bool) then Ok out else XC <- select_columns 0%R X cols ;; d <- transform e (Some XC) fh ;; Ok (dict_set out name d)) od' (map unlift_fitted g) = Ok data' /\ paired effs data data').
  { clear g R HN HT. induction g as [|[[n e] cols] g IH]; intros oe od od' R PD HN HT; [cbn in *; injection HN as <-; injection HT as <-; eauto|].
    assert (R' : ready g) by (intros f I; apply R; now right). destruct (R _ (or_introl eq_refl)) as [SS [k SK]]. unfold fe_effect in SS, SK. cbn [fst snd] in SS, SK. pose proof SS as SS0. unfold same_skip in SS.
    cbn [map foldM] in *. unfold unlift_fitted at 1, fe_name, fe_effect, fe_cols. cbn [fst snd]. rewrite SS. destruct (should_skip_predict e) as [[]|] eqn:SE; cbn [bind] in *; [now apply (IH oe od od')| |discriminate].
    destruct (select_columns _ _ _) as [XC|]; [|discriminate]. cbn [bind] in *. destruct (transform e (Some XC) fh) as [d|] eqn:T; [|discriminate]. cbn [bind] in *. destruct (transform_unlift k e XC fh d SK SE SS0 T) as [F ->]. cbn [bind].
    apply (IH (dict_set oe n e) (dict_set od n d)); auto. intros m em G. rewrite dict_get_set in G. rewrite !dict_get_set. destruct (String.eqb m n); [injection G as <-; eauto|now apply PD]. }
  apply (Q g [] [] []); auto. intros n e G. discriminate.
Qed.
Lemma paired_data effs data data' : NoDup (dict_keys effs) -> paired effs data data' -> data_fits effs data /\ data_same effs data data'.
Proof.
  intros ND PD. split.
  - intros n e d I G. apply (ModelProps.dict_get_nodup _ _ _ ND) in I. destruct (PD n e I) as (d0 & G0 & F & _). congruence.
  - intros n e I. apply (ModelProps.dict_get_nodup _ _ _ ND) in I. destruct (PD n e I) as (d0 & G0 & _ & G1). unfold dict_item. now rewrite G0, G1.
Qed.
Lemma data_unlift g X fh effs data : ready g -> non_skipped g = Ok effs -> transform_effects g X fh = Ok data ->
  exists data', transform_effects (map unlift_fitted g) X fh = Ok data' /\ data_fits effs data /\ data_same effs data data'.
Proof.
  intros R HN HT. destruct (transform_effects_unlift g X fh effs data R HN HT) as (data' & T & PD). exists data'. split; [exact T|]. exact (paired_data effs data data' (non_skipped_nodup _ _ HN) PD).
Qed.

(** * Sites *)
Fixpoint clear_of {A} (K : string -> bool) (m : prog A) : Prop :=
  match m with
  | Ret _ | Raise _ => True
  | Sample n _ _ o k => (o = None -> K n = false) /\ forall v, clear_of K (k v)
  | Det n _ k | Plate n _ k => K n = false /\ clear_of K k
  end.
Lemma clear_plain {A} (m : prog A) : clear_of lift_site m -> sites_plain m.
Proof. induction m as [a|x|n d sh o k IH|n v k IH|n s k IH]; cbn [clear_of sites_plain]; auto; intros [H1 H2]; split; auto. Qed.
Lemma clear_bind {A B} K (m : prog A) (f : A -> prog B) : clear_of K m -> (forall x, clear_of K (f x)) -> clear_of K (pbind m f).
Proof. induction m as [a|x|n d sh o k IH|n v k IH|n s k IH]; cbn [pbind clear_of]; intros H1 H2; auto; destruct H1 as [H1 H3]; split; auto. Qed.
Lemma clear_lift {A} K (r : res A) : clear_of K (lift_res r).
Proof. destruct r; exact I. Qed.
Lemma clear_scope {A} K p (m : prog A) : clear_of (fun n => K (p ++ "/" ++ n)) m -> clear_of K (scope p m).
Proof. induction m as [a|x|n d sh o k IH|n v k IH|n s k IH]; cbn [scope clear_of]; auto; intros [H1 H2]; split; auto. Qed.
Lemma clear_ext {A} K K' (m : prog A) : (forall n, K n = K' n) -> clear_of K m -> clear_of K' m.
Proof. intros E. induction m as [a|x|n d sh o k IH|n v k IH|n s k IH]; cbn [clear_of]; auto; intros [H1 H2]; rewrite <- E; split; auto. Qed.
Ltac tidy := repeat first [progress (cbn [pbind clear_of]) | split; [now try reflexivity|] | exact I | apply clear_lift | apply clear_bind; [|intros] | intros ].
Notation inner_lift := (fun x => String.eqb ("/" ++ x) "/lift_experiment").
Lemma clear_effect e d pe : clear_of inner_lift (predict e d pe).
Proof.
  assert (M : forall m raw, clear_of inner_lift raw -> clear_of inner_lift (predict_mode m raw pe)).
  { intros m raw H. unfold predict_mode. apply clear_bind; [apply clear_lift|]. intros t. cbv zeta. apply clear_bind; [exact H|]. intros x. apply clear_bind; [apply clear_lift|]. intros z. destruct m; [exact I|apply clear_lift]. }
  assert (L : forall prior d, clear_of inner_lift (linear_raw prior d)).
  { clear d. intros prior d. unfold linear_raw. destruct d as [|a|]; try exact I. destruct (rev (a_shape a)) as [|[|k] l]; try exact I. unfold plate, sample. tidy. }
  revert d. induction e as [m p b|m p q b|m p q r b|i IH t ps b s|sp tl ps m b ff x l]; intros d; cbn [predict].
  - apply M, L.
  - apply M. unfold log_raw. destruct d; try exact I. unfold sample. tidy.
  - apply M. unfold hill_raw. destruct d; try exact I. unfold sample. tidy.
  - destruct d as [| |d lift]; try exact I. apply clear_bind; [apply IH|]. intros v. unfold observe. cbn [pbind clear_of]. split; [discriminate|intros; exact I].
  - destruct l as [[mm bb]|]; [|exact I]. apply M, L.
Qed.
Lemma clear_trend t td : clear_of lift_site (trend_predict t td).
Proof.
  destruct t as [p c b [f|]|s b [loc|]|e]; destruct td as [m|a|d]; cbn [trend_predict]; try exact I.
  - unfold piecewise_prog. destruct (pw_logistic (pf_params f)).
    + unfold plate, sample. tidy. destruct (Nat.eqb _ _); tidy.
    + unfold sample. tidy. destruct (Nat.eqb _ _); tidy.
  - unfold flat_prog. destruct (flat_prior loc s). unfold sample. tidy.
  - destruct (effect_raises e d) as [x ->]. exact I.
Qed.

Lemma clear_effects data effs : (forall n, In n (dict_keys effs) -> no_slash n = true) -> forall mp, clear_of lift_site (apply_effects data mp (effect_fns effs)).
Proof.
  induction effs as [|[n ef] effs IH]; intros NS [m pe]; [exact I|]. cbn [effect_fns map apply_effects fst snd]. assert (N : no_slash n = true) by (apply NS; now left). apply clear_bind; [|intros mp; apply IH; intros k K; apply NS; now right].
  unfold apply_effect. apply clear_bind; [apply clear_lift|]. intros d. apply clear_bind.
  - apply clear_scope. eapply clear_ext; [|apply clear_effect]. intros x. symmetry. now apply lift_scoped.
  - intros v. unfold deterministic. cbn [pbind clear_of]. split; [now apply lift_plain|]. tidy.
Qed.
Lemma clear_mean t td data effs : (forall n, In n (dict_keys effs) -> no_slash n = true) -> clear_of lift_site (compute_mean (trend_predict t td) data (Some (effect_fns effs))).
Proof.
  intros NS. unfold compute_mean. apply clear_bind; [apply clear_trend|]. intros tv. unfold deterministic. cbn [pbind clear_of]. split; [reflexivity|]. destruct effs as [|[n ef] effs]; [exact I|]. destruct data as [data|]; [|exact I].
  cbn [effect_fns map]. apply clear_bind; [exact (clear_effects data ((n, ef) :: effs) NS _)|]. intros; exact I.
Qed.
Lemma clear_mean_none t td (data : option (dict edata)) : clear_of lift_site (compute_mean (trend_predict t td) data None).
Proof. unfold compute_mean. apply clear_bind; [apply clear_trend|]. intros tv. split; [reflexivity|exact I]. Qed.
Lemma clear_call c s p t td y data : (forall n, In n (dict_keys (p_effects p)) -> no_slash n = true) -> clear_of lift_site (model_call c s p t td y data).
Proof.
  intros NS. unfold model_call. destruct (c_hier c).
  - unfold multivariate_model. apply clear_bind; [now apply clear_mean|]. intros m. apply clear_bind; [destruct y as [y0|]; tidy|]. intros yo. destruct (p_single p); unfold sample, plate, observe; tidy.
  - assert (M : clear_of lift_site (compute_mean (trend_predict t td) data (if p_has_exogenous p then Some (effect_fns (p_effects p)) else None))) by (destruct (p_has_exogenous p); [now apply clear_mean|apply clear_mean_none]).
    destruct (String.eqb (c_likelihood c) "normal"); [|destruct (String.eqb (c_likelihood c) "gamma"); [|destruct (String.eqb (c_likelihood c) "negbinomial"); [|exact I]]];
    [unfold univariate_model|unfold univariate_gamma_model|unfold univariate_negbinomial_model]; (apply clear_bind; [exact M|]); intros m; cbv zeta; unfold sample, plate, observe; tidy.
Qed.

Section Any.
Variable ns_of : Z -> Z.
Variable order : list string -> list string.
Variable keep : path -> bool.
Context {TS P : Type}.
Variable tr_fit_transform : TS -> frame R -> TS * res (frame R).
Variable tr_transform : TS -> frame R -> res (frame R).
Variable svi_run : Z -> nat -> nat -> prog arr -> res (list xr * P).
Variable nuts_run : Z -> nat -> nat -> nat -> prog arr -> res (nat -> nat -> env).
Variable latent_sites : prog arr -> list string.
Variable guide_draw : P -> Z -> nat -> prog arr -> env.
Variable complete_draw : env -> Z -> nat -> prog arr -> env.
Notation fit_data := (fit_data ns_of order keep tr_fit_transform).
Notation fit_forecaster := (fit_forecaster ns_of order keep tr_fit_transform svi_run nuts_run latent_sites).
Notation predict_model := (predict_model ns_of keep tr_transform).

(** what a fit leaves behind *)
Definition prepared_ready (p : prepared) : Prop :=
  ready (p_fitted p) /\ non_skipped (p_fitted p) = Ok (p_effects p) /\ forall n, In n (dict_keys (p_effects p)) -> no_slash n = true.
Theorem c117_fit c ob s y X ob' p m : (forall l, In l (effects_of c) -> no_slash (l_name l) = true) -> plain_default (c_default c) ->
  fit_data c ob s y X = (ob', Ok (p, m)) -> in_use (p_fitted p) ->
  fit_data (unlift_config c) ob s y X = (ob', Ok (unlift_prepared p, forget lift_site m)) /\ prepared_ready p /\ sites_plain m.
Proof.
  intros NS PD H U. unfold Forecaster.fit_data in *. set (c' := unlift_config c). change (c_hier c') with (c_hier c). destruct (c_hier c) eqn:HH.
  - unfold hierarchical_fit_data in *. change (get_trend_model c') with (get_trend_model (TS := TS) c). change (c_shared c') with (c_shared c). change (effects_of c') with (map unlift_listed (effects_of c)). change (c_default c') with (c_default c).
    destruct (loc_bottom_series (aggregate keep y)) as [yb|]; [|discriminate]. destruct (series_to_tensor yb) as [tensor|]; [|discriminate]. cbv zeta in *.
    destruct (loc_bottom_series _) as [Xb|]; [|discriminate]. destruct (run_fit_transform _ _ _) as [ob1 [Xt|]]; [|discriminate].
    destruct (if negb (no_columns Xt) then _ else _) as [[Xe ex]|]; [|discriminate]. destruct (get_trend_model c ob1) as [t0|]; [|discriminate].
    destruct (trend_fit _ _ _ _ _ _) as [t [er|]]; [discriminate|]. injection H as <- H. destruct (trend_transform _ _ _ _) as [td|]; [|discriminate]. cbn [bind] in *.
    destruct (fit_effects _ _ (effects_of c) _ _) as [g|] eqn:FE; [|discriminate]. cbn [bind] in H. destruct (transform_effects g _ _) as [data|] eqn:TE; [|discriminate]. cbn [bind] in H. destruct (non_skipped g) as [effs|] eqn:NE; [|discriminate]. cbn [bind] in H. injection H as <- <-. cbn [p_fitted] in U.
    pose proof (fit_effects_unlift order _ _ _ _ _ PD FE) as [FU SU]. pose proof (in_use_ready g U SU) as R. destruct (data_unlift g _ _ effs data R NE TE) as (data' & TU & DF & DS). pose proof (names_plain order _ _ _ _ _ _ FE NE NS) as NP.
    split; [|split; [exact (conj R (conj NE NP))|apply clear_plain, clear_call; exact NP]]. rewrite FU. cbn [bind]. rewrite TU. cbn [bind]. rewrite (non_skipped_unlift g effs R NE). cbn [bind]. do 3 f_equal. symmetry. apply (forget_call c _ s (mkPrepared _ g effs _ ex _)); assumption.
  - unfold univariate_fit_data in *. change (get_trend_model c') with (get_trend_model (TS := TS) c). change (discrete c') with (discrete c). change (effects_of c') with (map unlift_listed (effects_of c)). change (c_default c') with (c_default c).
    destruct (get_trend_model c ob) as [t0|]; [|discriminate]. destruct (if discrete c then divide_target s y else Ok y) as [yt|]; [|discriminate].
    destruct (trend_fit _ _ t0 X yt 1) as [t [er|]]; [discriminate|]. cbv zeta in *. destruct (run_fit_transform _ _ _) as [ob1 [Xt|]]; [|discriminate]. injection H as <- H. cbn [bind] in *.
    destruct (loc_index Xt (index_of y)) as [X1|]; [|discriminate]. cbn [bind] in *. destruct (trend_transform _ _ _ _) as [td|]; [|discriminate]. cbn [bind] in *.
    destruct (fit_effects _ _ (effects_of c) _ _) as [g|] eqn:FE; [|discriminate]. cbn [bind] in H. destruct (transform_effects g _ _) as [data|] eqn:TE; [|discriminate]. cbn [bind] in H. destruct (non_skipped g) as [effs|] eqn:NE; [|discriminate]. cbn [bind] in H. injection H as <- <-. cbn [p_fitted] in U.
    pose proof (fit_effects_unlift order _ _ _ _ _ PD FE) as [FU SU]. pose proof (in_use_ready g U SU) as R. destruct (data_unlift g _ _ effs data R NE TE) as (data' & TU & DF & DS). pose proof (names_plain order _ _ _ _ _ _ FE NE NS) as NP.
    split; [|split; [exact (conj R (conj NE NP))|apply clear_plain, clear_call; exact NP]]. rewrite FU. cbn [bind]. rewrite TU. cbn [bind]. rewrite (non_skipped_unlift g effs R NE). cbn [bind]. do 3 f_equal. symmetry. apply (forget_call c _ s (mkPrepared _ g effs _ None _)); assumption.
Qed.
Lemma fit_ready c ob y X ob' (f : fitted (P := P)) : fit_forecaster c ob y X = (ob', Ok f) -> (forall l, In l (effects_of c) -> no_slash (l_name l) = true) -> plain_default (c_default c) -> in_use (p_fitted (ft_prepared f)) -> prepared_ready (ft_prepared f).
Proof.
  intros H NS PD U. unfold Forecaster.fit_forecaster in H. destruct (_ <- set_y_scales (c_scale c) y ;; _) as [[s ys]|]; [|discriminate]. destruct (fit_data c ob s ys X) as [ob1 [[p m]|]] eqn:E; [|discriminate]. injection H as <- H. cbn [bind] in H. inv_bind H. injection H as <-. cbn [ft_prepared] in *.
  exact (proj1 (proj2 (c117_fit _ _ _ _ _ _ _ _ NS PD E U))).
Qed.

(** * Forecasts *)
Lemma hier_model_unlift c es ob (f f' : fitted (P := P)) y X fh m ex : prepared_ready (ft_prepared f) -> ft_scale f' = ft_scale f -> ft_prepared f' = unlift_prepared (ft_prepared f) ->
  c_hier c = true -> hierarchical_predict_model ns_of keep tr_transform c ob f y X fh = Ok (m, ex) ->
  hierarchical_predict_model ns_of keep tr_transform (with_effects c es) ob f' y X fh = Ok (forget lift_site m, ex) /\ sites_plain m.
Proof.
  intros (R & NE & NP) E1 E2 HH. unfold hierarchical_predict_model. cbv zeta. rewrite E1, E2. cbn [unlift_prepared p_index p_has_exogenous p_expander p_fitted].
  destruct (max_time _) as [cutoff|]; [|discriminate]. cbn [bind]. destruct (loc_bottom_series _) as [Xb|]; [|discriminate]. cbn [bind]. set (step := if p_has_exogenous (ft_prepared f) then _ else _). destruct step as [[Xe exx]|]; [|discriminate]. cbn [bind].
  destruct (trend_transform _ _ _ _) as [td|]; [|discriminate]. cbn [bind]. destruct (transform_effects (p_fitted (ft_prepared f)) _ _) as [data|] eqn:TE; [|discriminate]. cbn [bind]. intros [= <- <-].
  destruct (data_unlift _ _ _ _ data R NE TE) as (data' & TU & DF & DS). rewrite TU. cbn [bind]. split; [|apply clear_plain, clear_call; exact NP]. do 2 f_equal. symmetry. exact (forget_call c es (ft_scale f) (ft_prepared f) _ td None data data' NP DF DS).
Qed.
Lemma univ_model_unlift c es ob (f f' : fitted (P := P)) y X fh m : prepared_ready (ft_prepared f) -> ft_scale f' = ft_scale f -> ft_prepared f' = unlift_prepared (ft_prepared f) ->
  c_hier c = false -> univariate_predict_model ns_of tr_transform c ob f y X fh = Ok m ->
  univariate_predict_model ns_of tr_transform (with_effects c es) ob f' y X fh = Ok (forget lift_site m) /\ sites_plain m.
Proof.
  intros (R & NE & NP) E1 E2 HH. unfold univariate_predict_model. cbv zeta. rewrite E1, E2. cbn [unlift_prepared p_has_exogenous p_fitted].
  destruct (max_time _) as [cutoff|]; [|discriminate]. cbn [bind]. destruct (run_transform _ _ _) as [Xt|]; [|discriminate]. cbn [bind]. destruct (trend_transform _ _ _ _) as [td|]; [|discriminate]. cbn [bind].
  destruct (p_has_exogenous (ft_prepared f)) eqn:HE.
  - destruct (transform_effects (p_fitted (ft_prepared f)) _ _) as [data|] eqn:TE; [|discriminate]. cbn [bind]. intros [= <-]. destruct (data_unlift _ _ _ _ data R NE TE) as (data' & TU & DF & DS). rewrite TU. cbn [bind]. split; [|apply clear_plain, clear_call; exact NP]. f_equal. symmetry. exact (forget_call c es (ft_scale f) (ft_prepared f) _ td None data data' NP DF DS).
  - cbn [bind]. intros [= <-]. split; [|apply clear_plain, clear_call; exact NP]. f_equal. symmetry. exact (forget_call_none c es (ft_scale f) (ft_prepared f) _ td None HE HH).
Qed.
Theorem c117_model c ob (f f' : fitted (P := P)) y X fh m : prepared_ready (ft_prepared f) -> ft_scale f' = ft_scale f -> ft_prepared f' = unlift_prepared (ft_prepared f) ->
  predict_model c ob f y X fh = Ok m -> predict_model (unlift_config c) ob f' y X fh = Ok (forget lift_site m) /\ sites_plain m.
Proof.
  intros R E1 E2 H. unfold ForecasterSpec.predict_model in *. change (c_hier (unlift_config c)) with (c_hier c). unfold unlift_config. destruct (c_hier c) eqn:HH; [|exact (univ_model_unlift c (map unlift_listed (effects_of c)) ob f f' y X fh m R E1 E2 HH H)].
  destruct (hierarchical_predict_model _ _ _ c ob f y X fh) as [[m0 ex]|] eqn:E; [|discriminate]. cbn [bind] in H. injection H as <-. destruct (hier_model_unlift c (map unlift_listed (effects_of c)) ob f f' y X fh m0 ex R E1 E2 HH E) as [Q S]. rewrite Q. split; [reflexivity|exact S].
Qed.

Lemma predictive_but latent tr : predictive_values latent (but_lifts tr) = but_lifts (predictive_values latent tr).
Proof.
  unfold predictive_values, but_lifts. induction tr as [|[n s] tr IH]; [reflexivity|]. cbn [filter flat_map fst snd]. rewrite filter_app, <- IH. destruct (lift_site n) eqn:L; cbn [negb]; [|cbn [flat_map fst snd]; f_equal]; destruct s; try destruct (str_in n latent); cbn [filter fst snd]; rewrite ?L; reflexivity.
Qed.
Lemma item_but {V} (d : dict V) n : lift_site n = false -> dict_item (but_lifts d) n = dict_item d n.
Proof. intros L. unfold dict_item. now rewrite get_but. Qed.
Lemma stack_but ds r : stack ds = Ok r -> stack (map but_lifts ds) = Ok (but_lifts r).
Proof.
  unfold stack. destruct ds as [|d ds']; [discriminate|]. cbn [map]. set (ds := d :: ds'). change (but_lifts d :: map but_lifts ds') with (map but_lifts ds). clearbody ds. clear ds'. revert r. induction d as [|[k a] d IH]; intros r H; cbn [mapM] in H; [injection H as <-; reflexivity|].
  destruct (stack_site ds (k, a)) as [kv|] eqn:S; [|discriminate]. cbn [bind] in H. destruct (mapM (stack_site ds) d) as [r0|]; [|discriminate]. injection H as <-. unfold but_lifts at 2 3. cbn [filter fst].
  assert (K : fst kv = k) by (unfold stack_site in S; destruct (mapM _ ds); [|discriminate]; cbn [bind] in S; destruct (forallb _ _); [|discriminate]; injection S as <-; reflexivity). rewrite K.
  destruct (lift_site k) eqn:L; cbn [negb]; [exact (IH r0 eq_refl)|]. cbn [mapM].
  assert (S' : stack_site (map but_lifts ds) (k, a) = stack_site ds (k, a)).
  { unfold stack_site. cbn [fst snd]. rewrite map_length. replace (mapM (fun d0 => dict_item d0 k) (map but_lifts ds)) with (mapM (fun d0 => dict_item d0 k) ds); [reflexivity|]. clear -L. induction ds as [|d ds IH]; [reflexivity|]. cbn [map mapM]. now rewrite item_but, IH. }
  rewrite S', S. cbn [bind]. specialize (IH r0 eq_refl). unfold but_lifts in IH at 2 3. rewrite IH. reflexivity.
Qed.
Lemma engine_unlift a (i i' : inferred P) m ds : sites_plain m -> same_draws guide_draw complete_draw a i i' m -> engine_predict guide_draw complete_draw a i m = Ok ds -> engine_predict guide_draw complete_draw a i' (forget lift_site m) = Ok (but_lifts ds).
Proof.
  intros SP [L D] H. unfold engine_predict in *. rewrite L, D. destruct (mapM _ _) as [traces|] eqn:M; [|discriminate]. cbn [bind] in H.
  assert (Q : mapM (fun e => run e [] (forget lift_site m)) (draws guide_draw complete_draw a i m) = Ok (map (fun at_ => (fst at_, but_lifts (snd at_))) traces)).
  { clear -SP M. revert traces M. induction (draws guide_draw complete_draw a i m) as [|e es IH]; intros traces M; cbn [mapM] in *; [injection M as <-; reflexivity|]. destruct (run e [] m) as [[v tr]|] eqn:R; [|discriminate]. cbn [bind] in M. destruct (mapM _ es) as [ts|] eqn:ME; [|discriminate]. injection M as <-.
    apply (forget_run m e SP) in R. change (but_lifts (@nil (string * site))) with (@nil (string * site)) in R. rewrite R. cbn [bind]. rewrite (IH ts eq_refl). reflexivity. }
  rewrite Q. cbn [bind]. rewrite map_map. cbn [snd]. apply stack_but in H. rewrite map_map in H. rewrite <- H. f_equal. apply map_ext. intros [v tr]. apply predictive_but.
Qed.
Notation predictive_samples_dict := (predictive_samples_dict ns_of keep tr_transform guide_draw complete_draw).
Theorem c117_sites c ob (f f' : fitted (P := P)) y X fh ds : prepared_ready (ft_prepared f) -> ft_scale f' = ft_scale f -> ft_prepared f' = unlift_prepared (ft_prepared f) ->
  (forall m, predict_model c ob f y X fh = Ok m -> same_draws guide_draw complete_draw (engine_of c) (ft_posterior f) (ft_posterior f') m) ->
  snd (predictive_samples_dict c ob f y X fh) = Ok ds -> snd (predictive_samples_dict (unlift_config c) ob f' y X fh) = Ok (but_lifts ds).
Proof.
  intros R E1 E2 D. unfold Forecaster.predictive_samples_dict, ForecasterSpec.predict_model in *. change (c_hier (unlift_config c)) with (c_hier c). change (engine_of (unlift_config c)) with (engine_of c). unfold unlift_config. destruct (c_hier c) eqn:HH.
  - destruct (hierarchical_predict_model _ _ _ c ob f y X fh) as [[m ex]|] eqn:E; [|discriminate]. destruct (hier_model_unlift c (map unlift_listed (effects_of c)) ob f f' y X fh m ex R E1 E2 HH E) as [Q S]. rewrite Q. cbn [snd]. intros H. eapply engine_unlift; [exact S|apply D; reflexivity|exact H].
  - destruct (univariate_predict_model _ _ c ob f y X fh) as [m|] eqn:E; [|discriminate]. destruct (univ_model_unlift c (map unlift_listed (effects_of c)) ob f f' y X fh m R E1 E2 HH E) as [Q S]. rewrite Q. cbn [bind snd]. intros H. eapply engine_unlift; [exact S|apply D; reflexivity|exact H].
Qed.
Notation forecast_samples := (forecast_samples ns_of keep tr_transform guide_draw complete_draw).
Notation forecast_point := (forecast_point ns_of keep tr_transform guide_draw complete_draw).
Notation forecast_quantiles := (forecast_quantiles ns_of keep tr_transform guide_draw complete_draw).
Theorem c117_forecast c ob y X ob' (f f' : fitted (P := P)) : fit_forecaster c ob y X = (ob', Ok f) -> (forall l, In l (effects_of c) -> no_slash (l_name l) = true) -> plain_default (c_default c) -> in_use (p_fitted (ft_prepared f)) ->
  ft_scale f' = ft_scale f -> ft_prepared f' = unlift_prepared (ft_prepared f) ->
  forall ob2 y2 X2 fh, (forall m, predict_model c ob2 f y2 X2 fh = Ok m -> same_draws guide_draw complete_draw (engine_of c) (ft_posterior f) (ft_posterior f') m) ->
  forall t, snd (forecast_samples c ob2 f y2 X2 fh) = Ok t ->
  snd (forecast_samples (unlift_config c) ob2 f' y2 X2 fh) = Ok t /\
  snd (forecast_point (unlift_config c) ob2 f' y2 X2 fh) = snd (forecast_point c ob2 f y2 X2 fh) /\
  (forall alpha, snd (forecast_quantiles (unlift_config c) ob2 f' y2 X2 fh alpha) = snd (forecast_quantiles c ob2 f y2 X2 fh alpha)).
Proof.
  intros H NS PD U E1 E2 ob2 y2 X2 fh D t S. pose proof (fit_ready _ _ _ _ _ _ H NS PD U) as R. clear H. set (c' := unlift_config c).
  assert (LB : labeller_of c' f' y2 = labeller_of c f y2) by (unfold labeller_of; rewrite E1, E2; reflexivity).
  assert (S' : snd (forecast_samples c' ob2 f' y2 X2 fh) = Ok t).
  { unfold Forecaster.forecast_samples in *. destruct (fh_to_index y2 fh) as [times|]; [|discriminate]. rewrite LB. pose proof (c117_sites c ob2 f f' y2 X2 fh) as Q. fold c' in Q. destruct (predictive_samples_dict c' ob2 f' y2 X2 fh) as [g1 d1]. destruct (predictive_samples_dict c ob2 f y2 X2 fh) as [g2 [d2|]]; cbn [snd bind] in *; [|discriminate].
    rewrite (Q d2 R E1 E2 D eq_refl). cbn [bind]. unfold predict_samples, predict_samples_base in *. now rewrite item_but. }
  split; [exact S'|]. rewrite <- S in S'. split.
  - unfold Forecaster.forecast_point. revert S'. destruct (forecast_samples c' ob2 f' y2 X2 fh) as [g1 d1]. destruct (forecast_samples c ob2 f y2 X2 fh) as [g2 d2]. cbn [snd]. now intros ->.
  - intros alpha. unfold Forecaster.forecast_quantiles. revert S'. destruct (forecast_samples c' ob2 f' y2 X2 fh) as [g1 d1]. destruct (forecast_samples c ob2 f y2 X2 fh) as [g2 d2]. cbn [snd]. now intros ->.
Qed.
End Any.
