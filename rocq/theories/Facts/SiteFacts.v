(** Distinct names of sample sites in the models of the forecasters. *)
From Coq Require Import Reals String Bool ZArith List Permutation Lia.
From Verif.Model Require Import Base Num XFloat Frame Arr Expand Aggregate Scale Prog Likelihood Effect Trend TrendProg Engine Predict Forecaster.
From Verif.Spec Require Import FrameSpec ProgSpec EffectSpec ForecasterSpec SiteSpec.
From Verif.Facts Require Import BaseFacts FrameFacts ProgFacts MeanFacts LikelihoodFacts EffectPredict ForecasterFacts ForecasterInv ForecasterProps ModelProps.
Import ListNotations.
Local Open Scope string_scope.

Lemma actions_bind {A B} e (p : prog A) (f : A -> prog B) :
  actions e (pbind p f) = (actions e p ++ match eval e p with Ok al => actions e (f (fst al)) | Err _ => [] end)%list.
Proof.
  induction p as [a|x|n d sh o k IH|n w k IH|n s k IH]; simpl; try reflexivity.
  - rewrite IH. destruct (eval e (k _)) as [[a l]|]; reflexivity.
  - rewrite IH. destruct (eval e k) as [[a l]|]; reflexivity.
  - rewrite IH. destruct (eval e k) as [[a l]|]; reflexivity.
Qed.

Lemma actions_lift {A} e (m : res A) : actions e (lift_res m) = [].
Proof. destruct m; reflexivity. Qed.

(** * Effects *)
Definition plain (l : list string) : Prop := NoDup l /\ ~ In "lift_experiment" l.

Lemma plain_nil : plain [].
Proof. split; [constructor|simpl; tauto]. Qed.

Ltac plain_list := split; [repeat constructor; simpl; intuition discriminate|simpl; intuition discriminate].

Lemma linear_plain e prior d : plain (actions e (linear_raw prior d)).
Proof.
  unfold linear_raw. destruct d as [|a|]; try apply plain_nil. destruct (rev (a_shape a)) as [|[|k] l]; try apply plain_nil.
  cbn [plate sample pbind actions]. rewrite actions_lift. plain_list.
Qed.

Lemma log_plain e p q d : plain (actions e (log_raw p q d)).
Proof. unfold log_raw. destruct d; try apply plain_nil. cbn [sample pbind actions]. plain_list. Qed.

Lemma hill_plain e p q r d : plain (actions e (hill_raw p q r d)).
Proof.
  unfold hill_raw. destruct d as [|a|]; try apply plain_nil. cbn [sample pbind actions]. rewrite actions_bind, actions_lift.
  destruct (eval e _) as [al|]; cbn [app actions]; plain_list.
Qed.

Lemma mode_plain e m raw pe : plain (actions e raw) -> plain (actions e (predict_mode m raw pe)).
Proof.
  intros H. unfold predict_mode. rewrite actions_bind, actions_lift. destruct (eval e (lift_res _)) as [[t l]|]; cbn [app fst]; [|apply plain_nil].
  rewrite actions_bind. destruct (eval e raw) as [[x l']|]; cbn [fst]; [|now rewrite app_nil_r].
  rewrite actions_bind, actions_lift. destruct (eval e (lift_res _)) as [[z l'']|]; cbn [app fst]; [|now rewrite app_nil_r].
  destruct m; [cbn [actions]|rewrite actions_lift]; now rewrite app_nil_r.
Qed.

Lemma predict_plain env e d pe : (forall i t p b s, e <> Lift i t p b s) -> plain (actions env (predict e d pe)).
Proof.
  destruct e as [m p b|m p q b|m p q r b|i t p b s|sp tl ps m b ff x l]; intros N; cbn [predict].
  - apply mode_plain, linear_plain.
  - apply mode_plain, log_plain.
  - apply mode_plain, hill_plain.
  - exfalso. eapply N. reflexivity.
  - destruct l as [[mm bb]|]; [apply mode_plain, linear_plain|apply plain_nil].
Qed.

Lemma predict_nodup env e d pe : unnested e -> NoDup (actions env (predict e d pe)).
Proof.
  destruct e as [m p b|m p q b|m p q r b|i t p b s|sp tl ps m b ff x l]; intros U;
    try (apply predict_plain; discriminate).
  cbn [predict]. destruct d as [|a|d lift]; try constructor. rewrite actions_bind.
  assert (PI : plain (actions env (predict i d pe))) by (apply predict_plain; intros ? ? ? ? ? ->; exact U).
  destruct PI as [N1 N2]. destruct (eval env _) as [[x l]|]; [|now rewrite app_nil_r].
  cbn [fst observe pbind actions]. apply nodup_app; [exact N1|repeat constructor; simpl; tauto|].
  intros n H [<-|[]]. contradiction.
Qed.

(** fitting and copying keep the kind *)
Lemma clone_unnested e : unnested e -> unnested (clone e).
Proof. destruct e as [| | |[] | ]; simpl; auto. Qed.

Lemma inner_fit_kind order e X e' err : inner_fit order e X = (e', err) ->
  (exists i t p b s, e = Lift i t p b s) /\ e' = e \/ (forall i t p b s, e' <> Lift i t p b s).
Proof.
  destruct e as [m p b|m p q b|m p q r b|i t p b s|sp tl ps m b ff x l]; cbn [inner_fit];
    try (intros [= <- _]; right; discriminate).
  - intros [= <- _]. left. split; [|reflexivity]. eexists _, _, _, _, _. reflexivity.
  - intros H. right. destruct (fourier_fit sp tl X) as [ff'|]; [|injection H as <- _; discriminate].
    destruct X as [X|]; [|injection H as <- _; discriminate].
    destruct (fourier_transform ff' X) as [XF|]; [|injection H as <- _; discriminate].
    match type of H with match ?m with _ => _ end = _ => destruct m as [[XE x']|] end; [|injection H as <- _; discriminate].
    destruct (check_mode m); injection H as <- _; discriminate.
Qed.

Lemma base_fit_kind order e X e' err : base_fit order e X = (e', err) ->
  (exists i t p b s b', e = Lift i t p b s /\ e' = Lift i t p b' s) \/
  (forall i t p b s, e' <> Lift i t p b s).
Proof.
  unfold base_fit. destruct (_ && _).
  - intros [= <- _]. destruct e; try (right; discriminate). left. eexists _, _, _, _, _, _. split; reflexivity.
  - destruct (inner_fit order (set_cols e (columns_seen X)) X) as [e1 er] eqn:F. apply inner_fit_kind in F.
    destruct F as [((i & t & p & b & s & E) & ->)|N].
    + intros H. left. unfold set_cols in *. destruct e; try discriminate. destruct er; injection H as <- _;
        eexists _, _, _, _, _, _; split; reflexivity.
    + intros H. right. destruct er; injection H as <- _; [exact N|]. intros i t p b s E. destruct e1; try discriminate. eapply N. reflexivity.
Qed.

Lemma fit_kind order e : forall X s e' err, fit order e X s = (e', err) ->
  (exists i t p b s0, e' = Lift i t p b s0) -> exists i t p b s0, e = Lift i t p b s0.
Proof.
  destruct e as [m p b|m p q b|m p q r b|i t p b s|sp tl ps m b ff x l]; intros X sc e' err H (i' & t' & p' & b' & s' & ->); cbn [fit] in H;
    try (apply base_fit_kind in H; destruct H as [(? & ? & ? & ? & ? & ? & E & _)|N]; [discriminate|exfalso; eapply N; reflexivity]).
  eexists _, _, _, _, _. reflexivity.
Qed.

Lemma fit_unnested order e : forall X s e' err, fit order e X s = (e', err) -> unnested e -> unnested e'.
Proof.
  intros X s e' err H U. destruct e' as [| | |i t p b s'|]; try exact I. cbn [unnested]. destruct i as [| | |i2 t2 p2 b2 s2|] eqn:Ei; try exact I.
  destruct (fit_kind _ _ _ _ _ _ H) as (i0 & t0 & p0 & b0 & s0 & ->); [eauto 6|]. cbn [fit] in H.
  destruct (fit order i0 X s) as [i0' er] eqn:F.
  assert (K : i0' = i).
  { subst i. destruct er; [injection H as <- _; reflexivity|]. apply base_fit_kind in H. destruct H as [(? & ? & ? & ? & ? & ? & E1 & E2)|N].
    - injection E1 as <- _ _ _ _. now injection E2.
    - exfalso. eapply N. reflexivity. }
  subst i. destruct (fit_kind _ _ _ _ _ _ F) as (i3 & t3 & p3 & b3 & s3 & ->); [rewrite K; eauto 6|]. exact U.
Qed.

(** * Trends *)
Definition rates_prog (f : piecewise_fitted) (k : list R -> list R -> prog arr) : prog arr :=
  locs <~ lift_res (mapM finite (pf_offset_loc f)) ;;
  o <~ sample "offset" (DNormal (vector locs) (const_arr [List.length locs] (pw_offset_scale (pf_params f)))) [List.length locs] ;;
  _ <~ (if Nat.eqb (List.length (pf_cp_loc f)) (List.length (pf_cp_scale f)) then Ret tt else Raise ValueError) ;;
  c <~ sample "changepoint_coefficients" (DLaplace (vector (pf_cp_loc f)) (vector (pf_cp_scale f))) [List.length (pf_cp_loc f)] ;;
  k (a_flat o) (a_flat c).

Lemma rates_sites e f k : (forall o c, actions e (k o c) = []) ->
  NoDup (actions e (rates_prog f k)) /\ incl (actions e (rates_prog f k)) ["offset"; "changepoint_coefficients"].
Proof.
  intros K. unfold rates_prog. rewrite actions_bind, actions_lift. destruct (eval e (lift_res _)) as [[locs l]|]; cbn [app fst]; [|split; [constructor|intros ? []]].
  cbn [sample pbind actions]. rewrite actions_bind. destruct (Nat.eqb _ _); cbn [actions eval app fst sample pbind]; rewrite ?K.
  - split; [repeat constructor; simpl; intuition discriminate|apply incl_refl].
  - split; [repeat constructor; simpl; intuition discriminate|]. intros x [<-|[]]. simpl. auto.
Qed.

Lemma piecewise_sites e capacity f m : NoDup (actions e (piecewise_prog capacity f m)) /\
  incl (actions e (piecewise_prog capacity f m)) trend_sites.
Proof.
  unfold piecewise_prog. destruct (pw_logistic (pf_params f)).
  - cbn [plate pbind]. cbn [actions]. cbn [sample pbind]. cbn [actions]. set (v := a_flat (site_value e "capacity" [pf_n_series f; 1; 1] None)).
    destruct (rates_sites e f (fun o c => lift_res (logistic_predict (pw_squeeze (pf_params f)) (pf_n_series f) m v o c))) as [V1 V2]; [intros; apply actions_lift|].
    unfold rates_prog, sample in V1, V2. split.
    + constructor; [|constructor; [|exact V1]].
      * intros [H|H]; [discriminate|]. apply V2 in H. simpl in H. intuition discriminate.
      * intros H. apply V2 in H. simpl in H. intuition discriminate.
    + intros x [<-|[<-|H]]; [simpl; auto 8|simpl; auto 8|]. apply V2 in H. simpl in *. tauto.
  - destruct (rates_sites e f (fun o c => lift_res (piecewise_predict (pw_squeeze (pf_params f)) (pf_n_series f) m o c))) as [V1 V2]; [intros; apply actions_lift|].
    split; [exact V1|]. intros x H. apply V2 in H. simpl in *. tauto.
Qed.

Lemma flat_sites e s loc d : NoDup (actions e (flat_prog s loc d)) /\ incl (actions e (flat_prog s loc d)) trend_sites.
Proof.
  unfold flat_prog. destruct (flat_prior loc s). cbn [sample pbind actions]. split; [repeat constructor; simpl; tauto|].
  intros x [<-|[]]. simpl. auto 8.
Qed.

(** an ordinary effect cannot be used as a trend *)
Lemma mode_needs_trend env m raw v : ~ yields env (predict_mode m raw []) v.
Proof. intros H. apply mode_yields in H as (t & x & G & _). discriminate. Qed.
Lemma effect_trend_fails e : forall env d v, ~ yields env (predict e d []) v.
Proof.
  induction e as [m p b|m p q b|m p q r b|i IH t p b s|sp tl ps m b ff x l]; intros env d v; cbn [predict]; try apply mode_needs_trend.
  - destruct d as [|a|d lift]; intros H; [inversion H|inversion H|]. apply yields_bind in H as (z & Y & _). exact (IH _ _ _ Y).
  - destruct l as [[mm bb]|]; [apply mode_needs_trend|]. intros H. inversion H.
Qed.

Lemma trend_clean e t td v : yields e (trend_predict t td) v ->
  NoDup (actions e (trend_predict t td)) /\ incl (actions e (trend_predict t td)) trend_sites.
Proof.
  destruct t as [p c b [f|]|s b [loc|]|ef], td as [m|a|d]; cbn [trend_predict]; intros Y; try (inversion Y; fail).
  - apply piecewise_sites.
  - apply flat_sites.
  - exfalso. exact (effect_trend_fails _ _ _ _ Y).
Qed.

(** * Forecasters *)
Lemma dict_of_list_In {V} (l : list (string * V)) : forall acc n v,
  In (n, v) (fold_left (fun d kv => dict_set d (fst kv) (snd kv)) l acc) -> In (n, v) acc \/ In (n, v) l.
Proof.
  induction l as [|[k w] l IH]; intros acc n v H; simpl in *; [auto|]. apply IH in H. destruct H as [H|H]; [|auto].
  assert (D : forall d : dict V, In (n, v) (dict_set d k w) -> In (n, v) d \/ (n, v) = (k, w)).
  { induction d as [|[k' w'] d IHd]; simpl; [intros [E|[]]; auto|]. destruct (String.eqb_spec k k') as [<-|]; simpl; intros [E|E]; auto.
    destruct (IHd E); auto. }
  destruct (D _ H) as [E|E]; auto.
Qed.

Section Forecaster.
Variable ns_of : Z -> Z.
Variable order : list string -> list string.
Variable keep : path -> bool.
Context {TS : Type}.
Variable tr_fit_transform : TS -> frame R -> TS * res (frame R).
Variable tr_transform : TS -> frame R -> res (frame R).
Context {P : Type}.

Lemma fitted_clean default effects (X : frame R) s fitted :
  fit_effects order default effects (Some X) s = Ok fitted ->
  (forall l, In l effects -> free_name (l_name l) /\ unnested (l_effect l)) -> unnested (default_of default) ->
  forall f, In f fitted -> free_name (fe_name f) /\ unnested (fe_effect f).
Proof.
  intros H HE HD f Hf. apply fit_effects_inv in H as (main & dflt & -> & F & D). apply in_app_iff in Hf. destruct Hf as [Hf|Hf].
  - apply Forall2_In_both in F. destruct F as [_ F]. destruct (F f Hf) as (l & Hl & E & _ & XC & _ & G). destruct (HE l Hl) as [H1 H2].
    split; [now rewrite E|]. eapply fit_unnested; [exact G|]. now apply clone_unnested.
  - destruct D as [(-> & _)|(g & -> & E & _ & _ & XC & _ & G)]; [contradiction|]. destruct Hf as [<-|[]]. split.
    + rewrite E. split; [reflexivity|]. simpl. intuition discriminate.
    + eapply fit_unnested; [exact G|]. now apply clone_unnested.
Qed.

Lemma effects_clean fitted effs : non_skipped fitted = Ok effs ->
  (forall f, In f fitted -> free_name (fe_name f) /\ unnested (fe_effect f)) ->
  NoDup (map fst effs) /\ forall n e, In (n, e) effs -> free_name n /\ unnested e.
Proof.
  intros H HF. apply non_skipped_list in H. subst effs. split; [apply dict_of_list_nodup|].
  intros n e I. apply dict_of_list_In in I. destruct I as [[]|I]. apply in_map_iff in I as (f & [= <- <-] & I). apply filter_In in I. now apply HF.
Qed.

Lemma model_sites c s p t td y data e o :
  (c_hier c = false -> p_has_exogenous p = true) ->
  NoDup (map fst (p_effects p)) -> (forall n ef, In (n, ef) (p_effects p) -> free_name n /\ unnested ef) ->
  yields e (model_call c s p t td y (Some data)) o -> NoDup (actions e (model_call c s p t td y (Some data))).
Proof.
  intros HX ND HC Y.
  assert (MO : model_of (trend_predict t td) data (effect_fns (p_effects p)) (model_call c s p t td y (Some data))).
  { unfold model_call, model_of in *. destruct (c_hier c).
    - unfold multivariate_model. eexists. reflexivity.
    - rewrite (HX eq_refl) in *. destruct (String.eqb (c_likelihood c) "normal"); [unfold univariate_model; eexists; reflexivity|].
      destruct (String.eqb (c_likelihood c) "gamma"); [unfold univariate_gamma_model; eexists; reflexivity|].
      destruct (String.eqb (c_likelihood c) "negbinomial"); [unfold univariate_negbinomial_model; eexists; reflexivity|]. inversion Y. }
  destruct MO as (k & EM).
  assert (YT : exists v, yields e (trend_predict t td) v).
  { rewrite EM in Y. apply yields_bind in Y as (m & Ym & _). unfold compute_mean in Ym. apply yields_bind in Ym as (v & Yv & _). eauto. }
  destruct YT as (v & YT). destruct (trend_clean _ _ _ _ YT) as [T1 T2].
  assert (KF : map fst (effect_fns (p_effects p)) = map fst (p_effects p)) by (unfold effect_fns; now rewrite map_map).
  assert (CT : clean_trend e (trend_predict t td)).
  { split; [exact T1|]. intros n Hn. apply T2 in Hn. simpl in Hn. intuition (subst; try reflexivity; simpl in *; intuition discriminate). }
  assert (CN : clean_names e (trend_predict t td) (effect_fns (p_effects p))).
  { split; [now rewrite KF|]. rewrite KF. intros n Hn. apply in_map_iff in Hn as ([n' ef] & <- & Hn). cbn [fst]. destruct (HC _ _ Hn) as [[F1 F2] _].
    rewrite in_app_iff in F2. split; [exact F1|]. split; [tauto|]. intros I. apply T2 in I. tauto. }
  assert (CA : forall n eff d pe, In (n, eff) (effect_fns (p_effects p)) -> NoDup (actions (own_env e n) (eff d pe))).
  { intros n eff d pe I. unfold effect_fns in I. apply in_map_iff in I as ([n' ef] & [= <- <-] & I). apply predict_nodup. exact (proj2 (HC _ _ I)). }
  pose proof (c71_all e (trend_predict t td) data (effect_fns (p_effects p)) CT CN CA) as (A1 & A2 & A3 & A4).
  unfold model_call in *. destruct (c_hier c); [eapply A4; exact Y|]. rewrite (HX eq_refl) in *.
  destruct (String.eqb (c_likelihood c) "normal"); [eapply A1; exact Y|]. destruct (String.eqb (c_likelihood c) "gamma"); [eapply A2; exact Y|].
  destruct (String.eqb (c_likelihood c) "negbinomial"); [eapply A3; exact Y|]. constructor.
Qed.

Lemma fit_effects_clean c ob s y X ob' p m :
  fit_data ns_of order keep tr_fit_transform c ob s y X = (ob', Ok (p, m)) -> clean_config c ->
  NoDup (map fst (p_effects p)) /\ (forall n ef, In (n, ef) (p_effects p) -> free_name n /\ unnested ef) /\
  (c_hier c = false -> p_has_exogenous p = true).
Proof.
  intros H [C1 C2]. apply fit_data_inv in H as (Xe & td & ya & data & F & _ & N & _ & HX & _).
  destruct (effects_clean _ _ N (fitted_clean _ _ _ _ _ F C1 C2)). auto.
Qed.

Lemma c71_fit c ob s y X ob' p m :
  fit_data ns_of order keep tr_fit_transform c ob s y X = (ob', Ok (p, m)) -> clean_config c ->
  forall e o, yields e m o -> exists tr, run e [] m = Ok (o, tr) /\ NoDup (map fst tr) /\ map fst tr = actions e m.
Proof.
  intros H C e o Y. destruct (fit_effects_clean _ _ _ _ _ _ _ _ H C) as (C1 & C2 & HX).
  apply fit_data_inv in H as (Xe & td & ya & data & _ & _ & _ & _ & _ & ->).
  pose proof (model_sites _ _ _ _ _ _ _ _ _ HX C1 C2 Y) as N. destruct (distinct_runs _ _ _ Y N) as (tr & Hr & E).
  exists tr. rewrite E. auto.
Qed.

Variable svi_run : Z -> nat -> nat -> prog arr -> res (list xr * P).
Variable nuts_run : Z -> nat -> nat -> nat -> prog arr -> res (nat -> nat -> env).
Variable latent_sites : prog arr -> list string.
Notation fit_forecaster := (fit_forecaster ns_of order keep tr_fit_transform svi_run nuts_run latent_sites).

Lemma forecaster_clean c ob y X ob' f : fit_forecaster c ob y X = (ob', Ok f) -> clean_config c ->
  NoDup (map fst (p_effects (ft_prepared f))) /\
  (forall n ef, In (n, ef) (p_effects (ft_prepared f)) -> free_name n /\ unnested ef) /\
  (c_hier c = false -> p_has_exogenous (ft_prepared f) = true).
Proof.
  unfold Forecaster.fit_forecaster. intros H C. destruct (s <- _ ;; _) as [[s ys]|]; [|discriminate].
  destruct (fit_data _ _ _ _ _ _ _ _ _) as [ob1 [[p m]|]] eqn:F; [|discriminate]. cbn [bind] in H. injection H as <- H. inv_bind H. injection H as <-.
  exact (fit_effects_clean _ _ _ _ _ _ _ _ F C).
Qed.

Lemma c71_predict c ob y X ob' f : fit_forecaster c ob y X = (ob', Ok f) -> clean_config c ->
  forall ob2 y2 X2 fh m, predict_model ns_of keep tr_transform c ob2 f y2 X2 fh = Ok m ->
  forall e o, yields e m o -> exists tr, run e [] m = Ok (o, tr) /\ NoDup (map fst tr) /\ map fst tr = actions e m.
Proof.
  intros H C ob2 y2 X2 fh m Hm e o Y. destruct (forecaster_clean _ _ _ _ _ _ H C) as (C1 & C2 & HX).
  destruct (predict_inv _ _ _ _ _ _ _ _ _ _ Hm HX) as (Xe & td & times & data & _ & _ & ->).
  pose proof (model_sites _ _ _ _ _ _ _ _ _ HX C1 C2 Y) as N. destruct (distinct_runs _ _ _ Y N) as (tr & Hr & E).
  exists tr. rewrite E. auto.
Qed.
End Forecaster.
