(** Inference engines: losses, numbers of samples, independence of set order. *)
From Coq Require Import Reals String Bool ZArith List Lia.
From Verif.Model Require Import Base Num XFloat Regex Frame Arr Expand Aggregate Scale Predict Prog Likelihood Trend Effect
  TrendProg Engine Forecaster.
From Verif.Spec Require Import FrameSpec ForecasterSpec.
From Verif.Facts Require Import BaseFacts FrameFacts ForecasterFacts ForecasterInv.
Import ListNotations.
Local Open Scope string_scope.

(** * Losses *)
Section Losses.
Context {P : Type}.
Variable svi_run : Z -> nat -> nat -> prog arr -> res (list xr * P).
Variable nuts_run : Z -> nat -> nat -> nat -> prog arr -> res (nat -> nat -> env).
Variable latent_sites : prog arr -> list string.

Lemma infer_map a m ls l params : en_method a = "map" ->
  svi_run (en_key a) (en_optimizer a) (en_steps a) m = Ok ((ls ++ [l])%list, params) ->
  infer svi_run nuts_run latent_sites a m = if xisnan l then Err InferenceError else Ok (IMap params (latent_sites m)).
Proof.
  intros M S. unfold infer. rewrite M. cbn [String.eqb Ascii.eqb Bool.eqb]. rewrite S. cbn [bind].
  assert (nan_loss (ls ++ [l]) = Ok (xisnan l)) as ->; [|reflexivity].
  destruct ls as [|x ls]; [reflexivity|]. unfold nan_loss. cbn [app]. now rewrite last_last.
Qed.

Lemma infer_unknown a m : en_method a <> "mcmc" -> en_method a <> "map" -> infer svi_run nuts_run latent_sites a m = Err ValueError.
Proof. intros H1 H2. unfold infer. apply String.eqb_neq in H1, H2. now rewrite H1, H2. Qed.
End Losses.

(** * Numbers of samples *)
Section Counts.
Context {P : Type}.
Variable svi_run : Z -> nat -> nat -> prog arr -> res (list xr * P).
Variable nuts_run : Z -> nat -> nat -> nat -> prog arr -> res (nat -> nat -> env).
Variable latent_sites : prog arr -> list string.
Variable guide_draw : P -> Z -> nat -> prog arr -> env.
Variable complete_draw : env -> Z -> nat -> prog arr -> env.

Definition n_draws (a : engine_args) : nat :=
  if String.eqb (en_method a) "mcmc" then en_samples a * en_chains a else default_predict_num_samples.

Lemma flat_map_const_length {A B} (f : A -> list B) n l : (forall x, List.length (f x) = n) -> List.length (flat_map f l) = n * List.length l.
Proof. intros H. induction l as [|x l IH]; simpl; [lia|]. rewrite app_length, H, IH. lia. Qed.

Lemma draws_count a m i m' : infer svi_run nuts_run latent_sites a m = Ok i ->
  List.length (draws guide_draw complete_draw a i m') = n_draws a.
Proof.
  unfold infer, n_draws. destruct (String.eqb (en_method a) "mcmc").
  - intros H. inv_bind H. injection H as <-. unfold draws. rewrite map_length, combine_length, seq_length, Nat.min_id.
    rewrite (flat_map_const_length _ (en_samples a)); [now rewrite seq_length|]. intros c. now rewrite map_length, seq_length.
  - destruct (String.eqb (en_method a) "map"); [|discriminate]. intros H. inv_bind H. destruct x as [losses params]. inv_bind H.
    destruct x; [discriminate|]. injection H as <-. unfold draws. now rewrite map_length, seq_length.
Qed.

Lemma stack_shape ds out k v : stack ds = Ok out -> In (k, v) out -> exists sh, a_shape v = List.length ds :: sh.
Proof.
  unfold stack. destruct ds as [|d ds]; [discriminate|]. intros H I. apply mapM_ok in H. apply Forall2_In_both in H.
  destruct H as [_ H]. destruct (H _ I) as (ka & _ & E). unfold stack_site in E. inv_bind E. destruct (forallb _ _); [|discriminate].
  injection E as _ <-. eexists. reflexivity.
Qed.

Lemma engine_shape a i m ds k v : engine_predict guide_draw complete_draw a i m = Ok ds -> In (k, v) ds ->
  exists sh, a_shape v = List.length (draws guide_draw complete_draw a i m) :: sh.
Proof.
  unfold engine_predict. intros H I. inv_bind H. destruct (stack_shape _ _ _ _ H I) as (sh & ->). apply mapM_length in E.
  rewrite map_length, E. eauto.
Qed.
End Counts.

Lemma apply_scale_cols op d s y y' : apply_scale op d s y = Ok y' -> f_cols y' = f_cols y.
Proof.
  unfold apply_scale. destruct d; [intros [= <-]; reflexivity|]. destruct s; [intros [= <-]; reflexivity|discriminate| |].
  - intros H. inv_bind H. injection H as <-. reflexivity.
  - intros H. inv_bind H. unfold by_column in H. destruct (Nat.eqb _ _); [|discriminate]. injection H as <-. reflexivity.
Qed.

Lemma aggregate_cols keep y : f_cols (aggregate keep y) = f_cols y.
Proof. unfold aggregate. now destruct (f_levels y). Qed.

Lemma dict_item_In {V} (d : dict V) k v : dict_item d k = Ok v -> In (k, v) d.
Proof.
  unfold dict_item. destruct (dict_get d k) as [w|] eqn:E; [|discriminate]. intros [= ->]. induction d as [|[k' w] d IH]; [discriminate|].
  cbn [dict_get] in E. destruct (String.eqb k k') eqn:K; [apply String.eqb_eq in K; injection E as ->; left; congruence|right; auto].
Qed.

Lemma predict_samples_cols keep lb times ds out : predict_samples keep lb times ds = Ok out ->
  exists obs n sh, In ("obs", obs) ds /\ a_shape obs = n :: sh /\ f_cols out = map sample_name (seq 0 n).
Proof.
  unfold predict_samples, predict_samples_base. intros H. inv_bind H. injection H as <-. inv_bind E. apply dict_item_In in E0.
  destruct (a_shape x0) as [|n sh] eqn:S; [discriminate|]. repeat inv_bind E. exists x0, n, sh. split; [exact E0|]. split; [exact S|].
  apply apply_scale_cols in E. assert (f_cols x = map sample_name (seq 0 n)) as C.
  { rewrite E. unfold frame_of in E3. destruct (Nat.eqb _ _); [|discriminate]. injection E3 as <-. reflexivity. }
  destruct (lb_hier lb); [now rewrite aggregate_cols|exact C].
Qed.

Section Forecaster.
Variable ns_of : Z -> Z.
Variable order : list string -> list string.
Variable keep : path -> bool.
Context {TS : Type}.
Variable tr_fit_transform : TS -> frame R -> TS * res (frame R).
Variable tr_transform : TS -> frame R -> res (frame R).
Context {P : Type}.
Variable svi_run : Z -> nat -> nat -> prog arr -> res (list xr * P).
Variable nuts_run : Z -> nat -> nat -> nat -> prog arr -> res (nat -> nat -> env).
Variable latent_sites : prog arr -> list string.
Variable guide_draw : P -> Z -> nat -> prog arr -> env.
Variable complete_draw : env -> Z -> nat -> prog arr -> env.

Notation fit_forecaster := (fit_forecaster ns_of order keep tr_fit_transform svi_run nuts_run latent_sites).
Notation forecast_samples := (forecast_samples ns_of keep tr_transform guide_draw complete_draw).
Notation predictive_samples_dict := (predictive_samples_dict ns_of keep tr_transform guide_draw complete_draw).

Lemma fit_posterior c ob y X ob' f : fit_forecaster c ob y X = (ob', Ok f) ->
  exists m, infer svi_run nuts_run latent_sites (engine_of c) m = Ok (ft_posterior f).
Proof.
  unfold Forecaster.fit_forecaster. intros H. destruct (s <- _ ;; _) as [[s ys]|]; [|discriminate].
  destruct (fit_data _ _ _ _ _ _ _ _ _) as [ob1 [[p m]|]]; [|discriminate]. cbn [bind] in H. injection H as <- H. inv_bind H. injection H as <-.
  exists m. exact E.
Qed.

Lemma dict_engine c ob f y X fh f' ds : predictive_samples_dict c ob f y X fh = (f', Ok ds) ->
  exists m, engine_predict guide_draw complete_draw (engine_of c) (ft_posterior f) m = Ok ds.
Proof.
  unfold Forecaster.predictive_samples_dict. destruct (c_hier c).
  - destruct (hierarchical_predict_model _ _ _ _ _ _ _ _ _) as [[m ex]|]; [|discriminate]. intros [= _ H]. eauto.
  - intros [= _ H]. inv_bind H. eauto.
Qed.

Lemma c67 c ob y X ob' f : fit_forecaster c ob y X = (ob', Ok f) ->
  forall ob2 y2 X2 fh f2 out, forecast_samples c ob2 f y2 X2 fh = (f2, Ok out) ->
  f_cols out = map sample_name (seq 0 (n_draws (engine_of c))).
Proof.
  intros H ob2 y2 X2 fh f2 out Ho. apply fit_posterior in H. destruct H as (m & H). unfold Forecaster.forecast_samples in Ho.
  destruct (fh_to_index y2 fh) as [times|]; [|discriminate].
  destruct (predictive_samples_dict c ob2 f y2 X2 fh) as [f3 [ds|]] eqn:D; [|discriminate]. cbn [bind] in Ho. injection Ho as _ Ho.
  apply predict_samples_cols in Ho. destruct Ho as (obs & n & sh & I & S & ->). apply dict_engine in D. destruct D as (m' & D).
  destruct (engine_shape _ _ _ _ _ _ _ _ D I) as (sh' & S'). rewrite S in S'. injection S' as -> _.
  now rewrite (draws_count _ _ _ _ _ _ _ _ _ H).
Qed.
End Forecaster.

(** * The iteration order of sets is irrelevant without panels *)
Lemma fit_order o1 o2 e : forall (X : option (frame R)) s, is_panel X = false -> fit o1 e X s = fit o2 e X s.
Proof.
  assert (B : forall e X, is_panel X = false -> base_fit o1 e X = base_fit o2 e X).
  { intros e0 X NP. unfold base_fit. destruct (_ && _); [reflexivity|]. destruct e0; try reflexivity. cbn [set_cols set_base inner_fit].
    destruct (fourier_fit _ _ X) as [ff|]; [|reflexivity]. destruct X as [X|]; [|reflexivity].
    destruct (fourier_transform ff X) as [XF|] eqn:T; [|reflexivity].
    assert (L : f_levels XF = 0).
    { unfold fourier_transform in T. inv_bind T. injection T as <-. cbn. unfold is_panel in NP. apply negb_false_iff in NP. now apply Nat.eqb_eq in NP. }
    rewrite L. reflexivity. }
  induction e; intros X s NP; try exact (B _ X NP). cbn [fit]. rewrite (IHe X s NP). destruct (fit o2 e X s) as [e' [ex|]]; [reflexivity|].
  apply B. exact NP.
Qed.

Lemma select_levels (X X' : frame R) cols : select_columns 0%R X cols = Ok X' -> f_levels X' = f_levels X.
Proof. unfold select_columns. intros H. inv_bind H. now injection H as <-. Qed.

Lemma mapM_ext_all {A B} (f g : A -> res B) l : (forall x, In x l -> f x = g x) -> mapM f l = mapM g l.
Proof. intros H. induction l as [|x l IH]; [reflexivity|]. cbn [mapM]. rewrite (H x) by now left. rewrite IH; [reflexivity|]. intros z Hz. apply H. now right. Qed.

Lemma fit_effects_order o1 o2 d effs (X : frame R) s : f_levels X = 0 -> fit_effects o1 d effs (Some X) s = fit_effects o2 d effs (Some X) s.
Proof.
  intros L. assert (S : forall cols XC, select_columns 0%R X cols = Ok XC -> is_panel (Some XC) = false).
  { intros cols XC H. apply select_levels in H. unfold is_panel. rewrite H, L. reflexivity. }
  unfold fit_effects. rewrite (mapM_ext_all (fit_one o1 (Some X) s) (fit_one o2 (Some X) s)).
  - destruct (mapM _ effs) as [fitted|]; [|reflexivity]. cbn [bind]. destruct (uncovered (f_cols X) fitted) as [|c cs]; [reflexivity|].
    destruct (select_columns 0%R X (c :: cs)) as [XC|] eqn:E; [|reflexivity]. cbn [bind]. now rewrite (fit_order o1 o2 _ _ _ (S _ _ E)).
  - intros [[n e] r] _. unfold fit_one. destruct (match_columns (f_cols X) r) as [cols|]; [|reflexivity]. cbn [bind].
    destruct (select_columns 0%R X cols) as [XC|] eqn:E; [|reflexivity]. cbn [bind]. now rewrite (fit_order o1 o2 _ _ _ (S _ _ E)).
Qed.

Lemma trend_fit_order ns o1 o2 t X y s : is_panel X = false -> trend_fit ns o1 t X y s = trend_fit ns o2 t X y s.
Proof. intros H. destruct t; try reflexivity. cbn [trend_fit]. now rewrite (fit_order o1 o2). Qed.

Section Order.
Variable ns_of : Z -> Z.
Variable keep : path -> bool.
Context {TS : Type}.
Variable tr_fit_transform : TS -> frame R -> TS * res (frame R).
Context {P : Type}.
Variable svi_run : Z -> nat -> nat -> prog arr -> res (list xr * P).
Variable nuts_run : Z -> nat -> nat -> nat -> prog arr -> res (nat -> nat -> env).
Variable latent_sites : prog arr -> list string.

Lemma c63_order o1 o2 c ob y X : c_hier c = false -> f_levels y = 0 -> (forall X', X = Some X' -> f_levels X' = 0) ->
  (forall tr X0 tr' X1, o_transformer ob = Some tr -> f_levels X0 = 0 -> tr_fit_transform tr X0 = (tr', Ok X1) -> f_levels X1 = 0) ->
  fit_forecaster ns_of o1 keep tr_fit_transform svi_run nuts_run latent_sites c ob y X =
  fit_forecaster ns_of o2 keep tr_fit_transform svi_run nuts_run latent_sites c ob y X.
Proof.
  intros Hc Ly LX LT. unfold fit_forecaster. destruct (set_y_scales (c_scale c) y) as [s|]; [|reflexivity]. cbn [bind].
  destruct (scale_y (discrete c) s y) as [ys|] eqn:SY; [|reflexivity]. cbn [bind].
  assert (Lys : f_levels ys = 0).
  { unfold scale_y, apply_scale in SY. destruct (discrete c); [congruence|]. destruct s; [injection SY as <-; exact Ly|discriminate| |];
      unfold scale_for_each_obs in SY; rewrite Ly in SY; discriminate. }
  clear SY. assert (E : fit_data ns_of o1 keep tr_fit_transform c ob s ys X = fit_data ns_of o2 keep tr_fit_transform c ob s ys X); [|now rewrite E].
  unfold fit_data. rewrite Hc. unfold univariate_fit_data. destruct (get_trend_model c ob) as [t0|]; [|reflexivity].
  destruct (if discrete c then _ else _) as [yt|]; [|reflexivity].
  rewrite (trend_fit_order ns_of o1 o2) by (destruct X as [X|]; [unfold is_panel; now rewrite (LX X eq_refl)|reflexivity]).
  destruct (trend_fit ns_of o2 t0 X yt 1) as [t [ex|]]; [reflexivity|]. set (X0 := match X with None => _ | Some X => X end).
  assert (L0 : f_levels X0 = 0) by (unfold X0; destruct X as [X|]; [now apply LX|exact Lys]).
  destruct (run_fit_transform _ _ X0) as [ob1 [X1|]] eqn:Q; [|reflexivity]. cbn [bind].
  apply run_fit_transform_inv in Q. destruct Q as [_ Q]. cbn [o_transformer] in Q.
  assert (L1 : f_levels X1 = 0).
  { destruct (o_transformer ob) as [tr|]; [destruct Q as (tr' & _ & Q); exact (LT _ _ _ _ eq_refl L0 Q)|destruct Q as [_ ->]; exact L0]. }
  destruct (loc_index X1 (index_of ys)) as [Xe|] eqn:LI; [|reflexivity]. cbn [bind]. apply loc_index_inv in LI. destruct LI as (LV & _).
  destruct (trend_transform _ _ _ _) as [td|]; [|reflexivity]. cbn [bind]. rewrite (fit_effects_order o1 o2); [reflexivity|congruence].
Qed.
End Order.

(** * The key *)
Section Key.
Variable ns_of : Z -> Z.
Variable order : list string -> list string.
Variable keep : path -> bool.
Context {TS : Type}.
Variable tr_fit_transform : TS -> frame R -> TS * res (frame R).
Variable tr_transform : TS -> frame R -> res (frame R).
Context {P : Type}.
Variable svi_run : Z -> nat -> nat -> prog arr -> res (list xr * P).
Variable nuts_run : Z -> nat -> nat -> nat -> prog arr -> res (nat -> nat -> env).
Variable latent_sites : prog arr -> list string.
Variable guide_draw : P -> Z -> nat -> prog arr -> env.
Variable complete_draw : env -> Z -> nat -> prog arr -> env.

Lemma c63_key c ob y X : c_key c = None ->
  fit_forecaster ns_of order keep tr_fit_transform svi_run nuts_run latent_sites c ob y X =
  fit_forecaster ns_of order keep tr_fit_transform svi_run nuts_run latent_sites (with_key c (Some 24%Z)) ob y X /\
  forall ob2 f y2 X2 fh,
  forecast_samples ns_of keep tr_transform guide_draw complete_draw c ob2 f y2 X2 fh =
  forecast_samples ns_of keep tr_transform guide_draw complete_draw (with_key c (Some 24%Z)) ob2 f y2 X2 fh.
Proof.
  intros E. assert (EE : engine_of (with_key c (Some 24%Z)) = engine_of c) by (unfold engine_of; rewrite E; reflexivity). split.
  - unfold fit_forecaster. rewrite EE.
    change (c_scale (with_key c (Some 24%Z))) with (c_scale c). change (discrete (with_key c (Some 24%Z))) with (discrete c).
    destruct (s <- _ ;; _) as [[s ys]|]; [|reflexivity].
    assert (FD : fit_data ns_of order keep tr_fit_transform (with_key c (Some 24%Z)) ob s ys X = fit_data ns_of order keep tr_fit_transform c ob s ys X).
    { unfold fit_data. change (c_hier (with_key c (Some 24%Z))) with (c_hier c). destruct (c_hier c) eqn:Hc; reflexivity. }
    now rewrite FD.
  - intros ob2 f y2 X2 fh. unfold forecast_samples, predictive_samples_dict. rewrite EE.
    change (c_hier (with_key c (Some 24%Z))) with (c_hier c). change (labeller_of (with_key c (Some 24%Z)) f y2) with (labeller_of c f y2).
    destruct (c_hier c) eqn:Hc; reflexivity.
Qed.
End Key.
