(** An effect without columns is as good as no effect. *)
From Coq Require Import Reals String Bool ZArith List Lia.
From Verif.Model Require Import Base Num XFloat Regex Frame Arr Expand Aggregate Scale Predict Prog Likelihood Effect TrendProg Engine Forecaster.
From Verif.Spec Require Import RegexSpec FrameSpec ProgSpec ForecasterSpec RelistSpec IdleSpec.
From Verif.Facts Require Import BaseFacts FrameFacts RegexFacts ForecasterFacts ForecasterInv ForecasterProps CopyFacts RelistFacts DefaultFacts.
Import ListNotations.
Local Open Scope string_scope.

(** * Lists of fitted effects *)
Definition same_use (g g' : list fitted_effect) : Prop := (forall X fh, transform_effects g X fh = transform_effects g' X fh) /\ non_skipped g = non_skipped g'.
Lemma foldM_app {A S} (f : S -> A -> res S) l1 l2 s : foldM f s (l1 ++ l2)%list = (x <- foldM f s l1 ;; foldM f x l2).
Proof. revert s. induction l1 as [|a l1 IH]; intros s; [reflexivity|]. cbn [foldM app]. destruct (f s a); cbn [bind]; auto. Qed.
Lemma skipped_unused (g1 g2 : list fitted_effect) n e cols : should_skip_predict e = Ok true -> same_use (g1 ++ (n, e, cols) :: g2)%list (g1 ++ g2)%list.
Proof.
  intros H. split; [intros X fh|]; unfold transform_effects, non_skipped; rewrite !foldM_app; match goal with |- bind ?a _ = _ => destruct a end; cbn [bind foldM]; try reflexivity; now rewrite H.
Qed.
Lemma same_use_sym g g' : same_use g g' -> same_use g' g.
Proof. intros [H1 H2]. split; [intros; symmetry; apply H1|now symmetry]. Qed.

Lemma uncovered_skip cols (g1 g2 : list fitted_effect) n e : uncovered cols (g1 ++ (n, e, []) :: g2)%list = uncovered cols (g1 ++ g2)%list.
Proof. unfold uncovered. do 2 f_equal. apply filter_ext. intros c. f_equal. rewrite !existsb_app. reflexivity. Qed.

Section Effects.
Variable order : list string -> list string.

Lemma clone_tags e : skip_if_no_match (clone e) = skip_if_no_match e /\ supports_multivariate (clone e) = supports_multivariate e.
Proof. destruct e; split; reflexivity. Qed.

Lemma fit_one_idle X s l : match_columns (f_cols X) (l_regex l) = Ok [] -> skip_if_no_match (l_effect l) = true -> supports_multivariate (l_effect l) = true \/ f_levels X = 0 ->
  exists e', fit_one order (Some X) s l = Ok (l_name l, e', []) /\ should_skip_predict e' = Ok true.
Proof.
  destruct l as [[n e] re]. unfold l_regex, l_effect, l_name. cbn [fst snd]. intros M K S. unfold fit_one. rewrite M. cbn [bind select_columns mapM].
  set (XC := mkFrame (f_levels X) [] _). assert (P : negb (supports_multivariate (clone e)) && is_panel (Some XC) = false).
  { rewrite (proj2 (clone_tags e)). destruct S as [->|Z]; [reflexivity|]. apply andb_false_iff. right. unfold is_panel, XC. cbn [f_levels]. now rewrite Z. }
  destruct e; try discriminate K; cbn [clone fit] in *; unfold base_fit; rewrite P; cbn; eexists; split; reflexivity.
Qed.
Lemma fit_one_skips X s l n e' : fit_one order (Some X) s l = Ok (n, e', []) -> skip_if_no_match (l_effect l) = true -> should_skip_predict e' = Ok true.
Proof.
  destruct l as [[n0 e] re]. unfold fit_one, l_effect. cbn [fst snd]. intros H K. inv_bind H. inv_bind H. destruct (fit _ _ _ _) as [e1 [ex|]] eqn:EF; [discriminate|]. injection H as _ <- ->.
  cbn [select_columns mapM bind] in E0. injection E0 as <-. destruct e; try discriminate K; cbn [clone fit] in EF; unfold base_fit in EF; destruct (_ && _) in EF; try discriminate; cbn in EF; injection EF as <-; reflexivity.
Qed.

Lemma fit_effects_add default l1 l l2 X s n e' g : fit_one order (Some X) s l = Ok (n, e', []) ->
  fit_effects order default (l1 ++ l2) (Some X) s = Ok g ->
  exists g1 g2, g = (g1 ++ g2)%list /\ List.length g1 = List.length l1 /\ fit_effects order default (l1 ++ l :: l2) (Some X) s = Ok (g1 ++ (n, e', []) :: g2)%list.
Proof.
  intros F H. unfold fit_effects in *. rewrite mapM_app in *. destruct (mapM (fit_one order (Some X) s) l1) as [a1|] eqn:E1; [|discriminate]. cbn [bind mapM] in *. rewrite F. cbn [bind].
  destruct (mapM (fit_one order (Some X) s) l2) as [a2|] eqn:E2; [|discriminate]. cbn [bind] in *. rewrite uncovered_skip.
  assert (L1 : List.length a1 = List.length l1) by (apply mapM_ok in E1; symmetry; eapply Forall2_len; exact E1).
  destruct (uncovered (f_cols X) (a1 ++ a2)) as [|u us]; [injection H as <-; exists a1, a2; auto|].
  destruct (select_columns _ _ _) as [XC|]; [|discriminate]. cbn [bind] in *. destruct (fit _ _ _ _) as [ed [ex|]]; [discriminate|]. injection H as <-.
  exists a1, (a2 ++ [(default_name, ed, u :: us)])%list. rewrite <- !app_assoc. auto.
Qed.
Lemma fit_effects_drop default l1 l l2 X s g n e' : fit_effects order default (l1 ++ l :: l2) (Some X) s = Ok g -> nth_error g (List.length l1) = Some (n, e', []) -> skip_if_no_match (l_effect l) = true ->
  exists g', fit_effects order default (l1 ++ l2) (Some X) s = Ok g' /\ same_use g g'.
Proof.
  intros H N K. unfold fit_effects in *. rewrite mapM_app in *. destruct (mapM (fit_one order (Some X) s) l1) as [a1|] eqn:E1; [|discriminate]. cbn [bind mapM] in *.
  destruct (fit_one order (Some X) s l) as [[[n0 e0] cols]|] eqn:F; [|discriminate]. cbn [bind] in *.
  destruct (mapM (fit_one order (Some X) s) l2) as [a2|] eqn:E2; [|discriminate]. cbn [bind] in *.
  assert (L1 : List.length a1 = List.length l1) by (apply mapM_ok in E1; symmetry; eapply Forall2_len; exact E1).
  assert (Q : forall tl, nth_error (a1 ++ (n0, e0, cols) :: tl)%list (List.length l1) = Some (n0, e0, cols)) by (intros tl; rewrite <- L1, nth_error_app2, Nat.sub_diag by lia; reflexivity).
  assert (EC : cols = [] /\ e0 = e').
  { destruct (uncovered (f_cols X) _) as [|u us]; [injection H as <-; rewrite Q in N; injection N as _ -> ->; auto|].
    destruct (select_columns _ _ _) as [XC|]; [|discriminate]. cbn [bind] in *. destruct (fit _ _ _ _) as [ed [ex|]]; [discriminate|]. injection H as <-. rewrite <- app_assoc in N. cbn [app] in N. rewrite Q in N. injection N as _ -> ->. auto. }
  destruct EC as [-> ->]. rewrite uncovered_skip in H. pose proof (fit_one_skips _ _ _ _ _ F K) as SK.
  destruct (uncovered (f_cols X) (a1 ++ a2)) as [|u us]; [injection H as <-; eexists; split; [reflexivity|now apply skipped_unused]|].
  destruct (select_columns _ _ _) as [XC|]; [|discriminate]. cbn [bind] in *. destruct (fit _ _ _ _) as [ed [ex|]]; [discriminate|]. injection H as <-. eexists. split; [reflexivity|]. rewrite <- !app_assoc. now apply skipped_unused.
Qed.
End Effects.

Section Any.
Variable ns_of : Z -> Z.
Variable order : list string -> list string.
Variable keep : path -> bool.
Context {TS P : Type}.
Variable tr_fit_transform : TS -> frame R -> TS * res (frame R).
Variable tr_transform : TS -> frame R -> res (frame R).
Variable svi_run : Z -> nat -> nat -> prog arr -> res (list xr * P).
Variable nuts_run : Z -> nat -> nat -> nat -> prog arr -> res (nat -> nat -> env).
Variable latent_sites : prog arr -> list string.
Variable guide_draw : P -> Z -> nat -> prog arr -> env.
Variable complete_draw : env -> Z -> nat -> prog arr -> env.
Notation fit_data := (fit_data ns_of order keep tr_fit_transform).
Notation fit_forecaster := (fit_forecaster ns_of order keep tr_fit_transform svi_run nuts_run latent_sites).
Notation forecast_samples := (forecast_samples ns_of keep tr_transform guide_draw complete_draw).
Notation forecast_point := (forecast_point ns_of keep tr_transform guide_draw complete_draw).
Notation forecast_quantiles := (forecast_quantiles ns_of keep tr_transform guide_draw complete_draw).
Notation forecast_all_sites := (forecast_all_sites ns_of keep tr_transform guide_draw complete_draw).
Notation forecast_all_sites_samples := (forecast_all_sites_samples ns_of keep tr_transform guide_draw complete_draw).

Definition same_prepared (p p' : prepared) : Prop :=
  p_index p = p_index p' /\ p_effects p = p_effects p' /\ p_has_exogenous p = p_has_exogenous p' /\ p_expander p = p_expander p' /\ p_single p = p_single p' /\
  forall X fh, transform_effects (p_fitted p) X fh = transform_effects (p_fitted p') X fh.
(** the table the effects of an untransformed univariate forecaster see *)
Definition sees (c : config) (ob : objects (TS := TS)) (X : option (frame R)) (X1 : frame R) : Prop :=
  c_hier c = false -> o_transformer ob = None -> forall X0, X = Some X0 -> f_cols X1 = f_cols X0 /\ f_levels X1 = f_levels X0.

Lemma call_same c es s p p' t td y data : p_effects p = p_effects p' -> p_has_exogenous p = p_has_exogenous p' -> p_single p = p_single p' ->
  model_call (with_effects c es) s p' t td y data = model_call c s p t td y data.
Proof. intros E1 E2 E3. unfold model_call. cbn [with_effects c_hier c_noise c_concentration c_likelihood]. rewrite E1, E2, E3. reflexivity. Qed.

Lemma fit_data_when c es ob s y X (good : list fitted_effect -> Prop) ob' p m :
  (forall X1 sc g, sees c ob X X1 -> fit_effects order (c_default c) (effects_of c) (Some X1) sc = Ok g -> good g -> exists g', fit_effects order (c_default c) es (Some X1) sc = Ok g' /\ same_use g g') ->
  fit_data c ob s y X = (ob', Ok (p, m)) -> good (p_fitted p) -> exists p', fit_data (with_effects c es) ob s y X = (ob', Ok (p', m)) /\ same_prepared p p'.
Proof.
  intros FE H G. unfold Forecaster.fit_data in *. change (c_hier (with_effects c es)) with (c_hier c). destruct (c_hier c) eqn:HH.
  - unfold hierarchical_fit_data in *. change (get_trend_model (with_effects c es)) with (get_trend_model (TS := TS) c). change (c_shared (with_effects c es)) with (c_shared c).
    destruct (loc_bottom_series (aggregate keep y)) as [yb|]; [|discriminate]. destruct (series_to_tensor yb) as [tensor|]; [|discriminate]. cbv zeta in *.
    destruct (loc_bottom_series _) as [Xb|]; [|discriminate]. destruct (run_fit_transform _ _ _) as [ob1 [Xt|]]; [|discriminate].
    destruct (if negb (no_columns Xt) then _ else _) as [[Xe ex]|]; [|discriminate]. destruct (get_trend_model c ob1) as [t0|]; [|discriminate].
    destruct (trend_fit _ _ _ _ _ _) as [t [er|]]; [discriminate|]. injection H as <- H. inv_bind H. inv_bind H. inv_bind H. inv_bind H. injection H as <- <-. cbn [p_fitted] in G.
    change (effects_of (with_effects c es)) with es. change (c_default (with_effects c es)) with (c_default c).
    destruct (FE Xe (scale_number s) x0) as (g' & E' & U1 & U2); auto; [intros Q; congruence|]. cbn [bind]. rewrite E'. cbn [bind]. rewrite <- U1, <- U2, E1, E2. cbn [bind].
    eexists. split; [do 2 f_equal; f_equal; apply call_same; reflexivity|]. repeat split. exact U1.
  - unfold univariate_fit_data in *. change (get_trend_model (with_effects c es)) with (get_trend_model (TS := TS) c). change (discrete (with_effects c es)) with (discrete c).
    destruct (get_trend_model c ob) as [t0|]; [|discriminate]. destruct (if discrete c then divide_target s y else Ok y) as [yt|]; [|discriminate].
    destruct (trend_fit _ _ t0 X yt 1) as [t [er|]]; [discriminate|]. cbv zeta in *. destruct (run_fit_transform _ _ _) as [ob1 [Xt|]] eqn:RT; [|discriminate].
    injection H as <- H. cbn [bind] in *. inv_bind H. inv_bind H. inv_bind H. inv_bind H. inv_bind H. injection H as <- <-. cbn [p_fitted] in G.
    change (effects_of (with_effects c es)) with es. change (c_default (with_effects c es)) with (c_default c).
    destruct (FE x (scale_number s) x1) as (g' & E' & U1 & U2); auto.
    { intros _ NT X0 ->. unfold run_fit_transform in RT. cbn [o_transformer] in RT. rewrite NT in RT. injection RT as _ <-. apply loc_index_inv in E. destruct E as (L1 & L2 & _). auto. }
    cbn [bind]. rewrite E0. cbn [bind]. rewrite E'. cbn [bind]. rewrite <- U1, <- U2, E2, E3. cbn [bind].
    eexists. split; [do 2 f_equal; f_equal; apply call_same; reflexivity|]. repeat split. exact U1.
Qed.
Lemma fit_when c es ob y X (good : list fitted_effect -> Prop) ob' f :
  (forall X1 sc g, sees c ob X X1 -> fit_effects order (c_default c) (effects_of c) (Some X1) sc = Ok g -> good g -> exists g', fit_effects order (c_default c) es (Some X1) sc = Ok g' /\ same_use g g') ->
  fit_forecaster c ob y X = (ob', Ok f) -> good (p_fitted (ft_prepared f)) ->
  exists f', fit_forecaster (with_effects c es) ob y X = (ob', Ok f') /\ ft_scale f' = ft_scale f /\ ft_posterior f' = ft_posterior f /\ same_prepared (ft_prepared f) (ft_prepared f').
Proof.
  intros FE H G. unfold Forecaster.fit_forecaster in *. change (c_scale (with_effects c es)) with (c_scale c). change (discrete (with_effects c es)) with (discrete c). change (engine_of (with_effects c es)) with (engine_of c).
  destruct (_ <- set_y_scales (c_scale c) y ;; _) as [[s ys]|]; [|discriminate]. destruct (fit_data c ob s ys X) as [ob1 [[p m]|]] eqn:E; [|discriminate]. injection H as <- H. cbn [bind] in H. inv_bind H. injection H as <-. cbn [ft_prepared ft_scale ft_posterior] in *.
  destruct (fit_data_when c es ob s ys X good ob1 p m FE E G) as (p' & -> & SP). cbn [bind]. rewrite E0. cbn [bind]. eexists. split; [reflexivity|]. auto.
Qed.

(** * Forecasts *)
Notation same_forecasts := (same_forecasts ns_of keep tr_transform guide_draw complete_draw).

Lemma dict_same c es ob (f f' : fitted (P := P)) y X fh : ft_scale f' = ft_scale f -> ft_posterior f' = ft_posterior f -> same_prepared (ft_prepared f) (ft_prepared f') ->
  snd (predictive_samples_dict ns_of keep tr_transform guide_draw complete_draw (with_effects c es) ob f' y X fh) = snd (predictive_samples_dict ns_of keep tr_transform guide_draw complete_draw c ob f y X fh).
Proof.
  intros E1 E2 (P1 & P2 & P3 & P4 & P5 & P6). unfold predictive_samples_dict. change (c_hier (with_effects c es)) with (c_hier c). change (engine_of (with_effects c es)) with (engine_of c). destruct (c_hier c) eqn:HH.
  - assert (Q : hierarchical_predict_model ns_of keep tr_transform (with_effects c es) ob f' y X fh = hierarchical_predict_model ns_of keep tr_transform c ob f y X fh).
    { unfold hierarchical_predict_model. cbv zeta. rewrite <- P1, <- P3, <- P4, E1.
      destruct (max_time _); [|reflexivity]. cbn [bind]. destruct (loc_bottom_series _); [|reflexivity]. cbn [bind].
      match goal with |- bind ?a _ = bind ?b _ => destruct b as [[Xb ex]|]; [|reflexivity] end. cbn [bind]. destruct (trend_transform _ _ _ _); [|reflexivity]. cbn [bind].
      rewrite <- P6. destruct (transform_effects _ _ _); [|reflexivity]. cbn [bind]. do 2 f_equal. now apply call_same. }
    rewrite Q, E2. clear Q. destruct (hierarchical_predict_model _ _ _ _ _ _ _ _ _) as [[m ex]|]; reflexivity.
  - assert (Q : univariate_predict_model ns_of tr_transform (with_effects c es) ob f' y X fh = univariate_predict_model ns_of tr_transform c ob f y X fh).
    { unfold univariate_predict_model. cbv zeta. rewrite <- P3, E1. destruct (max_time _); [|reflexivity]. cbn [bind]. destruct (run_transform _ _ _); [|reflexivity]. cbn [bind]. destruct (trend_transform _ _ _ _); [|reflexivity]. cbn [bind].
      rewrite <- P6. destruct (if p_has_exogenous (ft_prepared f) then _ else _); [|reflexivity]. cbn [bind]. f_equal. now apply call_same. }
    rewrite Q, E2. reflexivity.
Qed.
Lemma forecasts_same c es (f f' : fitted (P := P)) : ft_scale f' = ft_scale f -> ft_posterior f' = ft_posterior f -> same_prepared (ft_prepared f) (ft_prepared f') -> same_forecasts c (with_effects c es) f f'.
Proof.
  intros E1 E2 SP ob y X fh. pose proof (dict_same c es ob f f' y X fh E1 E2 SP) as D.
  assert (LB : labeller_of (with_effects c es) f' y = labeller_of c f y) by (unfold labeller_of; destruct SP as (<- & _); rewrite E1; reflexivity).
  assert (S : snd (forecast_samples (with_effects c es) ob f' y X fh) = snd (forecast_samples c ob f y X fh)).
  { unfold Forecaster.forecast_samples. destruct (fh_to_index y fh); [|reflexivity]. rewrite LB. revert D. destruct (predictive_samples_dict _ _ _ _ _ (with_effects c es) _ _ _ _ _) as [g1 d1]. destruct (predictive_samples_dict _ _ _ _ _ c _ _ _ _ _) as [g2 d2]. cbn [snd]. now intros ->. }
  split; [exact S|]. unfold Forecaster.forecast_point, Forecaster.forecast_quantiles, Forecaster.forecast_all_sites, Forecaster.forecast_all_sites_samples. split; [|split; [|split]].
  - revert S. destruct (forecast_samples (with_effects c es) ob f' y X fh) as [g1 d1]. destruct (forecast_samples c ob f y X fh) as [g2 d2]. cbn [snd]. now intros ->.
  - intros alpha. revert S. destruct (forecast_samples (with_effects c es) ob f' y X fh) as [g1 d1]. destruct (forecast_samples c ob f y X fh) as [g2 d2]. cbn [snd]. now intros ->.
  - destruct (fh_to_index y fh); [|reflexivity]. rewrite LB. revert D. destruct (predictive_samples_dict _ _ _ _ _ (with_effects c es) _ _ _ _ _) as [g1 d1]. destruct (predictive_samples_dict _ _ _ _ _ c _ _ _ _ _) as [g2 d2]. cbn [snd]. now intros ->.
  - rewrite LB. revert D. destruct (predictive_samples_dict _ _ _ _ _ (with_effects c es) _ _ _ _ _) as [g1 d1]. destruct (predictive_samples_dict _ _ _ _ _ c _ _ _ _ _) as [g2 d2]. cbn [snd]. now intros ->.
Qed.

(** * The claims *)
Theorem c111_drop c l1 l l2 ob y X ob' f n e' : effects_of c = (l1 ++ l :: l2)%list -> fit_forecaster c ob y X = (ob', Ok f) ->
  nth_error (p_fitted (ft_prepared f)) (List.length l1) = Some (n, e', []) -> skip_if_no_match (l_effect l) = true ->
  exists f', fit_forecaster (with_effects c (l1 ++ l2)) ob y X = (ob', Ok f') /\ ft_scale f' = ft_scale f /\ ft_posterior f' = ft_posterior f /\ same_forecasts c (with_effects c (l1 ++ l2)) f f'.
Proof.
  intros EC H N K. destruct (fit_when c (l1 ++ l2)%list ob y X (fun g => nth_error g (List.length l1) = Some (n, e', [])) ob' f) as (f' & H' & E1 & E2 & SP); auto.
  { intros X1 sc g _ FE G. rewrite EC in FE. eapply fit_effects_drop; eauto. }
  exists f'. split; [exact H'|]. split; [exact E1|]. split; [exact E2|]. now apply forecasts_same.
Qed.

Lemma no_match cols l : readable (l_regex l) -> (forall x, In x cols -> ~ matched (l_regex l) x) -> match_columns cols (l_regex l) = Ok [].
Proof.
  intros RD NM. destruct (match_columns cols (l_regex l)) as [cs|] eqn:E.
  - pose proof (ForecasterFacts.match_columns_In _ _ _ E) as I. destruct cs as [|x cs]; [reflexivity|]. exfalso. destruct (proj1 (I x) (or_introl eq_refl)) as [I1 I2]. now apply (NM x).
  - unfold match_columns in E. destruct (l_regex l) as [p|]; [|discriminate]. destruct (RD p eq_refl) as (r & Q). rewrite Q in E. discriminate.
Qed.
Lemma idle_seen c ob X l X1 : idle c ob X l -> sees c ob X X1 -> match_columns (f_cols X1) (l_regex l) = Ok [] /\ (supports_multivariate (l_effect l) = true \/ f_levels X1 = 0).
Proof.
  intros (_ & RD & [[S NM]|(X0 & HH & NT & EX & S & NM)]) SE.
  - split; [apply no_match; auto|auto].
  - destruct (SE HH NT X0 EX) as [C L]. rewrite C, L. split; [now apply no_match|exact S].
Qed.
Theorem c111_add c l1 l l2 ob y X ob' f : effects_of c = (l1 ++ l2)%list -> idle c ob X l -> fit_forecaster c ob y X = (ob', Ok f) ->
  exists f', fit_forecaster (with_effects c (l1 ++ l :: l2)) ob y X = (ob', Ok f') /\ ft_scale f' = ft_scale f /\ ft_posterior f' = ft_posterior f /\ same_forecasts c (with_effects c (l1 ++ l :: l2)) f f'.
Proof.
  intros EC ID H. destruct (fit_when c (l1 ++ l :: l2)%list ob y X (fun _ => True) ob' f) as (f' & H' & E1 & E2 & SP); auto.
  { intros X1 sc g SE FE _. rewrite EC in FE. destruct (idle_seen _ _ _ _ _ ID SE) as [M S]. destruct (fit_one_idle order X1 sc l M (proj1 ID) S) as (e' & F & SK).
    destruct (fit_effects_add order _ _ _ _ _ _ _ _ _ F FE) as (g1 & g2 & -> & _ & Q). eexists. split; [exact Q|]. apply same_use_sym. now apply skipped_unused. }
  exists f'. split; [exact H'|]. split; [exact E1|]. split; [exact E2|]. now apply forecasts_same.
Qed.
Theorem c111_remove c l1 l l2 ob y X ob' f : effects_of c = (l1 ++ l :: l2)%list -> idle c ob X l -> fit_forecaster c ob y X = (ob', Ok f) ->
  exists f', fit_forecaster (with_effects c (l1 ++ l2)) ob y X = (ob', Ok f') /\ ft_scale f' = ft_scale f /\ ft_posterior f' = ft_posterior f /\ same_forecasts c (with_effects c (l1 ++ l2)) f f'.
Proof.
  intros EC ID H. destruct (fit_when c (l1 ++ l2)%list ob y X (fun _ => True) ob' f) as (f' & H' & E1 & E2 & SP); auto.
  { intros X1 sc g SE FE _. rewrite EC in FE. destruct (idle_seen _ _ _ _ _ ID SE) as [M S]. destruct (fit_one_idle order X1 sc l M (proj1 ID) S) as (e' & F & SK).
    assert (N : nth_error g (List.length l1) = Some (l_name l, e', [])).
    { unfold fit_effects in FE. rewrite mapM_app in FE. destruct (mapM (fit_one order (Some X1) sc) l1) as [a1|] eqn:M1; [|discriminate]. cbn [bind mapM] in FE. rewrite F in FE. cbn [bind] in FE. destruct (mapM _ l2) as [a2|]; [|discriminate]. cbn [bind] in FE.
      assert (L1 : List.length a1 = List.length l1) by (apply mapM_ok in M1; symmetry; eapply Forall2_len; exact M1).
      destruct (uncovered _ _) as [|u us]; [injection FE as <-|destruct (select_columns _ _ _) as [XC|]; [|discriminate]; cbn [bind] in FE; destruct (fit _ _ _ _) as [ed [ex|]]; [discriminate|]; injection FE as <-; rewrite <- app_assoc];
      rewrite <- L1, nth_error_app2, Nat.sub_diag by lia; reflexivity. }
    eapply fit_effects_drop; eauto. apply ID. }
  exists f'. split; [exact H'|]. split; [exact E1|]. split; [exact E2|]. now apply forecasts_same.
Qed.
End Any.
