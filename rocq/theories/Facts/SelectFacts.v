(** Patterns matter only through the columns they select. *)
From Coq Require Import Reals String Bool ZArith List Lia Permutation.
From Verif.Model Require Import Base Num XFloat Regex Frame Arr Expand Aggregate Scale Predict Prog Likelihood Effect TrendProg Engine Forecaster.
From Verif.Spec Require Import RegexSpec FrameSpec ProgSpec ForecasterSpec RelistSpec IdleSpec ResponseSpec CopySpec SelectSpec.
From Verif.Facts Require Import BaseFacts FrameFacts RegexFacts MeanFacts ForecasterFacts ForecasterInv ForecasterProps CopyFacts RelistFacts DefaultFacts IdleFacts.
Import ListNotations.
Local Open Scope string_scope.

(** * Matching *)
Lemma match_columns_same cols a b cs : match_columns cols a = Ok cs -> b = a \/ readable b -> (forall d, In d cols -> matched b d <-> matched a d) -> match_columns cols b = Ok cs.
Proof.
  intros M [->|RD] S; [exact M|]. assert (Q : forall p r d, compile p = Some r -> matched (Some p) d <-> re_match r d = true).
  { intros p r d C. rewrite matched_col. unfold col_match. rewrite C. split; [now intros [= ->]|now intros ->]. }
  destruct b as [pb|]; cbn [match_columns].
  - destruct (RD pb eq_refl) as (rb & CB). rewrite CB. destruct a as [pa|]; cbn [match_columns] in M.
    + destruct (compile pa) as [ra|] eqn:CA; [|discriminate]. injection M as <-. f_equal. apply filter_ext_in. intros d Hd. apply eq_true_iff_eq. rewrite <- (Q pb rb d CB), <- (Q pa ra d CA). auto.
    + injection M as <-. f_equal. rewrite <- (filter_ext_in (fun _ => false)); [clear; induction cols; auto|]. intros d Hd. symmetry. apply not_true_is_false. rewrite <- (Q pb rb d CB), (S d Hd). intros (p & r & s & E & _). discriminate.
  - destruct a as [pa|]; cbn [match_columns] in M; [|exact M]. destruct (compile pa) as [ra|] eqn:CA; [|discriminate]. injection M as <-. f_equal.
    rewrite <- (filter_ext_in (fun _ => false)); [clear; induction cols; auto|]. intros d Hd. symmetry. apply not_true_is_false. rewrite <- (Q pa ra d CA), <- (S d Hd). intros (p & r & s & E & _). discriminate.
Qed.

Section Effects.
Variable order : list string -> list string.
Lemma fit_one_same X s l l' g : fit_one order (Some X) s l = Ok g -> same_selection (fun d => In d (f_cols X)) l l' -> fit_one order (Some X) s l' = Ok g.
Proof.
  destruct l as [[n e] re], l' as [[n' e'] re']. unfold same_selection, l_name, l_effect, l_regex. cbn [fst snd]. intros H (-> & -> & RD & S). unfold fit_one in *.
  destruct (match_columns (f_cols X) re) as [cs|] eqn:M; [|discriminate]. now rewrite (match_columns_same _ _ _ _ M RD S).
Qed.
Lemma fit_effects_same default es es' X s g : fit_effects order default es (Some X) s = Ok g -> Forall2 (same_selection (fun d => In d (f_cols X))) es es' -> fit_effects order default es' (Some X) s = Ok g.
Proof.
  intros H F. unfold fit_effects in *. destruct (mapM (fit_one order (Some X) s) es) as [a|] eqn:E; [|discriminate].
  replace (mapM (fit_one order (Some X) s) es') with (Ok a); [exact H|]. symmetry. clear H. revert a E. induction F as [|l l' es es' S F IH]; intros a E; [exact E|].
  cbn [mapM] in *. destruct (fit_one order (Some X) s l) as [g0|] eqn:E0; [|discriminate]. cbn [bind] in E. destruct (mapM (fit_one order (Some X) s) es) as [a0|]; [|discriminate]. injection E as <-.
  rewrite (fit_one_same _ _ _ _ _ E0 S). cbn [bind]. now rewrite (IH a0 eq_refl).
Qed.
(** every column is read by some fitted effect *)
Lemma all_used default es X s g d : fit_effects order default es (Some X) s = Ok g -> In d (f_cols X) -> exists h, In h g /\ In d (fe_cols h).
Proof.
  intros H I. apply fit_effects_inv in H as (main & dflt & -> & F & D).
  assert (Q : (exists h, In h main /\ In d (fe_cols h)) \/ leftover es X d).
  { assert (Z : (exists h, In h main /\ In d (fe_cols h)) \/ forall l, In l es -> ~ matched (l_regex l) d).
    { clear D. induction F as [|l h es main (_ & C & _) F IH]; [right; intros l []|]. destruct (in_dec string_dec d (fe_cols h)) as [Y|N]; [left; exists h; split; [now left|exact Y]|].
      destruct IH as [(h' & A & B)|IH]; [left; exists h'; split; [now right|exact B]|]. right. intros l0 [<-|J]; [|auto]. intros MM. apply N, C. auto. }
    destruct Z as [Z|Z]; [now left|right; split; auto]. }
  destruct Q as [(h & A & B)|L]; [exists h; split; [apply in_or_app; now left|exact B]|].
  destruct D as [[_ N]|(h & -> & _ & _ & C & _)]; [now destruct (N d)|]. exists h. split; [apply in_or_app; right; now left|now apply C].
Qed.
End Effects.

Section Any.
Variable ns_of : Z -> Z.
Variable order : list string -> list string.
Variable keep : path -> bool.
Context {TS P : Type}.
Variable tr_fit_transform : TS -> frame R -> TS * res (frame R).
Variable tr_transform : TS -> frame R -> res (frame R).
Variable svi_run : Z -> nat -> nat -> prog arr -> res (list xr * P).
Variable nuts_run : Z -> nat -> nat -> nat -> prog arr -> res (nat -> nat -> env).
Variable latent_sites : prog arr -> list string.
Variable guide_draw : P -> Z -> nat -> prog arr -> env.
Variable complete_draw : env -> Z -> nat -> prog arr -> env.
Notation fit_data := (fit_data ns_of order keep tr_fit_transform).
Notation fit_forecaster := (fit_forecaster ns_of order keep tr_fit_transform svi_run nuts_run latent_sites).
Notation same_forecasts := (same_forecasts ns_of keep tr_transform guide_draw complete_draw).

Lemma fit_data_equal c es ob s y X ob' p m :
  (forall X1 sc, fit_effects order (c_default c) (effects_of c) (Some X1) sc = Ok (p_fitted p) -> fit_effects order (c_default c) es (Some X1) sc = Ok (p_fitted p)) ->
  fit_data c ob s y X = (ob', Ok (p, m)) -> fit_data (with_effects c es) ob s y X = (ob', Ok (p, m)).
Proof.
  intros FE H. unfold Forecaster.fit_data in *. change (c_hier (with_effects c es)) with (c_hier c). destruct (c_hier c) eqn:HH.
  - unfold hierarchical_fit_data in *. change (get_trend_model (with_effects c es)) with (get_trend_model (TS := TS) c). change (c_shared (with_effects c es)) with (c_shared c).
    destruct (loc_bottom_series (aggregate keep y)) as [yb|]; [|discriminate]. destruct (series_to_tensor yb) as [tensor|]; [|discriminate]. cbv zeta in *.
    destruct (loc_bottom_series _) as [Xb|]; [|discriminate]. destruct (run_fit_transform _ _ _) as [ob1 [Xt|]]; [|discriminate].
    destruct (if negb (no_columns Xt) then _ else _) as [[Xe ex]|]; [|discriminate]. destruct (get_trend_model c ob1) as [t0|]; [|discriminate].
    destruct (trend_fit _ _ _ _ _ _) as [t [er|]]; [discriminate|]. injection H as <- H. inv_bind H. inv_bind H. inv_bind H. inv_bind H. injection H as <- <-. cbn [p_fitted] in FE.
    change (effects_of (with_effects c es)) with es. change (c_default (with_effects c es)) with (c_default c).
    rewrite (FE Xe (scale_number s) E0). cbn [bind]. rewrite E1. cbn [bind]. rewrite E2. cbn [bind]. reflexivity.
  - unfold univariate_fit_data in *. change (get_trend_model (with_effects c es)) with (get_trend_model (TS := TS) c). change (discrete (with_effects c es)) with (discrete c).
    destruct (get_trend_model c ob) as [t0|]; [|discriminate]. destruct (if discrete c then divide_target s y else Ok y) as [yt|]; [|discriminate].
    destruct (trend_fit _ _ t0 X yt 1) as [t [er|]]; [discriminate|]. cbv zeta in *. destruct (run_fit_transform _ _ _) as [ob1 [Xt|]] eqn:RT; [|discriminate].
    injection H as <- H. cbn [bind] in *. inv_bind H. inv_bind H. inv_bind H. inv_bind H. inv_bind H. injection H as <- <-. cbn [p_fitted] in FE.
    change (effects_of (with_effects c es)) with es. change (c_default (with_effects c es)) with (c_default c).
    cbn [bind]. rewrite E0. cbn [bind]. rewrite (FE x (scale_number s) E1). cbn [bind]. rewrite E2. cbn [bind]. rewrite E3. cbn [bind]. reflexivity.
Qed.

Theorem c114_used c es ob y X ob' (f : fitted (P := P)) : fit_forecaster c ob y X = (ob', Ok f) -> Forall2 (same_selection (used f)) (effects_of c) es ->
  fit_forecaster (with_effects c es) ob y X = (ob', Ok f) /\ same_forecasts c (with_effects c es) f f.
Proof.
  intros H S. split; [|apply forecasts_same; try reflexivity; repeat split].
  unfold Forecaster.fit_forecaster in *. change (c_scale (with_effects c es)) with (c_scale c). change (discrete (with_effects c es)) with (discrete c). change (engine_of (with_effects c es)) with (engine_of c).
  destruct (_ <- set_y_scales (c_scale c) y ;; _) as [[s ys]|]; [|discriminate]. destruct (fit_data c ob s ys X) as [ob1 [[p m]|]] eqn:E; [|discriminate]. injection H as <- H. cbn [bind] in H. inv_bind H. injection H as <-.
  rewrite (fit_data_equal c es ob s ys X ob1 p m); auto.
  - cbn [bind]. rewrite E0. reflexivity.
  - intros X1 sc FE. refine (fit_effects_same order _ _ _ _ _ _ FE _). clear -S FE. unfold used in S. cbn [ft_prepared] in S.
    pose proof (fun d => all_used order _ _ _ _ _ d FE) as U. clear FE. induction S as [|l l' ls ls' (A & B & C & D) S IH]; constructor; auto. split; [exact A|]. split; [exact B|]. split; [exact C|]. intros d Hd. apply D, U, Hd.
Qed.

Lemma weaker (cols cols' : string -> Prop) es es' : (forall d, cols' d -> cols d) -> Forall2 (same_selection cols) es es' -> Forall2 (same_selection cols') es es'.
Proof. intros W S. induction S as [|l l' ls ls' (A & B & C & D) S IH]; constructor; auto. split; [exact A|]. split; [exact B|]. split; [exact C|]. auto. Qed.

(** the columns are those of X *)
Theorem c114_univariate c es ob y X ob' (f : fitted (P := P)) : fit_forecaster c ob y (Some X) = (ob', Ok f) -> c_hier c = false -> o_transformer ob = None ->
  Forall2 (same_selection (fun d => In d (f_cols X))) (effects_of c) es ->
  fit_forecaster (with_effects c es) ob y (Some X) = (ob', Ok f) /\ same_forecasts c (with_effects c es) f f.
Proof.
  intros H HH NT S. apply c114_used; auto. eapply weaker; [|exact S]. intros d (g & I & J). revert H I. intros H I.
  apply fit_forecaster_inv in H as (s & ys & p & m & post & _ & _ & H & _ & ->). cbn [ft_prepared] in I. unfold Forecaster.fit_data in H. rewrite HH in H.
  unfold univariate_fit_data in H. destruct (get_trend_model c ob) as [t0|]; [|discriminate]. destruct (if discrete c then divide_target s ys else Ok ys) as [yt|]; [|discriminate].
  destruct (trend_fit _ _ t0 (Some X) yt 1) as [t [er|]]; [discriminate|]. cbv zeta in H. destruct (run_fit_transform _ _ _) as [ob1 [Xt|]] eqn:RT; [|discriminate].
  injection H as _ H. cbn [bind] in *. inv_bind H. inv_bind H. inv_bind H. inv_bind H. inv_bind H. injection H as <- <-. cbn [p_fitted] in I.
  unfold run_fit_transform in RT. cbn [o_transformer] in RT. rewrite NT in RT. injection RT as _ <-. apply loc_index_inv in E. destruct E as (_ & C & _). rewrite <- C.
  apply fit_effects_inv in E1 as (main & dflt & -> & F & D). apply in_app_or in I as [I|I].
  - clear -F I J. induction F as [|l h ls hs (_ & K & _) F IH]; [contradiction|]. destruct I as [->|I]; [apply (K d) in J; tauto|auto].
  - destruct D as [[-> _]|(h & -> & _ & _ & K & _)]; [contradiction|]. destruct I as [->|[]]. apply K in J. apply J.
Qed.

(** any class, with or without a transformer: the patterns agree on all names *)
Theorem c114_replace c l1 l l2 l' ob y X ob' (f : fitted (P := P)) : effects_of c = (l1 ++ l :: l2)%list -> fit_forecaster c ob y X = (ob', Ok f) -> same_selection (fun _ => True) l l' ->
  fit_forecaster (with_effects c (l1 ++ l' :: l2)) ob y X = (ob', Ok f) /\ same_forecasts c (with_effects c (l1 ++ l' :: l2)) f f.
Proof.
  intros EC H S. apply c114_used; auto. rewrite EC. assert (Q : forall ls, Forall2 (same_selection (used f)) ls ls) by (induction ls; constructor; [repeat split; auto|assumption]).
  apply Forall2_app; [apply Q|]. constructor; [|apply Q]. destruct S as (A & B & C & D). repeat split; auto; now apply D.
Qed.
End Any.

Section Panel.
Variable ns_of : Z -> Z.
Variable order : list string -> list string.
Hypothesis Order : forall l, Permutation (order l) l.
Variable keep : path -> bool.
Context {TS P : Type}.
Variable tr_fit_transform : TS -> frame R -> TS * res (frame R).
Variable tr_transform : TS -> frame R -> res (frame R).
Variable svi_run : Z -> nat -> nat -> prog arr -> res (list xr * P).
Variable nuts_run : Z -> nat -> nat -> nat -> prog arr -> res (nat -> nat -> env).
Variable latent_sites : prog arr -> list string.
Variable guide_draw : P -> Z -> nat -> prog arr -> env.
Variable complete_draw : env -> Z -> nat -> prog arr -> env.
Notation fit_forecaster := (fit_forecaster ns_of order keep tr_fit_transform svi_run nuts_run latent_sites).
Notation same_forecasts := (same_forecasts ns_of keep tr_transform guide_draw complete_draw).

Theorem c114_panel c es ob y X ob' (f : fitted (P := P)) : fit_forecaster c ob y (Some X) = (ob', Ok f) -> c_hier c = true -> o_transformer ob = None ->
  frame_wf X -> f_levels X <> 0 -> f_cols X <> [] -> copyable (shared_features c) (f_cols X) (bottom_series X) ->
  Forall2 (same_selection (offered (shared_features c) (f_cols X) (bottom_series X))) (effects_of c) es ->
  fit_forecaster (with_effects c es) ob y (Some X) = (ob', Ok f) /\ same_forecasts c (with_effects c es) f f.
Proof.
  intros H HH NT W L NC CO S. apply c114_used; auto. eapply weaker; [|exact S]. intros d (g & I & J).
  destruct (fitted_columns ns_of order Order keep tr_fit_transform svi_run nuts_run latent_sites c ob y X ob' f H HH NT W L NC CO) as (Xe & main & dflt & O & EF & F & D). apply O. rewrite EF in I. apply in_app_or in I as [I|I].
  - clear -F I J. induction F as [|l h ls hs (_ & K) F IH]; [contradiction|]. destruct I as [->|I]; [apply (K d) in J; tauto|auto].
  - destruct D as [[-> _]|(h & -> & _ & K)]; [contradiction|]. destruct I as [->|[]]. apply K in J. apply J.
Qed.
End Panel.

(** * Prefixes *)
Lemma prefixes_same ps qs n e : ps <> [] -> qs <> [] -> Forall literal ps -> Forall literal qs ->
  (forall p, In p ps -> exists q, In q qs /\ starts_with_str q p) -> (forall q, In q qs -> exists p, In p ps /\ starts_with_str p q) ->
  same_selection (fun _ => True) (n, e, Some (starts_with ps)) (n, e, Some (starts_with qs)).
Proof.
  intros NP NQ LP LQ PQ QP. split; [reflexivity|]. split; [reflexivity|]. unfold l_regex. cbn [snd].
  assert (T : forall a b d, starts_with_str a b -> starts_with_str b d -> starts_with_str a d) by (intros a b d [u ->] [v ->]; exists (u ++ v); now rewrite append_assoc).
  split.
  - right. intros p [= <-]. assert (M : exists d, matched (Some (starts_with qs)) d). { destruct qs as [|q qs]; [congruence|]. exists q. apply matched_col, starts_with_literal; auto. exists q. split; [now left|]. exists "". symmetry. apply append_none. }
    destruct M as (d & p & r & s & [= <-] & C & _). eauto.
  - intros d _. rewrite !matched_col, !starts_with_literal by assumption. split.
    + intros (q & I & S). destruct (QP q I) as (p & J & K). exists p. split; [exact J|]. eapply T; eauto.
    + intros (p & I & S). destruct (PQ p I) as (q & J & K). exists q. split; [exact J|]. eapply T; eauto.
Qed.
