(** The default effect, listed explicitly. *)
From Coq Require Import Reals String Bool ZArith List Permutation Sorting.Sorted Lia.
From Verif.Model Require Import Base Num XFloat Regex Frame Arr Expand Aggregate Scale Prog Likelihood Effect TrendProg Engine Forecaster.
From Verif.Spec Require Import RegexSpec FrameSpec ProgSpec ForecasterSpec RelistSpec DefaultSpec.
From Verif.Facts Require Import BaseFacts FrameFacts RegexFacts ForecasterFacts ForecasterInv ForecasterProps CopyFacts.
Import ListNotations.
Local Open Scope string_scope.

Lemma alphabetical_nodup cols : alphabetical cols -> NoDup cols.
Proof. induction 1 as [|a l S IH F]; constructor; [|exact IH]. intros I. rewrite Forall_forall in F. now destruct (F a I). Qed.
Lemma alphabetical_filter f cols : alphabetical cols -> alphabetical (filter f cols).
Proof.
  induction 1 as [|a l S IH F]; [constructor|]. cbn [filter]. destruct (f a); [|exact IH]. constructor; [exact IH|].
  rewrite Forall_forall in *. intros x I. apply filter_In in I as [I _]. auto.
Qed.
Lemma alphabetical_sort cols : alphabetical cols -> str_sort cols = cols.
Proof.
  induction 1 as [|a l S IH F]; [reflexivity|]. cbn [str_sort]. rewrite IH. destruct l as [|b l]; [reflexivity|]. cbn [str_insert].
  inversion F as [|? ? [L _] _]; subst. now rewrite L.
Qed.

Section Effects.
Variable order : list string -> list string.

Lemma leftover_covered (X : frame R) s effects main : mapM (fit_one order (Some X) s) effects = Ok main ->
  forall c, In c (f_cols X) -> existsb (fun f => str_in c (snd f)) main = false <-> forall l, In l effects -> ~ matched (l_regex l) c.
Proof.
  intros M c Hc. apply mapM_fit in M. clear -M Hc. induction M as [|l f ls fs (N & C & _) F IH]; cbn [existsb].
  - split; [intros _ l []|reflexivity].
  - rewrite orb_false_iff, IH. change (fe_cols f) with (snd f) in C. split.
    + intros [E A] l' [<-|I]; [|auto]. intros Q. assert (In c (snd f)) as Hf by (apply C; auto). apply str_in_iff in Hf. congruence.
    + intros A. split; [|intros l' I; apply A; now right]. destruct (str_in c (snd f)) eqn:E; [|reflexivity]. apply str_in_iff, C in E. elim (A l); [now left|tauto].
Qed.
Lemma mapM_app {A B} (f : A -> res B) l1 l2 : mapM f (l1 ++ l2)%list = (r1 <- mapM f l1 ;; r2 <- mapM f l2 ;; Ok (r1 ++ r2)%list).
Proof.
  induction l1 as [|a l1 IH]; cbn [mapM List.app bind].
  - destruct (mapM f l2); reflexivity.
  - destruct (f a); cbn [bind]; [|reflexivity]. rewrite IH. destruct (mapM f l1); cbn [bind]; [|reflexivity]. destruct (mapM f l2); reflexivity.
Qed.

Theorem default_listed default default' effects (X : frame R) s p : alphabetical (f_cols X) -> remaining p effects (f_cols X) ->
  fit_effects order default' (effects ++ [("exogenous_variables_effect", default_of default, Some p)])%list (Some X) s =
  fit_effects order default effects (Some X) s.
Proof.
  intros AL [RE (c0 & H0 & M0)]. unfold fit_effects. rewrite mapM_app. destruct (mapM (fit_one order (Some X) s) effects) as [main|] eqn:M; [|reflexivity]. cbn [bind].
  pose proof (leftover_covered _ _ _ _ M) as LO.
  assert (CM : exists r, compile p = Some r) by (destruct M0 as (p' & r & s' & [= <-] & C & _); eauto). destruct CM as [r CM].
  assert (FE : filter (fun c => negb (existsb (fun f => str_in c (snd f)) main)) (f_cols X) = filter (re_match r) (f_cols X)).
  { apply filter_ext_in. intros c Hc. apply eq_true_iff_eq. rewrite negb_true_iff, LO, <- RE by exact Hc. rewrite matched_col. unfold col_match. rewrite CM. split; [intros [= E]; exact E|congruence]. }
  assert (U : uncovered (f_cols X) main = filter (re_match r) (f_cols X)).
  { unfold uncovered. rewrite FE, strs_unique_id by (apply alphabetical_nodup, alphabetical_filter, AL). apply alphabetical_sort, alphabetical_filter, AL. }
  rewrite U. cbn [mapM fit_one]. unfold match_columns. rewrite CM. cbn [bind].
  assert (NE : filter (re_match r) (f_cols X) <> []).
  { intros E. assert (I : In c0 (filter (re_match r) (f_cols X))); [|rewrite E in I; destruct I]. apply filter_In. split; [exact H0|]. rewrite matched_col in M0. unfold col_match in M0. rewrite CM in M0. now injection M0. }
  assert (U2 : forall e, uncovered (f_cols X) (main ++ [("exogenous_variables_effect", e, filter (re_match r) (f_cols X))])%list = []).
  { intros e. unfold uncovered. assert (filter (fun c => negb (existsb (fun f => str_in c (snd f)) (main ++ [("exogenous_variables_effect", e, filter (re_match r) (f_cols X))])%list)) (f_cols X) = []) as ->; [|reflexivity].
    apply filter_none. intros c Hc. rewrite existsb_app. cbn [existsb snd]. rewrite orb_false_r, negb_orb. apply andb_false_iff.
    destruct (str_in c (filter (re_match r) (f_cols X))) eqn:EI; [right; reflexivity|left]. apply negb_false_iff. apply str_in_false in EI. rewrite <- FE in EI.
    match goal with |- ?b = true => destruct b eqn:EX; [reflexivity|] end. elim EI. apply filter_In. split; [exact Hc|]. apply negb_true_iff. exact EX. }
  change (match default with None => default_linear | Some e => e end) with (default_of default).
  destruct (filter (re_match r) (f_cols X)) as [|d ds]; [congruence|].
  destruct (select_columns 0%R X (d :: ds)) as [XC|]; [|reflexivity]. cbn [bind].
  destruct (fit order (clone (default_of default)) (Some XC) s) as [e' [ex|]]; [reflexivity|]. cbn [bind]. rewrite U2. reflexivity.
Qed.
End Effects.

Section Any.
Variable ns_of : Z -> Z.
Variable order : list string -> list string.
Variable keep : path -> bool.
Context {TS P : Type}.
Variable tr_fit_transform : TS -> frame R -> TS * res (frame R).
Variable tr_transform : TS -> frame R -> res (frame R).
Variable svi_run : Z -> nat -> nat -> prog arr -> res (list xr * P).
Variable nuts_run : Z -> nat -> nat -> nat -> prog arr -> res (nat -> nat -> env).
Variable latent_sites : prog arr -> list string.
Notation fit_data := (fit_data ns_of order keep tr_fit_transform).
Notation fit_forecaster := (fit_forecaster ns_of order keep tr_fit_transform svi_run nuts_run latent_sites).
Notation predict_model := (predict_model ns_of keep tr_transform).

Lemma fit_data_default c p ob s y X : c_hier c = false -> o_transformer ob = None -> alphabetical (f_cols X) -> remaining p (effects_of c) (f_cols X) ->
  fit_data (listed_default c p) ob s y (Some X) = fit_data c ob s y (Some X).
Proof.
  intros HH NT AL RE. unfold Forecaster.fit_data. change (c_hier (listed_default c p)) with (c_hier c). rewrite HH. unfold univariate_fit_data.
  change (get_trend_model (listed_default c p) ob) with (get_trend_model c ob). change (discrete (listed_default c p)) with (discrete c).
  destruct (get_trend_model c ob) as [t0|]; [|reflexivity]. destruct (if discrete c then divide_target s y else Ok y) as [yt|]; [|reflexivity].
  destruct (trend_fit _ _ t0 (Some X) yt 1) as [t [er|]]; [reflexivity|]. unfold run_fit_transform. cbn [o_transformer]. rewrite NT. cbn [bind]. cbv zeta. f_equal.
  destruct (loc_index X (index_of y)) as [X1|] eqn:LI; [|reflexivity]. cbn [bind]. apply loc_index_inv in LI as (_ & LC & _). rewrite <- LC in AL, RE.
  destruct (trend_transform _ _ _ _) as [td|]; [|reflexivity]. cbn [bind].
  change (effects_of (listed_default c p)) with (effects_of c ++ [("exogenous_variables_effect", default_of (c_default c), Some p)])%list.
  rewrite (default_listed order (c_default c) (c_default (listed_default c p)) (effects_of c) X1 (scale_number s) p AL RE). reflexivity.
Qed.
Theorem c108_fit c p ob y X : c_hier c = false -> o_transformer ob = None -> alphabetical (f_cols X) -> remaining p (effects_of c) (f_cols X) ->
  fit_forecaster (listed_default c p) ob y (Some X) = fit_forecaster c ob y (Some X).
Proof.
  intros HH NT AL RE. unfold Forecaster.fit_forecaster. change (c_scale (listed_default c p)) with (c_scale c). change (discrete (listed_default c p)) with (discrete c). change (engine_of (listed_default c p)) with (engine_of c).
  destruct (_ <- set_y_scales (c_scale c) y ;; _) as [[s ys]|]; [|reflexivity]. now rewrite fit_data_default.
Qed.
Theorem c108_predict c p ob (f : fitted (P := P)) y X fh : predict_model (listed_default c p) ob f y X fh = predict_model c ob f y X fh.
Proof. unfold ForecasterSpec.predict_model. change (c_hier (listed_default c p)) with (c_hier c). destruct (c_hier c); reflexivity. Qed.
End Any.
