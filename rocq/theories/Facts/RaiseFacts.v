(** When the exceptions raised on purpose are raised. *)
From Coq Require Import Reals String Bool ZArith List Lia Lra.
From Verif.Model Require Import Base Num XFloat Regex Frame Arr Expand Aggregate Scale Predict Prog Likelihood Trend Effect
  TrendProg Engine Forecaster Params.
From Verif.Spec Require Import FrameSpec EffectSpec ForecasterSpec RaiseSpec.
From Verif.Facts Require Import BaseFacts NumFacts FrameFacts ExpandFacts EffectFacts ForecasterFacts ForecasterInv ForecasterProps ForecasterTransformer EngineFacts.
Import ListNotations.
Local Open Scope string_scope.

(** * expansion of columns *)
Section Expand.
Variable zero : R.
Variable isna : R -> bool.

Lemma copy_fold Xo ps : forall X : frame R, (forall p, In p ps -> In (pname p) (f_cols X)) ->
  if forallb (fun p => str_in (fst p) (f_cols Xo)) ps
  then exists X', foldM (fun X p => copy_column zero isna Xo X (fst p) (snd p)) X ps = Ok X' /\ f_cols X' = f_cols X
  else foldM (fun X p => copy_column zero isna Xo X (fst p) (snd p)) X ps = Err KeyError.
Proof.
  induction ps as [|p ps IH]; intros X H; cbn [forallb foldM]; [eauto|].
  unfold copy_column at 1 3. destruct (str_in (fst p) (f_cols Xo)) eqn:S0; cbn [andb].
  - apply str_in_iff in S0. destruct (proj2 (col_pos_In _ _) S0) as (i & ->).
    destruct (proj2 (col_pos_In (f_cols X) (get_col_name (fst p) (snd p)))) as (j & ->); [apply (H p); now left|].
    match goal with |- context [bind (Ok ?x) _] => specialize (IH x) end. cbn [f_cols] in IH. cbn [bind].
    apply IH. intros q Hq. apply H. now right.
  - apply str_in_false in S0. destruct (col_pos (f_cols Xo) (fst p)) eqn:E; [exfalso; apply S0, (nth_error_In _ _ (col_pos_nth _ _ _ E))|]. reflexivity.
Qed.

Lemma set_cols_fold ps : forall (X : frame R) c,
  In c (f_cols (fold_left (fun X p => set_col X (pname p) (fun _ => zero)) ps X)) <-> In c (f_cols X) \/ In c (map pname ps).
Proof.
  induction ps as [|p ps IH]; intros X c; cbn [fold_left map]; [simpl; tauto|].
  rewrite IH, set_col_cols. cbn [In]. destruct (str_in (pname p) (f_cols X)) eqn:E.
  - apply str_in_iff in E. split; [tauto|]. intros [?|[<-|?]]; auto.
  - rewrite in_app_iff. simpl. tauto.
Qed.

Lemma series_ids_nil (X : frame R) : series_ids X = [] <-> f_rows X = [].
Proof.
  split.
  - intros H. destruct (f_rows X) as [|r l] eqn:E; [reflexivity|]. exfalso.
    assert (I : In (r_path r) (series_ids X)) by (apply series_ids_In; exists r; rewrite E; split; [now left|reflexivity]). rewrite H in I. contradiction.
  - intros H. unfold series_ids. rewrite H. reflexivity.
Qed.

Lemma expand_result e (X : frame R) : ex_skip e = false -> f_levels X <> 0%nat ->
  if forallb (fun p => str_in (fst p) (f_cols X)) (copy_pairs (ex_matched e) (series_ids X))
  then exists X' e', expand_transform zero isna e X = Ok (X', e') /\
    (forall c, In c (f_cols X') -> In c (f_cols X) \/ exists m i, c = get_col_name m i) /\
    (forall c, In c (f_cols X) -> ~ In c (ex_matched e) -> In c (f_cols X'))
  else expand_transform zero isna e X = Err KeyError.
Proof.
  intros Sk L. unfold expand_transform. rewrite Sk. destruct (f_levels X) as [|k] eqn:EL; [congruence|]. clear L.
  rewrite copy_columns_pairs, add_zero_pairs. set (X1 := fold_left _ _ _).
  assert (C1 : forall c, In c (f_cols X1) <-> In c (f_cols X) \/ In c (map pname (zero_pairs (ex_matched e) (series_ids X)))) by (intros c; apply set_cols_fold).
  pose proof (copy_fold X (copy_pairs (ex_matched e) (series_ids X)) X1) as F. destruct (forallb _ _).
  - destruct F as (X' & -> & EC).
    { intros p Hp. apply C1. right. apply in_map. apply zero_pairs_In. now apply copy_pairs_In in Hp. }
    cbn [bind]. eexists _, _. split; [reflexivity|]. unfold drop_columns. cbn [f_cols]. rewrite combine_map_filter, EC. split.
    + intros c Hc. apply filter_In in Hc. destruct Hc as [Hc _]. apply C1 in Hc. destruct Hc as [Hc|Hc]; [auto|]. right.
      apply in_map_iff in Hc. destruct Hc as ([m i] & <- & _). exists m, i. reflexivity.
    + intros c Hc Hm. apply filter_In. split; [apply C1; auto|]. apply str_in_false in Hm. now rewrite Hm.
  - rewrite F; [reflexivity|]. intros p Hp. apply C1. right. apply in_map. apply zero_pairs_In. now apply copy_pairs_In in Hp.
Qed.

Lemma raise_expand e (X : frame R) x : expand_transform zero isna e X = Err x <->
  ex_skip e = false /\
  ((f_levels X = 0%nat /\ x = ValueError) \/
   (f_levels X <> 0%nat /\ x = KeyError /\ f_rows X <> [] /\ exists c, In c (ex_matched e) /\ ~ In c (f_cols X))).
Proof.
  destruct (ex_skip e) eqn:Sk.
  { unfold expand_transform. rewrite Sk. split; [discriminate|]. intros [? _]. discriminate. }
  destruct (Nat.eq_dec (f_levels X) 0) as [L|L].
  { unfold expand_transform. rewrite Sk, L. split; [intros [= <-]; auto|]. intros (_ & [(_ & ->)|(? & _)]); [reflexivity|congruence]. }
  pose proof (expand_result e X Sk L) as E. destruct (forallb _ _) eqn:B.
  - destruct E as (X' & e' & -> & _). split; [discriminate|]. intros (_ & [(? & _)|(_ & _ & NR & c & H1 & H2)]); [congruence|]. exfalso.
    destruct (series_ids X) as [|i l] eqn:EI; [apply series_ids_nil in EI; congruence|].
    rewrite forallb_forall in B. apply H2. apply str_in_iff. apply (B (c, i)). apply copy_pairs_In. split; [exact H1|now left].
  - rewrite E. split.
    + intros [= <-]. split; [reflexivity|]. right. split; [exact L|]. split; [reflexivity|].
      assert (exists p, In p (copy_pairs (ex_matched e) (series_ids X)) /\ str_in (fst p) (f_cols X) = false) as (p & Hp & Sp).
      { clear -B. induction (copy_pairs _ _) as [|p l IH]; [discriminate|]. cbn [forallb] in B. destruct (str_in (fst p) (f_cols X)) eqn:Sp.
        - destruct IH as (q & ? & ?); [exact B|]. exists q. split; [now right|assumption].
        - exists p. split; [now left|assumption]. }
      apply copy_pairs_In in Hp. destruct Hp as [H1 H2]. apply str_in_false in Sp. split.
      * intros N. apply series_ids_nil in N. rewrite N in H2. contradiction.
      * exists (fst p). auto.
    + intros (_ & [(? & _)|(_ & -> & _)]); [congruence|reflexivity].
Qed.
End Expand.

(** * single functions *)
Lemma raise_lift inner table s e : mk_lift inner table s = Err e <-> e = AssertionError /\ (s <= 0)%R.
Proof.
  unfold mk_lift. destruct (Rltb 0 s) eqn:E.
  - apply Rltb_true in E. split; [discriminate|]. intros [_ ?]. lra.
  - apply Rltb_false in E. split; [intros [= <-]; auto|]. intros [-> _]. reflexivity.
Qed.

Lemma raise_select (X : frame R) cols e : select_columns 0%R X cols = Err e <-> e = KeyError /\ exists c, In c cols /\ ~ In c (f_cols X).
Proof.
  split.
  - intros H. split; [now apply select_columns_err in H|].
    destruct (forallb (fun c => str_in c (f_cols X)) cols) eqn:B.
    + exfalso. destruct (proj2 (select_columns_iff 0%R X cols)) as (X' & E); [|congruence].
      intros c Hc. apply str_in_iff. rewrite forallb_forall in B. auto.
    + clear H. induction cols as [|c cols IH]; [discriminate|]. cbn [forallb] in B. destruct (str_in c (f_cols X)) eqn:E.
      * destruct IH as (d & ? & ?); [exact B|]. exists d. split; [now right|assumption].
      * exists c. split; [now left|]. now apply str_in_false.
  - intros [-> (c & H1 & H2)]. destruct (select_columns 0%R X cols) as [X'|e] eqn:E.
    + exfalso. apply H2. exact (proj1 (select_columns_iff _ _ _) (ex_intro _ _ E) c H1).
    + apply select_columns_err in E. now subst.
Qed.

Lemma raise_bottom (f : frame R) e : get_bottom_series_idx f = Err e <-> e = ValueError /\ f_levels f = 0%nat.
Proof.
  unfold get_bottom_series_idx. destruct (f_levels f) as [|[|k]]; split; try discriminate; try (intros [_ ?]; discriminate).
  - intros [= <-]. auto.
  - intros [-> _]. reflexivity.
Qed.

Lemma raise_quantiles alpha s e : predict_quantiles alpha s = Err e <-> e = ValueError /\ exists a, In a alpha /\ ~ (0 <= a <= 1)%R.
Proof.
  unfold predict_quantiles. destruct (forallb _ alpha) eqn:B.
  - split; [discriminate|]. intros (_ & a & H1 & H2). exfalso. apply H2. rewrite forallb_forall in B. specialize (B a H1).
    apply andb_true_iff in B. destruct B as [B1 B2]. apply Rleb_true in B1, B2. lra.
  - split; [|intros [-> _]; reflexivity]. intros [= <-]. split; [reflexivity|].
    induction alpha as [|a alpha IH]; [discriminate|]. cbn [forallb] in B. destruct (Rleb 0 a && Rleb a 1) eqn:E.
    + destruct IH as (b & ? & ?); [exact B|]. exists b. split; [now right|assumption].
    + exists a. split; [now left|]. intros [H1 H2]. apply Rleb_true in H1, H2. rewrite H1, H2 in E. discriminate.
Qed.

Lemma raise_named_trend c s e : named_trend c s = Err e <-> e = ValueError /\ ~ known_trend s.
Proof.
  unfold named_trend, known_trend.
  destruct (String.eqb_spec s "linear") as [->|N1]; [split; [discriminate|tauto]|].
  destruct (String.eqb_spec s "linear_raw") as [->|N2]; [split; [discriminate|tauto]|].
  destruct (String.eqb_spec s "logistic") as [->|N3]; [split; [discriminate|tauto]|].
  destruct (String.eqb_spec s "flat") as [->|N4]; [split; [discriminate|tauto]|].
  split; [intros [= <-]; tauto|]. intros [-> _]. reflexivity.
Qed.

Lemma rebind_all {E} (value : list (item E)) : forall l e, mapM (fun vo => rebind (fst vo) (snd vo)) (combine value l) = Err e <->
  e = ValueError /\ exists i v o, nth_error value i = Some v /\ nth_error l i = Some o /\ forall n x, v <> Pair n x.
Proof.
  induction value as [|v value IH]; intros [|o l] e; cbn [combine mapM].
  1,2,3: split; [discriminate|]; intros (_ & [|i] & w & o' & H1 & H2 & _); discriminate.
  cbn [fst snd]. destruct v as [n x|n x r|k]; cbn [rebind bind].
  - assert (R : bind (mapM (fun vo => rebind (fst vo) (snd vo)) (combine value l)) (fun bs => Ok ((n, x, snd o) :: bs)) = Err e <->
                mapM (fun vo => rebind (fst vo) (snd vo)) (combine value l) = Err e).
    { destruct (mapM _ _); cbn [bind]; split; congruence. }
    rewrite R, IH. split; intros (-> & i & v & o' & H1 & H2 & H3); (split; [reflexivity|]).
    + exists (S i), v, o'. auto.
    + destruct i as [|i]; [injection H1 as <-; exfalso; eapply H3; reflexivity|]. exists i, v, o'. auto.
  - split; [|intros [-> _]; reflexivity]. intros [= <-]. split; [reflexivity|]. exists 0%nat, (Triple n x r), o. repeat split. discriminate.
  - split; [|intros [-> _]; reflexivity]. intros [= <-]. split; [reflexivity|]. exists 0%nat, (Tuple k), o. repeat split. discriminate.
Qed.

Lemma forallb_not {A} (p : A -> bool) l : forallb p l = false <-> exists x, In x l /\ p x = false.
Proof.
  induction l as [|a l IH]; cbn [forallb In]; [split; [discriminate|]; intros (x & [] & _)|]. destruct (p a) eqn:E; cbn [andb].
  - rewrite IH. split; intros (x & H1 & H2); exists x; [tauto|]. destruct H1 as [->|H1]; [congruence|auto].
  - split; [intros _; exists a; auto|reflexivity].
Qed.

Lemma raise_set_effects {E} (v0 : item E) tl l e : set_effects (v0 :: tl) l = Err e <->
  (e = AssertionError /\ ((item_len v0 <> 2 /\ item_len v0 <> 3) \/ exists v, In v tl /\ item_len v <> item_len v0)) \/
  ((item_len v0 = 2 \/ item_len v0 = 3) /\ (forall v, In v tl -> item_len v = item_len v0) /\
    ((l = None /\ e = TypeError) \/
     (e = ValueError /\ exists l', l = Some l' /\
        exists i v o, nth_error (v0 :: tl) i = Some v /\ nth_error l' i = Some o /\ forall n x, v <> Pair n x))).
Proof.
  unfold set_effects. destruct (Nat.eqb (item_len v0) 2 || Nat.eqb (item_len v0) 3) eqn:E0; cbn [negb].
  - assert (L : item_len v0 = 2 \/ item_len v0 = 3) by (apply orb_true_iff in E0; rewrite !Nat.eqb_eq in E0; exact E0). clear E0.
    destruct (forallb _ (v0 :: tl)) eqn:B; cbn [negb].
    + rewrite forallb_forall in B. assert (A : forall v, In v tl -> item_len v = item_len v0) by (intros v Hv; apply Nat.eqb_eq, B; now right).
      assert (N : (item_len v0 <> 2 /\ item_len v0 <> 3 \/ exists v, In v tl /\ item_len v <> item_len v0) -> False).
      { intros [[? ?]|(v & H1 & H2)]; [lia|]. apply H2, A, H1. }
      destruct l as [l|].
      * rewrite (rebind_all (v0 :: tl) l e). split.
        -- intros [-> H]. right. split; [exact L|]. split; [exact A|]. right. split; [reflexivity|]. exists l. auto.
        -- intros [[_ H]|(_ & _ & [[? _]|(-> & l' & [= <-] & H)])]; [contradiction|discriminate|auto].
      * split; [intros [= <-]; right; auto|]. intros [[_ H]|(_ & _ & [[_ ->]|(_ & l' & ? & _)])]; [contradiction|reflexivity|discriminate].
    + apply forallb_not in B. destruct B as (v & Hv & Nv). apply Nat.eqb_neq in Nv. destruct Hv as [->|Hv]; [congruence|].
      split; [intros [= <-]; left; split; [reflexivity|]; right; eauto|].
      intros [[-> _]|(_ & A & _)]; [reflexivity|]. exfalso. apply Nv, A, Hv.
  - apply orb_false_iff in E0. rewrite !Nat.eqb_neq in E0.
    split; [intros [= <-]; left; auto|]. intros [[-> _]|(L & _)]; [reflexivity|]. lia.
Qed.

(** * arrays *)
Lemma raise_reshape sh a e : reshape sh a = Err e <-> e = TypeError /\ List.length (a_flat a) <> prod_shape sh.
Proof.
  unfold reshape. destruct (Nat.eqb_spec (List.length (a_flat a)) (prod_shape sh)); split; try discriminate; try tauto.
  - intros [= <-]. auto.
  - intros [-> _]. reflexivity.
Qed.
Lemma raise_shape_at a k e : shape_at a k = Err e <-> e = IndexError /\ (ndim a <= k)%nat.
Proof.
  unfold shape_at, ndim. destruct (nth_error (a_shape a) k) as [n|] eqn:E.
  - split; [discriminate|]. intros [_ H]. apply nth_error_None in H. congruence.
  - apply nth_error_None in E. split; [intros [= <-]; auto|]. intros [-> _]. reflexivity.
Qed.
Lemma raise_squeeze_last a e : squeeze_last a = Err e <-> e = ValueError /\ forall sh, a_shape a <> (sh ++ [1%nat])%list.
Proof.
  unfold squeeze_last. destruct (rev (a_shape a)) as [|k tl] eqn:E.
  - split; [|intros [-> _]; reflexivity]. intros [= <-]. split; [reflexivity|]. intros sh H. rewrite H, rev_app_distr in E. discriminate.
  - destruct k as [|[|k]].
    + split; [|intros [-> _]; reflexivity]. intros [= <-]. split; [reflexivity|]. intros sh H. rewrite H, rev_app_distr in E. discriminate.
    + split; [discriminate|]. intros [_ H]. exfalso. apply (H (rev tl)). rewrite <- (rev_involutive (a_shape a)), E. reflexivity.
    + split; [|intros [-> _]; reflexivity]. intros [= <-]. split; [reflexivity|]. intros sh H. rewrite H, rev_app_distr in E. discriminate.
Qed.
Lemma raise_rows_of_width n a e : rows_of_width n a = Err e <-> e = TypeError /\ (n = 0%nat \/ forall k, List.length (a_flat a) <> (k * n)%nat).
Proof.
  unfold rows_of_width. destruct n as [|n]; [split; [intros [= <-]; auto|intros [-> _]; reflexivity]|].
  destruct (Nat.eqb_spec (Nat.modulo (List.length (a_flat a)) (S n)) 0) as [M|M].
  - split; [discriminate|]. intros (_ & [?|H]); [discriminate|]. exfalso. apply Nat.mod_divides in M; [|discriminate].
    destruct M as (k & M). apply (H k). lia.
  - split; [|intros [-> _]; reflexivity]. intros [= <-]. split; [reflexivity|]. right. intros k H. apply M. rewrite H. apply Nat.mod_mul. discriminate.
Qed.

(** * forecasters *)
Section Trend.
Variable ns_of : Z -> Z.
Lemma raise_unfitted t (X : frame R) fh : ~ is_effect t -> match t with TPiecewise _ _ b _ | TFlat _ b _ => b_fitted b = Some false | TEffect _ => True end ->
  trend_transform ns_of t X fh = Err ValueError.
Proof.
  intros N H. destruct t as [p c b f|s b loc|e]; [| |exfalso; apply N; eexists; reflexivity]; cbn [trend_transform]; unfold trend_rows; rewrite H; reflexivity.
Qed.
End Trend.

Section Forecaster.
Variable ns_of : Z -> Z.
Variable order : list string -> list string.
Variable keep : path -> bool.
Context {TS : Type}.
Variable tr_fit_transform : TS -> frame R -> TS * res (frame R).
Variable tr_transform : TS -> frame R -> res (frame R).
Context {P : Type}.
Variable svi_run : Z -> nat -> nat -> prog arr -> res (list xr * P).
Variable nuts_run : Z -> nat -> nat -> nat -> prog arr -> res (nat -> nat -> env).
Variable latent_sites : prog arr -> list string.
Variable guide_draw : P -> Z -> nat -> prog arr -> env.
Variable complete_draw : env -> Z -> nat -> prog arr -> env.
Notation fit_forecaster := (fit_forecaster ns_of order keep tr_fit_transform svi_run nuts_run latent_sites).
Notation predictive_samples_dict := (predictive_samples_dict ns_of keep tr_transform guide_draw complete_draw).
Notation every_forecast_raises := (every_forecast_raises ns_of keep tr_transform guide_draw complete_draw).

Lemma raises_all c ob f y X fh e : f_rows y <> [] -> snd (predictive_samples_dict c ob f y X fh) = Err e -> every_forecast_raises c ob f y X fh e.
Proof.
  intros NY H. unfold RaiseSpec.every_forecast_raises, forecast_all_sites_samples, forecast_all_sites, forecast_quantiles, forecast_point, forecast_samples.
  assert (exists times, fh_to_index y fh = Ok times) as (times & ->).
  { unfold fh_to_index. destruct (f_rows y); [congruence|]. eexists. reflexivity. }
  destruct (predictive_samples_dict c ob f y X fh) as [f' d]. cbn [snd] in H. subst d. repeat split.
Qed.

Lemma fit_inv c ob y X ob' f : fit_forecaster c ob y X = (ob', Ok f) ->
  exists s ys m, set_y_scales (c_scale c) y = Ok s /\ scale_y (discrete c) s y = Ok ys /\
    fit_data ns_of order keep tr_fit_transform c ob s ys X = (ob', Ok (ft_prepared f, m)) /\
    infer svi_run nuts_run latent_sites (engine_of c) m = Ok (ft_posterior f) /\ ft_scale f = s.
Proof.
  unfold Forecaster.fit_forecaster. intros H. destruct (set_y_scales (c_scale c) y) as [s|] eqn:E1; [|discriminate]. cbn [bind] in H.
  destruct (scale_y (discrete c) s y) as [ys|] eqn:E2; [|discriminate]. cbn [bind] in H.
  destruct (fit_data _ _ _ _ c ob s ys X) as [ob1 [[p m]|]] eqn:E3; [|discriminate]. cbn [bind] in H.
  destruct (infer _ _ _ _ m) as [post|] eqn:E4; [|discriminate]. injection H as <- <-. exists s, ys, m. auto.
Qed.

Lemma raise_trend_fit c ob y X s : c_trend c = TrendName s -> ~ known_trend s -> forall f, snd (fit_forecaster c ob y X) <> Ok f.
Proof.
  intros T N f H. destruct (fit_forecaster c ob y X) as [ob' r] eqn:F. cbn [snd] in H. subst r.
  destruct (fit_inv _ _ _ _ _ _ F) as (s' & ys & m & _ & _ & FD & _).
  assert (exists (ob2 : objects (TS := TS)) t, get_trend_model c ob2 = Ok t) as (ob2 & t & G).
  { unfold fit_data in FD. destruct (c_hier c).
    - apply hierarchical_fit_inv in FD. destruct FD as (yb & tensor & X0 & X1 & X2 & ob1 & t0 & t & td & data & FD).
      exists ob1, t0. apply FD.
    - apply univariate_fit_inv in FD. destruct FD as (t0 & t & yt & X1 & Xe & td & data & FD). exists ob, t0. apply FD. }
  unfold get_trend_model in G. rewrite T in G. rewrite (proj2 (raise_named_trend c s ValueError)) in G; [discriminate|auto].
Qed.

Lemma raise_method_fit c ob y X : c_method c <> "map" -> c_method c <> "mcmc" -> forall f, snd (fit_forecaster c ob y X) <> Ok f.
Proof.
  intros N1 N2 f H. destruct (fit_forecaster c ob y X) as [ob' r] eqn:F. cbn [snd] in H. subst r.
  destruct (fit_inv _ _ _ _ _ _ F) as (s' & ys & m & _ & _ & _ & I & _).
  unfold infer, engine_of in I. cbn [en_method] in I. apply String.eqb_neq in N1, N2. rewrite N1, N2 in I. discriminate.
Qed.

(** rows asked for that are not there *)
Lemma raise_loc (X : frame R) index e : loc_index X index = Err e <->
  e = KeyError /\ exists pt, In pt index /\ ~ In pt (index_of X).
Proof.
  assert (G : forall pt, In pt (index_of X) <-> filter (fun r => path_eqb (r_path r) (fst pt) && Z.eqb (r_time r) (snd pt)) (f_rows X) <> []).
  { intros [p t]. unfold index_of. rewrite in_map_iff. split.
    - intros (r & [= <- <-] & Hr) N. assert (I : In r (filter (fun r0 => path_eqb (r_path r0) (fst (r_path r, r_time r)) && Z.eqb (r_time r0) (snd (r_path r, r_time r))) (f_rows X))).
      { apply filter_In. split; [exact Hr|]. cbn [fst snd]. rewrite (proj2 (path_eqb_eq _ _) eq_refl), Z.eqb_refl. reflexivity. }
      rewrite N in I. exact I.
    - intros N. destruct (filter _ (f_rows X)) as [|r rs] eqn:E; [congruence|]. exists r.
      assert (I : In r (r :: rs)) by now left. rewrite <- E in I. apply filter_In in I. destruct I as [I Q]. cbn [fst snd] in Q.
      apply andb_true_iff in Q. destruct Q as [Q1 Q2]. apply path_eqb_eq in Q1. apply Z.eqb_eq in Q2. split; [now rewrite Q1, Q2|exact I]. }
  unfold loc_index. split.
  - intros H. match type of H with bind ?m _ = _ => destruct m as [rows|e'] eqn:M end; [discriminate H|]. injection H as <-. apply mapM_err in M. destruct M as (pt & I & M).
    destruct (filter _ (f_rows X)) as [|r rs] eqn:E; [|discriminate M]. injection M as <-. split; [reflexivity|]. exists pt. split; [exact I|]. intros J. apply G in J. contradiction.
  - intros (-> & pt & I & N). match goal with |- bind ?m _ = _ => destruct m as [rows|e'] eqn:M end.
    + exfalso. apply BaseFacts.mapM_ok in M. apply Forall2_In_both in M. destruct M as [M _]. destruct (M pt I) as (rs & _ & E).
      apply N, G. destruct (filter _ (f_rows X)); [discriminate E|discriminate].
    + apply mapM_err in M. destruct M as (q & _ & M). destruct (filter _ (f_rows X)); [|discriminate M]. injection M as <-. reflexivity.
Qed.

(** Prophetverse: X must have every date of the target *)
Lemma raise_training_dates c ob y X pt : c_hier c = false -> o_transformer ob = None -> In pt (index_of y) -> ~ In pt (index_of X) ->
  forall f, snd (fit_forecaster c ob y (Some X)) <> Ok f.
Proof.
  intros Hc TR I N f F. destruct (fit_forecaster c ob y (Some X)) as [ob' r] eqn:E. cbn [snd] in F. subst r.
  destruct (fit_inv _ _ _ _ _ _ E) as (s & ys & m & _ & SY & FD & _). unfold fit_data in FD. rewrite Hc in FD. apply univariate_fit_inv in FD.
  destruct FD as (t0 & t & yt & X1 & Xe & td & data & _ & _ & _ & Q & L & _).
  apply run_fit_transform_inv in Q. destruct Q as [_ Q]. cbn [o_transformer] in Q. rewrite TR in Q. destruct Q as [_ ->].
  apply scale_y_index in SY. destruct SY as [SY _]. rewrite SY in L.
  assert (K : loc_index X (index_of y) = Err KeyError) by (apply raise_loc; split; [reflexivity|exists pt; split; assumption]).
  rewrite K in L. discriminate L.
Qed.

(** X must have the columns it had at fitting, used by an effect or not *)
Lemma raise_columns c ob y X ob' f col y2 X2 fh : c_hier c = false -> o_transformer ob = None ->
  (forall e, get_trend_model c ob <> Ok (TEffect e)) -> fit_forecaster c ob y (Some X) = (ob', Ok f) ->
  f_rows X <> [] -> In col (f_cols X) -> without X2 col -> f_rows y2 <> [] ->
  every_forecast_raises c ob' f y2 X2 fh KeyError.
Proof.
  intros Hc TR NE F NX IC W NY. apply raises_all; [exact NY|].
  destruct (fit_inv _ _ _ _ _ _ F) as (s & ys & m & _ & _ & FD & _). unfold fit_data in FD. rewrite Hc in FD. apply univariate_fit_inv in FD.
  destruct FD as (t0 & t & yt & X1 & Xe & td & data & G & _ & TF & Q & _ & OT & _).
  apply run_fit_transform_inv in Q. destruct Q as [_ Q]. cbn [o_transformer] in Q. rewrite TR in Q. destruct Q as [-> ->].
  unfold Forecaster.predictive_samples_dict. rewrite Hc. cbn [snd]. unfold univariate_predict_model.
  assert (exists cut, max_time (map r_time (f_rows y2)) = Ok cut) as (cut & ->).
  { destruct (f_rows y2); [congruence|]. eexists. reflexivity. }
  cbn [bind]. unfold run_transform. cbn [o_transformer o_trend bind].
  set (Xe2 := match X2 with None => _ | Some x => x end).
  assert (N : ~ is_effect t0) by (intros (e & ->); exact (NE e G)).
  pose proof (trend_columns _ _ _ _ _ _ _ Xe2 (to_absolute cut fh) TF N) as C.
  destruct (forallb _ _) eqn:B; [|rewrite C; reflexivity]. exfalso.
  rewrite forallb_forall in B. assert (IS : In col (columns_seen (Some X))).
  { unfold columns_seen, frame_empty. destruct (f_cols X); [contradiction|]. destruct (f_rows X); [congruence|]. exact IC. }
  specialize (B col IS). apply str_in_iff in B. subst Xe2. destruct X2 as [x|]; [exact (W x eq_refl B)|]. contradiction.
Qed.

(** HierarchicalProphet: X must cover the horizon *)
Lemma raise_horizon c ob f y X fh cutoff t : c_hier c = true -> p_has_exogenous (ft_prepared f) = true ->
  f_rows y <> [] -> f_cols X <> [] -> (forall e, loc_bottom_series X <> Err e) ->
  max_time (map snd (p_index (ft_prepared f))) = Ok cutoff -> In t (to_absolute cutoff fh) -> (forall r, In r (f_rows X) -> r_time r <> t) ->
  every_forecast_raises c ob f y (Some X) fh AssertionError.
Proof.
  intros Hc HE NY NC LB CU IT NT. apply raises_all; [exact NY|]. unfold Forecaster.predictive_samples_dict. rewrite Hc.
  unfold hierarchical_predict_model. rewrite CU. cbn [bind].
  assert (NCX : no_columns X = false) by (unfold no_columns; destruct (f_cols X); [congruence|reflexivity]). rewrite NCX.
  destruct (loc_bottom_series X) as [Xb|e] eqn:B; [|exfalso; exact (LB e eq_refl)]. cbn [bind]. rewrite HE.
  replace (forallb _ (to_absolute cutoff fh)) with false; [reflexivity|]. symmetry. apply forallb_not. exists t. split; [exact IT|].
  apply not_true_iff_false. intros EX. apply existsb_exists in EX. destruct EX as (u & Hu & Eu). apply Z.eqb_eq in Eu. subst u.
  apply in_map_iff in Hu. destruct Hu as (r & Er & Hr). apply (NT r); [|exact Er].
  unfold loc_bottom_series in B. destruct (f_levels X); [injection B as <-; exact Hr|].
  destruct (get_bottom_series_idx X) as [idx|]; [|discriminate]. cbn [bind] in B. unfold get_multiindex_loc in B. destruct idx; [discriminate|].
  injection B as <-. apply filter_In in Hr. apply Hr.
Qed.

(** and have the columns it had at fitting *)
Lemma raise_columns_hierarchical c ob y X ob' f col y2 X2 fh : c_hier c = true -> o_transformer ob = None ->
  (forall e, get_trend_model c ob <> Ok (TEffect e)) -> fit_forecaster c ob y (Some X) = (ob', Ok f) ->
  f_rows X <> [] -> In col (f_cols X) -> without X2 col -> (forall m i, col <> get_col_name m i) ->
  (forall cutoff, to_absolute cutoff fh <> []) -> f_rows y2 <> [] ->
  exists e, every_forecast_raises c ob' f y2 X2 fh e.
Proof.
  intros Hc TR NE F NX IC W NN NF NY.
  cut (exists e, snd (predictive_samples_dict c ob' f y2 X2 fh) = Err e).
  { intros (e & E). exists e. now apply raises_all. }
  destruct (fit_inv _ _ _ _ _ _ F) as (s & ys & m & _ & _ & FD & _). unfold fit_data in FD. rewrite Hc in FD. apply hierarchical_fit_inv in FD.
  destruct FD as (yb & tensor & X0 & X1 & Xf & ob1 & t0 & t & td & data & _ & _ & B0 & Q & HE & EXP & G & TF & -> & _).
  assert (NC : no_columns X = false) by (unfold no_columns; destruct (f_cols X); [contradiction|reflexivity]). rewrite NC in B0.
  apply run_fit_transform_inv in Q. destruct Q as [_ Q]. rewrite TR in Q. destruct Q as [-> ->].
  assert (C0 : f_cols X0 = f_cols X).
  { unfold loc_bottom_series in B0. destruct (f_levels X); [injection B0 as <-; reflexivity|].
    destruct (get_bottom_series_idx X) as [idx|]; [|discriminate]. cbn [bind] in B0. unfold get_multiindex_loc in B0. destruct idx; [discriminate|]. injection B0 as <-. reflexivity. }
  pose proof (loc_bottom_rows _ _ NX B0) as N0.
  assert (HE' : p_has_exogenous (ft_prepared f) = true). { rewrite HE. unfold no_columns. rewrite C0. destruct (f_cols X); [contradiction|reflexivity]. }
  rewrite HE' in EXP. destruct EXP as (ex & EXP & EP).
  assert (N : ~ is_effect t0) by (intros (e & ->); exact (NE e G)).
  unfold Forecaster.predictive_samples_dict. rewrite Hc.
  destruct (hierarchical_predict_model _ _ _ _ _ _ _ _ _) as [[m2 ex2]|e] eqn:HM; [exfalso|eexists; reflexivity].
  unfold hierarchical_predict_model in HM. inv_bind HM. rename x into cutoff. inv_bind HM. rename x into Xb. rewrite HE', EP in HM. cbn [attr bind] in HM.
  destruct (forallb _ _) eqn:FB in HM; [|discriminate]. unfold run_transform in HM. cbn [o_transformer] in HM. rewrite TR in HM. cbn [bind] in HM.
  destruct (expand_transform 0%R (fun _ => false) ex Xb) as [[Xc ex3]|] eqn:ET; [|discriminate]. cbn [bind] in HM.
  inv_bind HM. clear HM.
  assert (NB : ~ In col (f_cols Xb)).
  { assert (CB : forall Z0 : frame R, loc_bottom_series Z0 = Ok Xb -> f_cols Xb = f_cols Z0).
    { intros Z0 BZ. unfold loc_bottom_series in BZ. destruct (f_levels Z0); [injection BZ as <-; reflexivity|].
      destruct (get_bottom_series_idx Z0) as [idx|]; [|discriminate]. cbn [bind] in BZ. unfold get_multiindex_loc in BZ. destruct idx; [discriminate|]. injection BZ as <-. reflexivity. }
    apply CB in E0. rewrite E0. destruct X2 as [x2|]; [|rewrite aggregate_cols; intros []]. destruct (no_columns x2); [rewrite aggregate_cols; intros []|]. exact (W x2 eq_refl). }
  assert (RB : f_rows Xb <> []).
  { specialize (NF cutoff). destruct (to_absolute cutoff fh) as [|u l]; [congruence|]. cbn [forallb] in FB. apply andb_true_iff in FB. destruct FB as [FB _].
    intros R. rewrite R in FB. discriminate. }
  assert (KEEP : In col (f_cols Xf) /\ f_rows Xf <> [] -> ~ In col (f_cols Xc) -> False).
  { intros [I1 I2] I3. pose proof (trend_columns _ _ _ _ _ _ _ Xc (to_absolute cutoff fh) TF N) as C.
    cbn [o_trend] in E1. destruct (forallb _ (columns_seen _)) eqn:B; [|congruence]. rewrite forallb_forall in B.
    apply I3. apply str_in_iff. apply B. unfold columns_seen, frame_empty. destruct (f_cols Xf); [contradiction|]. destruct (f_rows Xf); [congruence|]. exact I1. }
  unfold expand_bottom in EXP. inv_bind EXP. rename x0 into e0.
  destruct (ex_skip e0) eqn:Sk.
  - unfold expand_transform in EXP at 1. rewrite Sk in EXP. injection EXP as <- <-.
    unfold expand_transform in ET. rewrite Sk in ET. injection ET as <- <-. apply KEEP; [|exact NB]. rewrite C0. auto.
  - assert (L0 : f_levels X0 <> 0%nat). { intros L. unfold expand_transform in EXP. rewrite Sk, L in EXP. discriminate. }
    assert (EX0 : ex_skip ex = false /\ ex_matched ex = ex_matched e0).
    { unfold expand_transform in EXP. rewrite Sk in EXP. destruct (f_levels X0); [discriminate|]. inv_bind EXP. injection EXP as _ <-. auto. }
    destruct EX0 as [Sk2 EM].
    assert (LB : f_levels Xb <> 0%nat). { intros L. unfold expand_transform in ET. rewrite Sk2, L in ET. discriminate. }
    pose proof (expand_result 0%R (fun _ => false) e0 X0 Sk L0) as R1. pose proof (expand_result 0%R (fun _ => false) ex Xb Sk2 LB) as R2.
    destruct (forallb _ (copy_pairs (ex_matched e0) _)); [|congruence]. destruct R1 as (Z1 & z1 & R1 & R1a & R1b). rewrite EXP in R1. injection R1 as <- <-.
    destruct (forallb _ (copy_pairs (ex_matched ex) _)) eqn:BC; [|congruence]. destruct R2 as (Z2 & z2 & R2 & R2a & R2b). rewrite ET in R2. injection R2 as <- <-.
    destruct (in_dec string_dec col (ex_matched e0)) as [IM|NM].
    + rewrite forallb_forall in BC. destruct (series_ids Xb) as [|i l] eqn:EI; [apply series_ids_nil in EI; congruence|].
      apply NB. apply str_in_iff. apply (BC (col, i)). apply copy_pairs_In. rewrite EM. split; [exact IM|now left].
    + apply KEEP.
      * split; [apply R1b; [rewrite C0; exact IC|exact NM]|].
        intros R. apply expand_transform_labels in EXP. destruct EXP as [EXP _]. apply N0. unfold labels in EXP. rewrite R in EXP. now destruct (f_rows X0).
      * intros I. destruct (R2a _ I) as [?|(mm & i & ->)]; [contradiction|]. exact (NN mm i eq_refl).
Qed.
End Forecaster.

Lemma raise_tensor (f : frame R) e : series_to_tensor f = Err e <->
  e = ValueError /\ f_levels f <> 0%nat /\ exists p q, In p (series_ids f) /\ In q (series_ids f) /\ List.length (rows_of f p) <> List.length (rows_of f q).
Proof.
  destruct (Nat.eq_dec (f_levels f) 0) as [L|L].
  { unfold series_to_tensor. rewrite L. split; [discriminate|]. intros (_ & ? & _). congruence. }
  split.
  - intros H. destruct (series_ids f) as [|p0 ids] eqn:EI.
    { exfalso. rewrite (series_to_tensor_ok f 0) in H; [discriminate|exact L|]. rewrite EI. intros p []. }
    destruct (forallb (fun p => Nat.eqb (List.length (rows_of f p)) (List.length (rows_of f p0))) (series_ids f)) eqn:B.
    + exfalso. rewrite (series_to_tensor_ok f (List.length (rows_of f p0))) in H; [discriminate|exact L|]. rewrite forallb_forall in B. intros p Hp. apply Nat.eqb_eq. auto.
    + apply forallb_not in B. destruct B as (p & Hp & B). apply Nat.eqb_neq in B.
      assert (H0 : In p0 (series_ids f)) by (rewrite EI; now left).
      rewrite (series_to_tensor_bad f p p0 L Hp H0 B) in H. injection H as <-. split; [reflexivity|]. split; [exact L|]. exists p, p0. rewrite <- EI. auto.
  - intros (-> & _ & p & q & H1 & H2 & H3). exact (series_to_tensor_bad f p q L H1 H2 H3).
Qed.

Lemma raise_loc_bottom (f : frame R) e : loc_bottom_series f = Err e <->
  e = IndexError /\ f_levels f <> 0%nat /\ forall p, In p (series_ids f) -> if Nat.eqb (f_levels f) 1 then p = [total_name] else last p "" = total_name.
Proof.
  unfold loc_bottom_series, get_bottom_series_idx. destruct (f_levels f) as [|[|k]]; [split; [discriminate|]; intros (_ & ? & _); congruence| |]; cbn [bind Nat.eqb].
  - unfold get_multiindex_loc. destruct (filter _ _) as [|p l] eqn:E.
    + split; [|intros [-> _]; reflexivity]. intros [= <-]. split; [reflexivity|]. split; [discriminate|]. intros p Hp.
      destruct (path_eqb p [total_name]) eqn:Q; [now apply path_eqb_eq|]. exfalso.
      apply (in_nil (a := p)). rewrite <- E at 1. apply filter_In. rewrite Q. auto.
    + split; [discriminate|]. intros (_ & _ & H). exfalso. assert (I : In p (p :: l)) by now left. rewrite <- E in I. apply filter_In in I. destruct I as [I Q].
      rewrite (H p I) in Q. discriminate.
  - unfold get_multiindex_loc. destruct (filter _ _) as [|p l] eqn:E.
    + split; [|intros [-> _]; reflexivity]. intros [= <-]. split; [reflexivity|]. split; [discriminate|]. intros p Hp.
      destruct (String.eqb_spec (last p "") total_name) as [|Q]; [assumption|]. exfalso.
      apply (in_nil (a := p)). rewrite <- E at 1. apply filter_In. apply String.eqb_neq in Q. rewrite Q. auto.
    + split; [discriminate|]. intros (_ & _ & H). exfalso. assert (I : In p (p :: l)) by now left. rewrite <- E in I. apply filter_In in I. destruct I as [I Q].
      rewrite (H p I), String.eqb_refl in Q. discriminate.
Qed.
