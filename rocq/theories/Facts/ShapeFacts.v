(** Shapes of trends, effects, locations and observations. *)
From Coq Require Import Reals String Bool ZArith List Sorted Permutation Lia.
From Verif.Model Require Import Base Num XFloat Frame Arr Expand Aggregate Scale Prog Likelihood Effect Trend TrendProg Engine Predict Forecaster.
From Verif.Spec Require Import FrameSpec ScaleSpec ProgSpec EffectSpec ForecasterSpec AlignSpec ShapeSpec.
From Verif.Facts Require Import BaseFacts OrderFacts FrameFacts FrameProps ArrFacts ProgFacts MeanFacts LikelihoodFacts ExpandFacts EffectFacts EffectFourier EffectPredict
  AlignFacts TrendFacts PredictFacts ForecasterFacts ForecasterInv ForecasterProps AlignForecaster CompleteFacts.
Import ListNotations.
Local Open Scope string_scope.

(** * Effects and location *)
Lemma mode_wf env m raw pe v t : arr_wf t -> dict_get pe "trend" = Some t -> yields env (predict_mode m raw pe) v -> arr_wf v.
Proof.
  intros W G Y. apply mode_yields in Y as (t' & x & Gt & _ & L & ->). rewrite G in Gt. injection Gt as <-.
  pose proof (trend_column_wf t W) as W'. unfold arr_wf in *. destruct m; cbn [a_flat a_shape]; [exact L|].
  rewrite map_length, combine_length. lia.
Qed.

Lemma predict_wf e : forall env d pe v t, arr_wf t -> dict_get pe "trend" = Some t -> yields env (predict e d pe) v -> arr_wf v.
Proof.
  induction e as [m p b|m p q b|m p q r b|inner IH tab ps b s|sp tl ps m b ff x l]; intros env d pe v t W G Y; cbn [predict] in Y;
    try (eapply mode_wf; eauto; fail).
  - destruct d as [|a|d lift]; [inversion Y|inversion Y|]. apply yields_bind in Y as (x & Yx & Y). apply yields_bind in Y as (o & _ & Y).
    apply yields_ret in Y. subst v. eapply IH; eauto.
  - destruct l as [[mm bb]|]; [|inversion Y]. eapply mode_wf; eauto.
Qed.

Lemma chain_shapes {D} env (data : dict D) effs vs gs pe : chain env data pe effs vs gs ->
  (forall n f, In (n, f) effs -> forall env d pe v t, arr_wf t -> dict_get pe "trend" = Some t -> yields env (f d pe) v -> arr_wf v) ->
  forall t m0 m, dict_get pe "trend" = Some t -> arr_wf t -> a_shape t = a_shape m0 -> arr_wf m0 ->
  foldM (arr_zip Rplus) m0 vs = Ok m -> a_shape m = a_shape m0 /\ arr_wf m.
Proof.
  induction 1 as [pe|pe name eff effs d v l vs gs G E C IH]; intros HW t m0 m Gt Wt St Wm F.
  - simpl in F. injection F as <-. auto.
  - cbn [foldM] in F. inv_bind F. unfold arr_zip in E0. destruct (list_eq_dec _ _ _) as [Sv|]; [|discriminate]. injection E0 as <-.
    assert (Wv : arr_wf v) by (eapply HW; [left; reflexivity|exact Wt|exact Gt|apply eval_yields; eauto]).
    set (m1 := mkArr _ _) in F.
    assert (W1 : arr_wf m1).
    { unfold arr_wf in *. unfold m1. cbn [a_flat a_shape]. rewrite map_length, combine_length. rewrite <- Sv in Wv. lia. }
    change (a_shape m0) with (a_shape m1). destruct (String.eqb_spec name "trend") as [->|N].
    + apply (IH (fun n f Hn => HW n f (or_intror Hn)) v m1 m); auto.
      rewrite dict_get_set. now rewrite String.eqb_refl.
    + apply (IH (fun n f Hn => HW n f (or_intror Hn)) t m1 m); auto.
      rewrite dict_get_set. destruct (String.eqb_spec name "trend"); [contradiction|]. destruct (String.eqb_spec "trend" name); congruence.
Qed.

(** the location has the shape of the trend *)
Lemma mean_shape (p : list (string * effect)) env tr trend (data : dict edata) m tr' :
  run env tr (compute_mean trend (Some data) (Some (effect_fns p))) = Ok (m, tr') ->
  exists t, yields env trend t /\ (arr_wf t -> a_shape m = a_shape t /\ arr_wf m).
Proof.
  intros H. apply run_eval in H. destruct H as (l & E & _). apply eval_compute_mean in E. destruct E as (t & lt & vs & gs & E1 & C & _ & F).
  exists t. split; [apply eval_yields; eauto|]. intros W. eapply (chain_shapes _ _ _ _ _ _ C); [|reflexivity|exact W|reflexivity|exact W|exact F].
  intros n f Hf. unfold effect_fns in Hf. apply in_map_iff in Hf as ([n' e] & [= <- <-] & _). intros. eapply predict_wf; eauto.
Qed.

(** * Trends *)
Lemma suggest_lengths_any p (y : frame R) ts rates offs : suggest p y ts = Ok (rates, offs) ->
  List.length rates = n_series_of y /\ List.length offs = n_series_of y.
Proof.
  intros H. destruct (f_levels y) eqn:L; [|apply (suggest_lengths p y ts); [congruence|exact H]].
  unfold n_series_of. rewrite L. unfold suggest in H. set (y' := if pw_detrend p then detrend_frame y else y) in H.
  assert (L' : f_levels y' = 0) by (unfold y'; destruct (pw_detrend p); exact L).
  inv_bind H. unfold target_matrix in E. inv_bind E. injection E as <-. unfold series_to_tensor in E0. rewrite L' in E0. injection E0 as <-.
  inv_bind H. unfold endpoints in E. apply mapM_length in E. rewrite !map_length in E. simpl in E.
  destruct (pw_logistic p) as [c|].
  - inv_bind H. inv_bind H. injection H as <- <-. unfold suggest_logistic in E1.
    match type of E1 with (if ?b then _ else _) = _ => destruct b; [discriminate|] end. injection E1 as <-. rewrite !map_length. auto.
  - injection H as <- <-. rewrite !map_length. auto.
Qed.

Lemma logistic_wf sq n cps ts caps offs coefs a : List.length cps = n -> List.length offs = n -> List.length caps = n -> n <> 0 ->
  logistic_predict sq n (get_changepoint_matrix sq cps ts) caps offs coefs = Ok a -> arr_wf a.
Proof.
  intros Lc Lo La Hn H. unfold logistic_predict in H. inv_bind H. destruct (piecewise_shape _ _ _ _ _ _ _ Lc Lo Hn E) as [Sh W].
  destruct n as [|[|n]]; [congruence| |].
  - destruct caps as [|c [|]]; try discriminate. injection H as <-. unfold arr_wf in *. simpl. now rewrite map_length.
  - rewrite Sh in H. unfold trend_shape in H. simpl (Nat.eqb _ _ && _) in H. cbv beta iota in H.
    inv_bind H. injection H as <-. unfold arr_wf in *. rewrite Sh in W. unfold trend_shape in W. simpl (Nat.eqb _ _ && _) in W. cbv iota in W.
    cbn [a_flat a_shape]. rewrite (concat_uniform_length _ (List.length ts)).
    + rewrite map_length. unfold prod_shape. simpl. lia.
    + intros l Hl. apply in_map_iff in Hl as ([b c] & <- & Hb). rewrite map_length. cbn [fst].
      assert (Lb : List.length (chunks (List.length ts) (S (S n)) (a_flat x)) = List.length caps) by (unfold chunks; rewrite map_length, seq_length; congruence).
      rewrite broadcast2_same in E0 by exact Lb. assert (E1 := f_equal (fun r => match r with Ok v => v | Err _ => x0 end) E0). cbv beta iota in E1. rewrite <- E1 in Hb. apply in_combine_l in Hb. unfold chunks in Hb. apply in_map_iff in Hb as (i & <- & Hi).
      apply in_seq in Hi. rewrite firstn_length, skipn_length, W. unfold prod_shape. simpl. nia.
Qed.

Lemma trend_value ns_of p (y : frame R) f capacity fh env a iv rg :
  piecewise_fit ns_of p y = Ok f -> pw_interval p = Scalar iv -> pw_range p = Scalar rg -> (f_levels y <> 0 -> f_rows y <> []) ->
  yields env (piecewise_prog capacity f (piecewise_transform ns_of f fh)) a ->
  a_shape a = trend_shape (n_series_of y) (List.length (match f_levels y with 0 => fh | _ => times_unique fh end)) (pw_squeeze p) /\ arr_wf a.
Proof.
  intros H Hi Hr NE Y. destruct (piecewise_fit_inv _ _ _ _ H) as (ts & _ & _ & Hn & Hp & Hc & Hs & _ & Hse).
  rewrite Hi, Hr in Hc. apply setup_length in Hc. destruct (suggest_lengths_any _ _ _ _ _ Hs) as [_ Lo].
  assert (N0 : n_series_of y <> 0).
  { unfold n_series_of. destruct (f_levels y); [congruence|]. intros E. apply length_zero_iff_nil in E. destruct (f_rows y) as [|r l] eqn:ER; [exfalso; apply NE; congruence|].
    assert (I : In (r_path r) (series_ids y)) by (unfold series_ids; rewrite paths_unique_In, ER; simpl; auto). rewrite E in I. contradiction. }
  unfold piecewise_transform in Y. rewrite Hse in Y.
  assert (Y' : yields env (piecewise_prog capacity f (get_changepoint_matrix (pw_squeeze p) (pf_cps f)
     (map (fun t => scale_time (pf_t_scale f) (pf_t_start f) (days_since_epoch (ns_of t))) (match f_levels y with 0 => fh | _ => times_unique fh end)))) a).
  { rewrite Hp in Y. destruct (f_levels y); exact Y. }
  clear Y. rename Y' into Y. set (tms := match f_levels y with 0 => fh | _ => times_unique fh end) in *.
  set (tl := map _ tms) in Y. replace (List.length tms) with (List.length tl) by (unfold tl; now rewrite map_length).
  unfold piecewise_prog in Y. rewrite Hp, Hn in Y. destruct (pw_logistic p) as [c|].
  - apply yields_bind in Y as ([] & _ & Y). apply yields_bind in Y as (cap & Hcap & Y). apply yields_sample in Hcap. subst cap.
    apply yields_bind in Y as (locs & Hl & Y). apply yields_lift in Hl. apply mapM_length in Hl. apply yields_bind in Y as (o & Ho & Y). apply yields_sample in Ho. subst o.
    apply yields_bind in Y as ([] & _ & Y). apply yields_bind in Y as (cc & Hcc & Y). apply yields_lift in Y. cbn [a_flat] in Y.
    assert (LL : forall A (f : nat -> A) n, List.length (map f (seq 0 (prod_shape [n]))) = n) by (intros; rewrite map_length, seq_length; unfold prod_shape; simpl; lia).
    assert (LM : forall A (f : nat -> A) n, List.length (map f (seq 0 (prod_shape [n; 1; 1]))) = n) by (intros; rewrite map_length, seq_length; unfold prod_shape; simpl; lia).
    split; [eapply logistic_shape|eapply logistic_wf]; try exact Y; auto; rewrite ?LL, ?LM; congruence.
  - apply yields_bind in Y as (locs & Hl & Y). apply yields_lift in Hl. apply mapM_length in Hl. apply yields_bind in Y as (o & Ho & Y). apply yields_sample in Ho. subst o.
    apply yields_bind in Y as ([] & _ & Y). apply yields_bind in Y as (cc & Hcc & Y). apply yields_lift in Y. eapply piecewise_shape; [..|exact Y]; auto.
    cbn [a_flat]. rewrite map_length, seq_length. unfold prod_shape. simpl. lia.
Qed.

Lemma flat_value env s loc (X : frame R) a : yields env (flat_prog s loc (flat_transform X)) a ->
  a_shape a = [List.length (f_rows X); 1] /\ arr_wf a.
Proof.
  intros Y. unfold flat_prog in Y. destruct (flat_prior loc s) as [cc rr]. apply yields_bind in Y as (c & _ & Y). apply yields_ret in Y. subst a.
  split; [reflexivity|]. unfold arr_wf, flat_predict, flat_transform, arr_map. cbn [a_flat a_shape]. rewrite map_length, repeat_length. unfold prod_shape. simpl. lia.
Qed.

(** * Sizes of the data *)
Lemma loc_index_size (X X' : frame R) index : NoDup (labels X) -> loc_index X index = Ok X' ->
  List.length (f_rows X') = List.length index.
Proof.
  intros N H. unfold loc_index in H. inv_bind H. injection H as <-. cbn [f_rows]. apply BaseFacts.mapM_ok in E.
  induction E as [|pt rs index x Hp F IH]; [reflexivity|]. simpl. rewrite app_length, IH. f_equal.
  set (l := filter _ _) in Hp. assert (L : l <> [] /\ rs = l) by (destruct l; [discriminate|injection Hp as <-; split; [discriminate|reflexivity]]).
  destruct L as [L ->]. assert (Q : forall r, In r l -> In r (f_rows X) /\ (r_path r, r_time r) = pt).
  { intros r Hr. apply filter_In in Hr as [Hr Q]. apply andb_true_iff in Q as [Q1 Q2]. apply path_eqb_eq in Q1. apply Z.eqb_eq in Q2. destruct pt. simpl in *. subst. auto. }
  assert (NL : NoDup (map (fun r : row R => (r_path r, r_time r)) l)).
  { unfold l, labels in *. clear - N. induction (f_rows X) as [|r rows IH]; simpl; [constructor|]. simpl in N. inversion N; subst.
    destruct (path_eqb _ _ && _); [|auto]. simpl. constructor; [|auto]. intros I. apply H1. apply in_map_iff in I as (r' & E & I). apply filter_In in I. apply in_map_iff. exists r'. tauto. }
  destruct l as [|r1 [|r2 l']]; [congruence|reflexivity|]. exfalso. simpl in NL. inversion NL; subst. apply H1. simpl. left.
  destruct (Q r1); [simpl; auto|]. destruct (Q r2); [simpl; auto|]. congruence.
Qed.

Lemma filter_fh_all {V} fh (X : frame V) : (forall r, In r (f_rows X) -> In (r_time r) fh) -> filter_fh fh X = X.
Proof.
  intros H. unfold filter_fh, filter_rows. destruct X as [l c rows]. cbn [f_rows f_levels f_cols] in *. f_equal.
  induction rows as [|r rows IH]; [reflexivity|]. simpl. rewrite IH by (intros; apply H; simpl; auto).
  assert (E : existsb (Z.eqb (r_time r)) fh = true) by (apply existsb_exists; exists (r_time r); split; [apply H; simpl; auto|apply Z.eqb_refl]). now rewrite E.
Qed.

Lemma column_values {V} (rows : list (row V)) : (forall r, In r rows -> List.length (r_vals r) = 1) -> List.length (flat_map r_vals rows) = List.length rows.
Proof.
  induction rows as [|r rows IH]; intros H; [reflexivity|]. simpl. rewrite app_length, (H r) by (simpl; auto). rewrite IH by (intros; apply H; simpl; auto). reflexivity.
Qed.

(** the bottom series of the aggregated target *)
Lemma n_series_bottom keep (y : frame R) : frame_wf y -> f_levels y <> 0 -> f_rows y <> [] ->
  (forall r, In r (f_rows y) -> ~ In total_name (r_path r)) ->
  n_series (f_levels (aggregate keep y)) (index_of (aggregate keep y)) = List.length (series_ids y).
Proof.
  intros W L NE NT. pose proof (bottom_of_aggregate_all keep y W L NE NT) as B. set (a := aggregate keep y) in *.
  assert (La : f_levels a = f_levels y).
  { unfold loc_bottom_series in B. destruct (f_levels a) as [|k] eqn:E; [injection B as B; rewrite B in E; simpl in E; congruence|].
    inv_bind B. unfold get_multiindex_loc in B. destruct x as [|p0 x]; [discriminate|]. assert (E2 := f_equal (fun r => match r with Ok f => f_levels f | Err _ => 0 end) B). simpl in E2. congruence. }
  unfold n_series. rewrite La. destruct (f_levels y) as [|k] eqn:EL; [congruence|].
  apply NoDup_same_length.
  - apply NoDup_filter, paths_unique_NoDup.
  - apply paths_unique_NoDup.
  - assert (SI : forall p, In p (map r_path (f_rows (sort_index y))) <-> In p (series_ids y)).
    { intros p. unfold series_ids. rewrite paths_unique_In. unfold sort_index. cbn [f_rows]. split; apply Permutation_in; apply Permutation_map; [symmetry|]; apply key_sort_perm. }
    intros p. rewrite <- SI. unfold filter_series_tuples. rewrite filter_In, paths_unique_In. unfold index_of. rewrite map_map. cbn [fst].
    assert (WA : forall r, In r (f_rows a) -> List.length (r_path r) = S k).
    { intros r Hr. rewrite <- La. apply (aggregate_wf keep y W ltac:(congruence)). exact Hr. }
    unfold loc_bottom_series in B. rewrite La in B. inv_bind B. unfold get_bottom_series_idx in E. rewrite La in E.
    assert (IX : forall q, In q x <-> In q (map r_path (f_rows a)) /\ String.eqb (last q "") total_name = false).
    { intros q. destruct k as [|k].
      - injection E as <-. rewrite filter_In. unfold series_ids. rewrite paths_unique_In. split; intros [H1 H2]; split; auto.
        + apply in_map_iff in H1 as (r & <- & Hr). pose proof (WA r Hr) as LW. destruct (r_path r) as [|s0 [|]]; try discriminate. simpl.
          destruct (String.eqb_spec s0 total_name) as [->|]; [|reflexivity]. exfalso. revert H2.
          assert (Q : path_eqb [total_name] [total_name] = true) by now apply path_eqb_eq. rewrite Q. discriminate.
        + destruct (path_eqb q [total_name]) eqn:Q; [|reflexivity]. apply path_eqb_eq in Q. subst q. simpl in H2. discriminate.
      - injection E as <-. rewrite filter_In. unfold series_ids. rewrite paths_unique_In, negb_true_iff. tauto. }
    unfold get_multiindex_loc in B. destruct x as [|p0 x']; [discriminate|]. assert (B2 := f_equal (fun r => match r with Ok f => f_rows f | Err _ => [] end) B). cbv beta iota in B2. rewrite <- B2. cbn [filter_rows f_rows].
    assert (Lp0 : List.length p0 = S k).
    { destruct (proj1 (IX p0) (or_introl eq_refl)) as [I _]. apply in_map_iff in I as (r & <- & Hr). now apply WA. }
    rewrite Lp0. rewrite negb_true_iff. split.
    + intros [H1 H2]. pose proof (proj2 (IX p) (conj H1 H2)) as I. apply in_map_iff in H1 as (r & <- & Hr). apply in_map. apply filter_In. split; [exact Hr|].
      rewrite firstn_all2 by (rewrite (WA r Hr); lia). now apply path_in_iff.
    + intros H. apply in_map_iff in H as (r & <- & Hr). apply filter_In in Hr as [Hr Q]. rewrite firstn_all2 in Q by (rewrite (WA r Hr); lia).
      apply path_in_iff in Q. apply IX in Q. exact Q.
Qed.

(** * Observations *)
Lemma uni_observed c s p t td ya data e o tr sh : c_hier c = false -> p_has_exogenous p = true ->
  a_shape ya = [sh; 1] ->
  (forall v, yields e (trend_predict t td) v -> arr_wf v /\ prod_shape (a_shape v) = sh) ->
  run e [] (model_call c s p t td (Some ya) (Some data)) = Ok (o, tr) -> observed_as [sh; 1] tr.
Proof.
  intros Hc He Sy HT. unfold model_call. rewrite Hc, He.
  assert (K : forall m tr1, run e [] (compute_mean (trend_predict t td) (Some data) (Some (effect_fns (p_effects p)))) = Ok (m, tr1) -> List.length (a_flat m) = sh).
  { intros m tr1 H. apply mean_shape in H as (tv & Y & H). destruct (HT tv Y) as [W E]. destruct (H W) as [Sm Wm]. unfold arr_wf in Wm. congruence. }
  destruct (String.eqb _ "normal"); [|destruct (String.eqb _ "gamma"); [|destruct (String.eqb _ "negbinomial"); [|discriminate]]].
  - unfold univariate_model. rewrite run_bind. intros H. destruct (run e [] (compute_mean _ _ _)) as [[m tr1]|] eqn:E; [|discriminate]. cbn [bind] in H.
    apply (tail_run e tr1 (c_noise c) (len m) (fun noise => DNormal (reshape_col m) (const_arr (a_shape (reshape_col m)) (item0 noise)))) in H.
    destruct H as (_ & -> & H). eexists _, _. split; [exact H|]. split; [exact Sy|]. simpl. now rewrite (K _ _ eq_refl).
  - unfold univariate_gamma_model. rewrite run_bind. intros H. destruct (run e [] (compute_mean _ _ _)) as [[m tr1]|] eqn:E; [|discriminate]. cbn [bind] in H.
    apply (tail_run e tr1 (c_noise c) (len (to_positive m)) (fun noise => gamma_reparametrized (reshape_col (to_positive m)) (item0 noise))) in H.
    destruct H as (_ & -> & H). eexists _, _. split; [exact H|]. split; [exact Sy|]. simpl. now rewrite map_length, (K _ _ eq_refl).
  - unfold univariate_negbinomial_model. rewrite run_bind. intros H. destruct (run e [] (compute_mean _ _ _)) as [[m tr1]|] eqn:E; [|discriminate]. cbn [bind] in H.
    set (m2 := arr_map (fun x => x * scale_number s)%R (to_positive m)) in *.
    apply (tail_run e tr1 (c_noise c) (len m2) (fun noise => DNegBinomial2 (reshape_col m2) (const_arr (a_shape (reshape_col m2)) (item0 noise * scale_number s)%R))) in H.
    destruct H as (_ & -> & H). eexists _, _. split; [exact H|]. split; [exact Sy|]. simpl. now rewrite !map_length, (K _ _ eq_refl).
Qed.

Lemma multi_single_observed e (trend : prog arr) (data : dict edata) p y ns conc o tr n T :
  a_shape y = [n; T; 1] -> n = 1 ->
  (forall v, yields e trend v -> arr_wf v /\ prod_shape (a_shape v) = T) ->
  run e [] (multivariate_model (Some y) trend (Some data) (Some (effect_fns p)) ns conc true) = Ok (o, tr) -> observed_as [T; n] tr.
Proof.
  intros Sy -> HT. unfold multivariate_model. rewrite run_bind. intros H. destruct (run e [] (compute_mean _ _ _)) as [[m tr1]|] eqn:E; [|discriminate]. cbn [bind] in H.
  apply mean_shape in E as (tv & Y & E). destruct (HT tv Y) as [W ET]. destruct (E W) as [Sm Wm].
  unfold squeeze_last in H. rewrite Sy in H. cbn [rev app lift_res pbind] in H.
  unfold sample, plate, observe in H. cbn [pbind run] in H.
  destruct (record tr1 "std_observation" _) as [t3|]; cbn [bind] in H; [|discriminate].
  destruct (record t3 "time" _) as [t4|]; cbn [bind] in H; [|discriminate].
  destruct (record t4 "obs" _) as [t5|] eqn:E5; cbn [bind] in H; [|discriminate]. injection H as <- <-.
  apply record_get in E5. eexists _, _. split; [exact E5|]. split; [reflexivity|]. simpl. unfold arr_wf in Wm. congruence.
Qed.

Lemma multi_observed e (trend : prog arr) (data : dict edata) p y ns conc o tr n T :
  a_shape y = [n; T; 1] ->
  (forall v, yields e trend v -> arr_wf v /\ a_shape v = [n; T; 1]) ->
  run e [] (multivariate_model (Some y) trend (Some data) (Some (effect_fns p)) ns conc false) = Ok (o, tr) -> observed_as [T; n] tr.
Proof.
  intros Sy HT. unfold multivariate_model. rewrite run_bind. intros H. destruct (run e [] (compute_mean _ _ _)) as [[m tr1]|] eqn:E; [|discriminate]. cbn [bind] in H.
  apply mean_shape in E as (tv & Y & E). destruct (HT tv Y) as [W ET]. destruct (E W) as [Sm Wm]. rewrite ET in Sm.
  unfold squeeze_last in H. rewrite Sy in H. cbn [rev app lift_res pbind] in H.
  unfold shape_at in H. rewrite Sm in H. cbn [nth_error lift_res pbind] in H.
  unfold sample, plate, observe in H. cbn [pbind run] in H.
  destruct (record tr1 "std_observation" _) as [t3|]; cbn [bind] in H; [|discriminate].
  destruct (record t3 "corr_matrix" _) as [t4|]; cbn [bind] in H; [|discriminate].
  destruct (matmul _ (site_value e "corr_matrix" _ _)) as [half|]; cbn [lift_res pbind run] in H; [|discriminate].
  destruct (matmul half _) as [cov|]; cbn [lift_res pbind run] in H; [|discriminate].
  destruct (record t4 "time" _) as [t5|]; cbn [bind] in H; [|discriminate].
  cbn [rev app lift_res pbind run] in H.
  destruct (record t5 "obs" _) as [t6|] eqn:E6; cbn [bind] in H; [|discriminate]. injection H as <- <-.
  apply record_get in E6. eexists _, _. split; [exact E6|]. split; reflexivity.
Qed.

(** a location with two axes, for several series *)
Lemma multi_wrong e (trend : prog arr) (data : dict edata) p y ns conc o tr n T k :
  a_shape y = [n; T; 1] ->
  (forall v, yields e trend v -> arr_wf v /\ a_shape v = [k; 1]) ->
  run e [] (multivariate_model (Some y) trend (Some data) (Some (effect_fns p)) ns conc false) = Ok (o, tr) -> observed_wrong tr.
Proof.
  intros Sy HT. unfold multivariate_model. rewrite run_bind. intros H. destruct (run e [] (compute_mean _ _ _)) as [[m tr1]|] eqn:E; [|discriminate]. cbn [bind] in H.
  apply mean_shape in E as (tv & Y & E). destruct (HT tv Y) as [W ET]. destruct (E W) as [Sm Wm]. rewrite ET in Sm.
  unfold squeeze_last in H. rewrite Sy in H. cbn [rev app lift_res pbind] in H.
  unfold shape_at in H. rewrite Sm in H. cbn [nth_error lift_res pbind] in H.
  unfold sample, plate, observe in H. cbn [pbind run] in H.
  destruct (record tr1 "std_observation" _) as [t3|]; cbn [bind] in H; [|discriminate].
  destruct (record t3 "corr_matrix" _) as [t4|]; cbn [bind] in H; [|discriminate].
  destruct (matmul _ (site_value e "corr_matrix" _ _)) as [half|]; cbn [lift_res pbind run] in H; [|discriminate].
  destruct (matmul half _) as [cov|]; cbn [lift_res pbind run] in H; [|discriminate].
  destruct (record t4 "time" _) as [t5|]; cbn [bind] in H; [|discriminate].
  cbn [rev app lift_res pbind run] in H.
  destruct (record t5 "obs" _) as [t6|] eqn:E6; cbn [bind] in H; [|discriminate]. injection H as <- <-.
  apply record_get in E6. eexists _, _. split; [exact E6|]. simpl. discriminate.
Qed.

Lemma tensor_shape (yb : frame R) tensor : series_to_tensor yb = Ok tensor -> f_levels yb <> 0 -> f_rows yb <> [] ->
  exists len, (forall p, In p (series_ids yb) -> List.length (rows_of yb p) = len) /\
    a_shape (arr_of_data 1 (D3 tensor)) = [List.length (series_ids yb); len; 1].
Proof.
  intros H L NE. destruct (tensor_ok_iff _ _ L H) as (len & HL & ->). exists len. split; [exact HL|].
  simpl. rewrite map_length. destruct (series_ids yb) as [|p0 ids] eqn:E.
  - exfalso. destruct (f_rows yb) as [|r rows] eqn:ER; [congruence|]. assert (I : In (r_path r) (series_ids yb)) by (unfold series_ids; rewrite paths_unique_In, ER; simpl; auto).
    rewrite E in I. contradiction.
  - simpl. rewrite map_length. rewrite (HL p0) by (simpl; auto). reflexivity.
Qed.

Lemma balanced_rows (yb : frame R) p : balanced yb -> In p (series_ids yb) -> List.length (rows_of yb p) = List.length (time_ids yb).
Proof.
  intros [N B] Hp. rewrite <- (map_length r_time). apply NoDup_same_length.
  - unfold rows_of, labels in *. clear B Hp. induction (f_rows yb) as [|r rows IH]; simpl; [constructor|]. simpl in N. inversion N; subst.
    destruct (path_eqb (r_path r) p) eqn:Q; [|auto]. simpl. constructor; [|auto]. intros I. apply H1. apply in_map_iff in I as (r' & E & I). apply filter_In in I as [I Q'].
    apply path_eqb_eq in Q, Q'. apply in_map_iff. exists r'. split; [congruence|exact I].
  - apply times_unique_NoDup.
  - intros t. unfold time_ids. rewrite times_unique_In. unfold rows_of. split.
    + intros I. apply in_map_iff in I as (r & <- & I). apply filter_In in I. apply in_map. tauto.
    + intros I. unfold series_ids in Hp. rewrite paths_unique_In in Hp. specialize (B p t Hp I). unfold labels in B. apply in_map_iff in B as (r & [= E1 E2] & Hr).
      apply in_map_iff. exists r. split; [exact E2|]. apply filter_In. split; [exact Hr|]. now apply path_eqb_eq.
Qed.

Section Forecaster.
Variable ns_of : Z -> Z.
Variable order : list string -> list string.
Variable keep : path -> bool.
Context {TS : Type}.
Variable tr_fit_transform : TS -> frame R -> TS * res (frame R).
Notation fit_data := (fit_data ns_of order keep tr_fit_transform).

Lemma c74_univariate c ob s y X ob' p m : fit_data c ob s y X = (ob', Ok (p, m)) -> c_hier c = false ->
  f_levels y = 0 -> ScaleSpec.one_column y -> NoDup (map r_time (f_rows y)) ->
  (scalar_piecewise (o_trend ob') \/
   flat_trend (o_trend ob') /\ o_transformer ob = None /\ match X with None => True | Some X => NoDup (labels X) end) ->
  forall e o tr, run e [] m = Ok (o, tr) -> observed_as [List.length (f_rows y); 1] tr.
Proof.
  intros H Hc L [W C1] N HT e o tr R. unfold Forecaster.fit_data in H. rewrite Hc in H. apply univariate_fit_inv in H.
  destruct H as (t0 & t & yt & X1 & Xe & td & data & _ & HY & HF & HQ & HL & <- & HTr & _ & _ & _ & HP & ->).
  assert (He : p_has_exogenous p = true) by (rewrite HP; reflexivity).
  assert (Dy : f_levels yt = f_levels y).
  { destruct (discrete c); [|now injection HY as <-]. unfold divide_target in HY. destruct s as [x|z|tab|tab]; try (injection HY as <-; reflexivity).
    all: repeat match type of HY with bind _ _ = Ok _ => inv_bind HY end; repeat match type of HY with (if ?b then _ else _) = _ => destruct b; [|discriminate] end; try discriminate; try (injection HY as <-; reflexivity). }
  refine (uni_observed c s p (o_trend ob') td _ data e o tr _ Hc He _ _ R).
  - cbn [reshape_col a_shape a_flat]. rewrite column_values; [reflexivity|]. intros r Hr. destruct (W r Hr). congruence.
  - intros v Y. destruct HT as [SP|[FT [NTr NX]]].
    + destruct (fitted_trend ns_of order _ _ _ _ _ HF SP) as (pp & cap & b & f & iv & rg & E & PF & PI & PR). rewrite E in *.
      cbn [trend_transform] in HTr. inv_bind HTr. cbn [attr bind] in HTr. injection HTr as <-. cbn [trend_predict] in Y.
      destruct (trend_value _ _ _ _ _ _ _ _ _ _ PF PI PR ltac:(congruence) Y) as [Sh Wv]. split; [exact Wv|]. rewrite Sh. unfold n_series_of. rewrite Dy, L.
      unfold time_ids. rewrite times_unique_id by exact N. unfold trend_shape. rewrite map_length. destruct (pw_squeeze pp); unfold prod_shape; simpl; lia.
    + destruct (o_trend ob') as [|ps b loc|] eqn:E; try contradiction. cbn [trend_transform] in HTr. inv_bind HTr. injection HTr as <-.
      destruct loc as [loc|]; [|inversion Y]. cbn [trend_predict] in Y. apply flat_value in Y as [Sh Wv]. split; [exact Wv|]. rewrite Sh.
      unfold trend_rows in E0. inv_bind E0. destruct (negb x0); [discriminate|]. inv_bind E0.
      apply select_columns_cols in E0 as (_ & Lr & _). rewrite Lr.
      apply run_fit_transform_inv in HQ. destruct HQ as [_ HQ]. cbn [o_transformer] in HQ. rewrite NTr in HQ. destruct HQ as [_ HQ].
      destruct (loc_index_inv _ _ _ HL) as (_ & _ & _ & Hin).
      rewrite filter_fh_all.
      * rewrite (loc_index_size X1 Xe (index_of y)).
        -- unfold index_of. rewrite map_length. unfold prod_shape. simpl. lia.
        -- rewrite HQ. destruct X as [X|]; [exact NX|]. unfold labels, empty_frame. cbn [f_rows]. rewrite map_map. cbn [r_path r_time].
           unfold index_of. rewrite map_map. cbn [fst snd]. apply (NoDup_map_inv snd). rewrite map_map. cbn [snd]. exact N.
        -- exact HL.
      * intros r Hr. apply Hin in Hr as [_ Hr]. unfold index_of in Hr. apply in_map_iff in Hr as (r' & [= _ <-] & Hr').
        unfold time_ids. rewrite times_unique_In. now apply in_map.
Qed.

Lemma hierarchical_setup c ob s y X ob' p m : fit_data c ob s y X = (ob', Ok (p, m)) -> c_hier c = true ->
  f_levels y <> 0 -> frame_wf y -> (forall r, In r (f_rows y) -> ~ In "__total" (r_path r)) ->
  exists tensor X2 t0 td data, series_to_tensor (sort_index y) = Ok tensor /\
    trend_fit ns_of order t0 (Some X2) (sort_index y) (scale_number s) = (o_trend ob', None) /\
    trend_transform ns_of (o_trend ob') X2 (time_ids y) = Ok td /\
    p_single p = Nat.eqb (List.length (series_ids y)) 1 /\ f_rows y <> [] /\
    m = multivariate_model (Some (arr_of_data 1 (D3 tensor))) (trend_predict (o_trend ob') td) (Some data) (Some (effect_fns (p_effects p)))
          (c_noise c) (c_concentration c) (p_single p).
Proof.
  intros HD Hc L W NT. unfold Forecaster.fit_data in HD. rewrite Hc in HD. apply hierarchical_fit_inv in HD.
  destruct HD as (yb & tensor & X0 & X1 & X2 & ob0 & t0 & t & td & data & HD).
  destruct HD as (Hyb & Ht & HX0 & HQ & Hex & HX2 & HG0 & HTF & -> & H1 & H2 & H3 & H4 & _ & H6 & ->). cbn [o_trend] in *.
  assert (RY : f_rows y <> []).
  { intros E. unfold aggregate, loc_bottom_series, get_bottom_series_idx, series_ids in Hyb.
    destruct (f_levels y) as [|[|k]] eqn:EL; [congruence| |]; rewrite E in Hyb; simpl in Hyb; rewrite ?EL in Hyb; discriminate. }
  rewrite bottom_of_aggregate_all in Hyb by assumption. injection Hyb as <-.
  rewrite (n_series_bottom keep y W L RY NT) in H6.
  exists tensor, X2, t0, td, data. repeat split; auto. unfold model_call. rewrite Hc. reflexivity.
Qed.

Lemma sort_index_rows (y : frame R) : f_rows y <> [] -> f_rows (sort_index y) <> [].
Proof.
  intros N E. destruct (f_rows y) as [|r l] eqn:Ey; [congruence|]. assert (I : In r (f_rows (sort_index y))).
  - eapply Permutation_in; [apply (key_sort_perm label (f_rows y))|]. rewrite Ey. simpl. auto.
  - rewrite E in I. contradiction.
Qed.

Lemma sort_index_perm_rows (y : frame R) : Permutation (f_rows y) (f_rows (sort_index y)).
Proof. apply (key_sort_perm label (f_rows y)). Qed.

Lemma sort_index_ids (y : frame R) : List.length (series_ids (sort_index y)) = List.length (series_ids y).
Proof.
  apply NoDup_same_length; try apply paths_unique_NoDup. intros p. unfold series_ids. rewrite !paths_unique_In.
  split; apply Permutation_in; apply Permutation_map; [symmetry|]; apply sort_index_perm_rows.
Qed.

Lemma sort_index_times (y : frame R) : List.length (time_ids (sort_index y)) = List.length (time_ids y).
Proof.
  apply NoDup_same_length; try apply times_unique_NoDup. intros p. unfold time_ids. rewrite !times_unique_In.
  split; apply Permutation_in; apply Permutation_map; [symmetry|]; apply sort_index_perm_rows.
Qed.

Lemma sort_index_balanced (y : frame R) : balanced y -> balanced (sort_index y).
Proof.
  intros [N B]. pose proof (sort_index_perm_rows y) as PP. split.
  - unfold labels in *. eapply Permutation_NoDup; [apply Permutation_map; exact PP|exact N].
  - intros p t Hp Ht. unfold labels in *. eapply Permutation_in; [apply Permutation_map; exact PP|]. apply B.
    + eapply Permutation_in; [apply Permutation_map; symmetry; exact PP|exact Hp].
    + eapply Permutation_in; [apply Permutation_map; symmetry; exact PP|exact Ht].
Qed.

Lemma c74_hierarchical c ob s y X ob' p m : fit_data c ob s y X = (ob', Ok (p, m)) -> c_hier c = true ->
  f_levels y <> 0 -> frame_wf y -> (forall r, In r (f_rows y) -> ~ In "__total" (r_path r)) -> balanced y ->
  scalar_piecewise (o_trend ob') ->
  forall e o tr, run e [] m = Ok (o, tr) -> observed_as [List.length (time_ids y); List.length (series_ids y)] tr.
Proof.
  intros H Hc L W NT B SP e o tr R. destruct (hierarchical_setup _ _ _ _ _ _ _ _ H Hc L W NT) as (tensor & X2 & t0 & td & data & Ht & HTF & HTr & HS & RY & ->).
  assert (RS := sort_index_rows y RY).
  destruct (tensor_shape _ _ Ht L RS) as (len & HL & Sy).
  assert (EL : len = List.length (time_ids y)).
  { destruct (series_ids (sort_index y)) as [|p0 ids] eqn:E.
    - exfalso. pose proof (sort_index_ids y) as Q. rewrite E in Q. destruct (f_rows y) as [|r l] eqn:Ey; [congruence|].
      assert (I : In (r_path r) (series_ids y)) by (unfold series_ids; rewrite paths_unique_In, Ey; simpl; auto).
      destruct (series_ids y); [contradiction|discriminate].
    - rewrite <- (HL p0) by (simpl; auto). rewrite <- sort_index_times. apply balanced_rows; [now apply sort_index_balanced|]. rewrite E. simpl. auto. }
  rewrite sort_index_ids, EL in Sy.
  destruct (fitted_trend ns_of order _ _ _ _ _ HTF SP) as (pp & cap & b & f & iv & rg & E & PF & PI & PR). rewrite E in *.
  cbn [trend_transform] in HTr. inv_bind HTr. cbn [attr bind] in HTr. injection HTr as <-. cbn [trend_predict] in R.
  assert (TV : forall v, yields e (piecewise_prog cap f (piecewise_transform ns_of f (time_ids y))) v ->
     a_shape v = trend_shape (List.length (series_ids y)) (List.length (time_ids y)) (pw_squeeze pp) /\ arr_wf v).
  { intros v Y. destruct (trend_value _ _ _ _ _ _ _ _ _ _ PF PI PR (fun _ => RS) Y) as [Sh Wv]. split; [|exact Wv]. rewrite Sh.
    unfold n_series_of. assert (LS : f_levels (sort_index y) = f_levels y) by reflexivity. rewrite LS. destruct (f_levels y) as [|k]; [congruence|].
    rewrite sort_index_ids. unfold time_ids. rewrite (times_unique_id (times_unique _)) by apply times_unique_NoDup. reflexivity. }
  destruct (p_single p) eqn:EP.
  - symmetry in HS. apply Nat.eqb_eq in HS. refine (multi_single_observed e _ data _ _ _ _ o tr _ _ Sy HS _ R).
    intros v Y. destruct (TV v Y) as [Sh Wv]. split; [exact Wv|]. rewrite Sh, HS. unfold trend_shape. destruct (pw_squeeze pp); unfold prod_shape; simpl; lia.
  - symmetry in HS. refine (multi_observed e _ data _ _ _ _ o tr _ _ Sy _ R).
    intros v Y. destruct (TV v Y) as [Sh Wv]. split; [exact Wv|]. rewrite Sh. unfold trend_shape. rewrite HS. reflexivity.
Qed.

Lemma c74_flat c ob s y X ob' p m : fit_data c ob s y X = (ob', Ok (p, m)) -> c_hier c = true ->
  f_levels y <> 0 -> frame_wf y -> (forall r, In r (f_rows y) -> ~ In "__total" (r_path r)) ->
  1 < List.length (series_ids y) -> flat_trend (o_trend ob') ->
  forall e o tr, run e [] m = Ok (o, tr) -> observed_wrong tr.
Proof.
  intros H Hc L W NT N2 FT e o tr R. destruct (hierarchical_setup _ _ _ _ _ _ _ _ H Hc L W NT) as (tensor & X2 & t0 & td & data & Ht & HTF & HTr & HS & RY & ->).
  assert (RS := sort_index_rows y RY). destruct (tensor_shape _ _ Ht L RS) as (len & HL & Sy).
  assert (EP : p_single p = false) by (rewrite HS; apply Nat.eqb_neq; lia). rewrite EP in R.
  destruct (o_trend ob') as [|ps b loc|] eqn:E; try contradiction. cbn [trend_transform] in HTr. inv_bind HTr. injection HTr as <-.
  refine (multi_wrong e _ data _ _ _ _ o tr _ _ (List.length (f_rows x)) Sy _ R).
  intros v Y. destruct loc as [loc|]; [|inversion Y]. cbn [trend_predict] in Y. apply flat_value in Y as [Sh Wv]. auto.
Qed.
End Forecaster.
