(** Properties of the effects of a fitted forecaster (C24, C38-C41, C70). *)
From Coq Require Import Reals String Bool ZArith List Permutation Lia.
From Verif.Model Require Import Base Num XFloat Regex Frame Arr Expand Aggregate Scale Predict Prog Likelihood Trend Effect
  TrendProg Engine Forecaster.
From Verif.Spec Require Import RegexSpec FrameSpec ProgSpec EffectSpec ForecasterSpec.
From Verif.Facts Require Import BaseFacts RegexFacts FrameFacts ProgFacts MeanFacts EffectFacts ExpandFacts LikelihoodFacts ForecasterFacts ForecasterInv.
Import ListNotations.
Local Open Scope string_scope.

(** ** rows survive the expansion of columns *)
Lemma set_col_labels {V} (X : frame V) n g : labels (set_col X n g) = labels X.
Proof. unfold set_col, labels. destruct (col_pos (f_cols X) n); cbn; rewrite map_map; reflexivity. Qed.
Lemma set_col_levels {V} (X : frame V) n g : f_levels (set_col X n g) = f_levels X.
Proof. unfold set_col. now destruct (col_pos (f_cols X) n). Qed.

Lemma add_zero_labels {V} (zero : V) ids ms : forall X, labels (add_zero_columns zero ms ids X) = labels X /\
  f_levels (add_zero_columns zero ms ids X) = f_levels X.
Proof.
  unfold add_zero_columns. induction ms as [|m ms IH]; intros X; simpl; [auto|].
  destruct (IH (fold_left (fun X i => set_col X (get_col_name m i) (fun _ => zero)) ids X)) as [-> ->].
  clear IH. revert X. induction ids as [|i ids IHi]; intros X; simpl; [auto|].
  destruct (IHi (set_col X (get_col_name m i) (fun _ => zero))) as [-> ->]. now rewrite set_col_labels, set_col_levels.
Qed.

Lemma copy_column_labels {V} (zero : V) isna Xo X c i X' : copy_column zero isna Xo X c i = Ok X' ->
  List.length (f_rows X) = List.length (f_rows Xo) -> labels X' = labels X /\ f_levels X' = f_levels X.
Proof.
  unfold copy_column. destruct (col_pos (f_cols Xo) c); [|discriminate]. destruct (col_pos (f_cols X) _); [|discriminate].
  intros [= <-] L. split; [|reflexivity]. unfold labels. cbn [f_rows]. rewrite map_map.
  revert L. generalize (f_rows Xo). induction (f_rows X) as [|r rs IH]; intros [|ro ros] L; simpl in *; try discriminate; [reflexivity|].
  f_equal. apply IH. lia.
Qed.

Lemma labels_length {V} (X : frame V) : List.length (f_rows X) = List.length (labels X).
Proof. unfold labels. now rewrite map_length. Qed.

Lemma copy_columns_labels {V} (zero : V) isna ms Xo ids : forall X X', copy_columns zero isna ms ids Xo X = Ok X' ->
  labels X = labels Xo -> labels X' = labels Xo /\ f_levels X' = f_levels X.
Proof.
  unfold copy_columns. induction ids as [|i ids IH]; intros X X' H L; simpl in H; [injection H as <-; auto|].
  destruct (foldM _ X ms) as [X1|] eqn:E; [|discriminate]. cbn [bind] in H.
  assert (G : labels X1 = labels Xo /\ f_levels X1 = f_levels X).
  { clear H IH. revert X L E. induction ms as [|m ms IHm]; intros X L E; simpl in E; [injection E as <-; auto|].
    destruct (copy_column zero isna Xo X m i) as [X2|] eqn:E2; [|discriminate]. cbn [bind] in E.
    destruct (copy_column_labels _ _ _ _ _ _ _ E2) as [L2 V2]; [rewrite !labels_length; now rewrite L|].
    destruct (IHm X2) as [L3 V3]; auto; [congruence|]. split; congruence. }
  destruct G as [G1 G2]. destruct (IH _ _ H G1) as [G3 G4]. split; congruence.
Qed.

Lemma expand_transform_labels {V} (zero : V) isna e (X X' : frame V) e' :
  expand_transform zero isna e X = Ok (X', e') -> labels X' = labels X /\ f_levels X' = f_levels X.
Proof.
  unfold expand_transform. destruct (ex_skip e); [intros [= <- _]; auto|]. destruct (f_levels X) eqn:L0; [discriminate|].
  intros H. inv_bind H. injection H as <- _. destruct (add_zero_labels zero (series_ids X) (ex_matched e) X) as [L1 V1].
  apply copy_columns_labels in E; [|exact L1]. destruct E as [E1 E2]. unfold drop_columns. cbn [f_levels]. split; [|congruence].
  rewrite <- E1. unfold labels. cbn [f_rows]. now rewrite map_map.
Qed.

Lemma expand_bottom_labels {V} (zero : V) isna order shared (X X' : frame V) e' :
  expand_bottom zero isna order shared X = Ok (X', e') -> labels X' = labels X /\ f_levels X' = f_levels X.
Proof. unfold expand_bottom. intros H. inv_bind H. now apply expand_transform_labels in H. Qed.

Lemma loc_bottom_rows {V} (X X' : frame V) : f_rows X <> [] -> loc_bottom_series X = Ok X' -> f_rows X' <> [].
Proof.
  intros N. unfold loc_bottom_series. destruct (f_levels X) as [|n] eqn:L; [intros [= <-]; exact N|]. intros H. inv_bind H.
  unfold get_multiindex_loc in H. destruct x as [|p0 idx]; [discriminate|]. injection H as <-. unfold filter_rows. cbn [f_rows].
  assert (I : In p0 (series_ids X)).
  { unfold get_bottom_series_idx in E. rewrite L in E. destruct n; injection E as E;
      (assert (In p0 (p0 :: idx)) as I by (left; reflexivity)); rewrite <- E in I; apply filter_In in I; tauto. }
  apply series_ids_In in I. destruct I as (r & Hr & <-). intros F. apply filter_nil_none with (x := r) in F; [|exact Hr].
  cbv beta in F. rewrite firstn_all in F. assert (path_in (r_path r) (r_path r :: idx) = true) as G by (apply path_in_iff; now left). apply diff_true_false. rewrite <- F. symmetry. exact G.
Qed.

Section Forecaster.
Variable ns_of : Z -> Z.
Variable order : list string -> list string.
Variable keep : path -> bool.
Context {TS : Type}.
Variable tr_fit_transform : TS -> frame R -> TS * res (frame R).
Variable tr_transform : TS -> frame R -> res (frame R).
Context {P : Type}.
Variable svi_run : Z -> nat -> nat -> prog arr -> res (list xr * P).
Variable nuts_run : Z -> nat -> nat -> nat -> prog arr -> res (nat -> nat -> env).
Variable latent_sites : prog arr -> list string.

Notation fit_data := (fit_data ns_of order keep tr_fit_transform).
Notation fit_forecaster := (fit_forecaster ns_of order keep tr_fit_transform svi_run nuts_run latent_sites).
Notation predict_model := (predict_model ns_of keep tr_transform).

Lemma fit_forecaster_inv c ob y X ob' f : fit_forecaster c ob y X = (ob', Ok f) ->
  exists s ys p m post, set_y_scales (c_scale c) y = Ok s /\ scale_y (discrete c) s y = Ok ys /\
    fit_data c ob s ys X = (ob', Ok (p, m)) /\ infer svi_run nuts_run latent_sites (engine_of c) m = Ok post /\ f = mkFitted s p post.
Proof.
  unfold Forecaster.fit_forecaster. intros H. destruct (set_y_scales (c_scale c) y) as [s|] eqn:S; [|discriminate]. cbn [bind] in H.
  destruct (scale_y (discrete c) s y) as [ys|] eqn:Y; [|discriminate]. cbn [bind] in H.
  destruct (fit_data c ob s ys X) as [ob1 [[p m]|]] eqn:F; [|discriminate]. cbn [bind] in H. injection H as <- H.
  inv_bind H. injection H as <-. exists s, ys, p, m, x. auto.
Qed.

Lemma scale_y_index d s y ys : scale_y d s y = Ok ys -> index_of ys = index_of y /\ f_levels ys = f_levels y.
Proof.
  unfold scale_y, apply_scale. destruct d; [intros [= <-]; auto|]. destruct s as [c|z|tab|tab].
  - intros [= <-]. unfold index_of, map_vals. cbn. now rewrite map_map.
  - discriminate.
  - intros H. inv_bind H. injection H as <-. unfold index_of, by_row. cbn. rewrite map_map. split; [|reflexivity].
    unfold scale_for_each_obs in E. destruct (f_levels y); [discriminate|]. apply mapM_length in E. revert E. generalize (f_rows y).
    induction x as [|z zs IH]; intros [|r rs] E; simpl in *; try discriminate; [reflexivity|]. f_equal. apply IH. lia.
  - intros H. inv_bind H. unfold by_column in H. destruct (Nat.eqb _ _); [|discriminate]. injection H as <-.
    unfold index_of, map_vals. cbn. now rewrite map_map.
Qed.

Lemma index_nil {V} (y : frame V) : f_rows y <> [] -> index_of y <> [].
Proof. unfold index_of. destruct (f_rows y); [congruence|discriminate]. Qed.

(** the frame the effects are fitted on *)
Lemma effects_frame c ob s y X ob' p m : fit_data c ob s y X = (ob', Ok (p, m)) ->
  exists Xe, fit_effects order (c_default c) (effects_of c) (Some Xe) (scale_number s) = Ok (p_fitted p) /\
    non_skipped (p_fitted p) = Ok (p_effects p) /\
    (c_hier c = false -> f_rows y <> [] -> f_rows Xe <> []) /\
    (c_hier c = false -> o_transformer ob = None -> f_cols Xe = match X with None => [] | Some X => f_cols X end) /\
    (c_hier c = true -> o_transformer ob = None -> (match X with None => True | Some X => no_columns X = true end) -> f_cols Xe = []) /\
    (c_hier c = true -> o_transformer ob = None -> frame_wf y -> (exists r, In r (f_rows y) /\ no_total (r_path r) = true) -> (forall X', X = Some X' -> f_rows X' <> []) ->
       f_rows Xe <> []).
Proof.
  unfold Forecaster.fit_data. destruct (c_hier c) eqn:Hc; intros H.
  - apply hierarchical_fit_inv in H.
    destruct H as (yb & tensor & X0 & X1 & X2 & ob1 & t0 & t & td & data & H). exists X2.
    destruct H as (Hyb & _ & HX0 & HQ & Hex & HX2 & _ & _ & -> & H1 & H2 & H3 & H4 & _ & _ & ->).
    split; [exact H2|]. split; [exact H4|]. split; [discriminate|]. split; [discriminate|].
    apply run_fit_transform_inv in HQ. destruct HQ as [_ HQ]. split.
    + intros _ NT HX. rewrite NT in HQ. destruct HQ as [-> ->]. set (Xi := empty_frame _ _) in HX0.
      assert (HX0' : loc_bottom_series Xi = Ok X0). { destruct X as [X'|]; [rewrite HX in HX0|]; exact HX0. }
      assert (C0 : f_cols X0 = []).
      { unfold loc_bottom_series in HX0'. destruct (f_levels Xi); [injection HX0' as <-; reflexivity|]. inv_bind HX0'.
        unfold get_multiindex_loc in HX0'. destruct x; [discriminate|]. injection HX0' as <-. reflexivity. }
      assert (no_columns X0 = true) as NC by (unfold no_columns; now rewrite C0). rewrite Hex, NC in HX2. simpl in HX2.
      destruct HX2 as [-> _]. exact C0.
    + intros _ NT W (r0 & Hr0 & Nr0) HX. rewrite NT in HQ. destruct HQ as [-> ->].
      assert (R0 : f_rows X0 <> []).
      { assert (E0 : f_rows (empty_frame (f_levels (aggregate keep y)) (index_of (aggregate keep y))) <> []).
        { unfold empty_frame, index_of. cbn [f_rows]. rewrite map_map.
          assert (f_rows (aggregate keep y) <> []) as NA; [|destruct (f_rows (aggregate keep y)); [congruence|discriminate]].
          destruct (f_levels y) eqn:L; [unfold aggregate; rewrite L; intros E; rewrite E in Hr0; contradiction|].
          intros E. assert (In r0 (f_rows (aggregate keep y))) as I by (apply aggregate_bottom_In; congruence || auto).
          rewrite E in I. contradiction. }
        destruct X as [X'|].
        - destruct (no_columns X'); [now apply loc_bottom_rows in HX0|]. eapply loc_bottom_rows; [|exact HX0]. auto.
        - now apply loc_bottom_rows in HX0. }
      destruct (p_has_exogenous p).
      * destruct HX2 as (ex & HX2 & _). apply expand_bottom_labels in HX2. destruct HX2 as [L _]. intros E.
        assert (labels X0 = []) by (rewrite <- L; unfold labels; now rewrite E). unfold labels in H. destruct (f_rows X0); [congruence|discriminate].
      * destruct HX2 as [-> _]. exact R0.
  - apply univariate_fit_inv in H. destruct H as (t0 & t & yt & X1 & Xe & td & data & H).
    destruct H as (_ & _ & _ & HQ & HL & _ & H1 & H2 & H3 & H4 & H5 & ->). exists Xe.
    apply loc_index_inv in HL. destruct HL as (L1 & L2 & L3 & L4).
    split; [exact H2|]. split; [exact H4|]. split; [intros _ N; apply L3; now apply index_nil|]. split; [|split; discriminate].
    intros _ NT. rewrite L2. apply run_fit_transform_inv in HQ. destruct HQ as [_ HQ]. simpl in HQ. rewrite NT in HQ. destruct HQ as [_ ->].
    now destruct X.
Qed.

(** * C40 *)
Lemma c40 c ob s y X ob' p m : fit_data c ob s y X = (ob', Ok (p, m)) ->
  exists Xe main dflt,
    (c_hier c = false -> o_transformer ob = None -> f_cols Xe = match X with None => [] | Some X => f_cols X end) /\
    p_fitted p = (main ++ dflt)%list /\ Forall2 (fitted_from order (scale_number s) Xe) (effects_of c) main /\
    ((dflt = [] /\ forall col, ~ leftover (effects_of c) Xe col) \/
     (exists f, dflt = [f] /\ fe_name f = default_name /\ fe_cols f <> [] /\
        (forall col, In col (fe_cols f) <-> leftover (effects_of c) Xe col) /\
        exists XC, select_columns 0%R Xe (fe_cols f) = Ok XC /\
          fit order (clone (default_of (c_default c))) (Some XC) (scale_number s) = (fe_effect f, None))).
Proof.
  intros H. apply effects_frame in H. destruct H as (Xe & H1 & _ & _ & H2 & _). apply fit_effects_inv in H1.
  destruct H1 as (main & dflt & H3 & H4 & H5). exists Xe, main, dflt. auto.
Qed.

(** * C24: names taking part *)
Lemma names_part default effects (Xe : frame R) s fitted effs n :
  fit_effects order default effects (Some Xe) s = Ok fitted -> non_skipped fitted = Ok effs -> f_rows Xe <> [] ->
  In n (dict_keys effs) <->
  (exists l, In l effects /\ l_name l = n /\ participates Xe l) \/ (n = default_name /\ exists col, leftover effects Xe col).
Proof.
  intros H1 H2 N. rewrite (non_skipped_keys _ _ _ H2). apply fit_effects_inv in H1.
  destruct H1 as (main & dflt & -> & F & D). pose proof F as F'. apply Forall2_In_both in F'. destruct F' as [F1 F2]. split.
  - intros (f & I & E & K). apply in_app_iff in I. destruct I as [I|I].
    + destruct (F2 f I) as (l & Hl & Hf). left. exists l. split; [exact Hl|]. split; [destruct Hf; congruence|].
      exact (proj1 (fitted_skip _ _ _ _ _ Hf N) K).
    + right. destruct D as [[-> _]|(f' & -> & En & Nc & C & _)]; [contradiction|]. destruct I as [<-|[]]. split; [congruence|].
      destruct (fe_cols f') as [|col cs] eqn:Ec; [congruence|]. exists col. apply C. now left.
  - intros [(l & Hl & E & K)|(-> & col & K)].
    + destruct (F1 l Hl) as (f & I & Hf). exists f. split; [apply in_app_iff; auto|]. split; [destruct Hf; congruence|].
      exact (proj2 (fitted_skip _ _ _ _ _ Hf N) K).
    + destruct D as [[_ D]|(f' & -> & En & Nc & C & XC & S & Fit)]; [exfalso; exact (D col K)|].
      exists f'. split; [apply in_app_iff; simpl; auto|]. split; [exact En|].
      rewrite (should_skip_fitted _ _ _ _ _ Fit). apply select_columns_cols in S. destruct S as (SC & SR & _).
      rewrite columns_seen_rows by (destruct (f_rows XC), (f_rows Xe); simpl in *; congruence). rewrite SC.
      destruct (fe_cols f'); [congruence|discriminate].
Qed.

Lemma c24_univariate c ob s y X ob' p m : fit_data c ob s y X = (ob', Ok (p, m)) -> c_hier c = false -> f_rows y <> [] ->
  exists Xe, (o_transformer ob = None -> f_cols Xe = match X with None => [] | Some X => f_cols X end) /\
    forall n, In n (dict_keys (p_effects p)) <->
      (exists l, In l (effects_of c) /\ l_name l = n /\ participates Xe l) \/
      (n = default_name /\ exists col, leftover (effects_of c) Xe col).
Proof.
  intros H Hc Ny. apply effects_frame in H. destruct H as (Xe & H1 & H2 & H3 & H4 & _). exists Xe. split; [auto|].
  intros n. eapply names_part; eauto.
Qed.

Lemma c24_hierarchical c ob s y X ob' p m : fit_data c ob s y X = (ob', Ok (p, m)) -> c_hier c = true ->
  o_transformer ob = None -> frame_wf y -> (exists r, In r (f_rows y) /\ no_total (r_path r) = true) ->
  (forall X', X = Some X' -> f_rows X' <> []) ->
  exists Xe, ((match X with None => True | Some X => no_columns X = true end) -> f_cols Xe = []) /\
    forall n, In n (dict_keys (p_effects p)) <->
      (exists l, In l (effects_of c) /\ l_name l = n /\ participates Xe l) \/
      (n = default_name /\ exists col, leftover (effects_of c) Xe col).
Proof.
  intros H Hc NT W Ny NX. apply effects_frame in H. destruct H as (Xe & H1 & H2 & H3 & H4 & H5 & H6). exists Xe. split; [auto|].
  intros n. eapply names_part; eauto.
Qed.

(** * C38 *)
Lemma agree_complete p X fh data : transform_effects (p_fitted p) X fh = Ok data -> non_skipped (p_fitted p) = Ok (p_effects p) ->
  data_complete p data fh.
Proof.
  intros H1 H2. pose proof (effects_data_agree _ _ _ _ _ H1 H2) as A. split; [exact (agree_keys _ _ _ _ _ A)|].
  intros n e G. destruct (agree_get _ _ _ _ _ _ _ A G) as (d & f & XC & K1 & K2 & K3 & K4 & _ & K5). exists d, f, XC. auto.
Qed.

Lemma c38_fit c ob s y X ob' p m : fit_data c ob s y X = (ob', Ok (p, m)) ->
  exists td ya data, m = model_call c s p (o_trend ob') td (Some ya) (Some data) /\ data_complete p data (time_ids y).
Proof.
  intros H. apply fit_data_inv in H. destruct H as (Xe & td & ya & data & H1 & H2 & H3 & H4 & H5 & ->).
  exists td, ya, data. split; [reflexivity|]. eapply agree_complete; eauto.
Qed.

Lemma fit_prepared c ob y X ob' f : fit_forecaster c ob y X = (ob', Ok f) ->
  non_skipped (p_fitted (ft_prepared f)) = Ok (p_effects (ft_prepared f)) /\
  (c_hier c = false -> p_has_exogenous (ft_prepared f) = true).
Proof.
  intros H. apply fit_forecaster_inv in H. destruct H as (s & ys & p & m & post & _ & _ & H & _ & ->).
  apply fit_data_inv in H. destruct H as (Xe & td & ya & data & H1 & H2 & H3 & H4 & H5 & ->). simpl. auto.
Qed.

Lemma c38_predict c ob y X ob' f : fit_forecaster c ob y X = (ob', Ok f) ->
  forall ob2 y2 X2 fh m, predict_model c ob2 f y2 X2 fh = Ok m ->
  exists td data times, m = model_call c (ft_scale f) (ft_prepared f) (o_trend ob2) td None (Some data) /\
    data_complete (ft_prepared f) data times.
Proof.
  intros H ob2 y2 X2 fh m Hm. apply fit_prepared in H. destruct H as [H1 H2]. apply predict_inv in Hm; [|exact H2].
  destruct Hm as (Xe & td & times & data & H3 & H4 & ->). exists td, data, times. split; [reflexivity|]. eapply agree_complete; eauto.
Qed.

(** * location of the model *)
Lemma effect_fns_fst effs : map fst (effect_fns effs) = dict_keys effs.
Proof. unfold effect_fns, dict_keys. rewrite map_map. reflexivity. Qed.

Lemma effect_fns_nth effs n e : In (n, e) effs -> exists i, nth_error (effect_fns effs) i = Some (n, predict e).
Proof.
  intros H. apply In_nth_error in H. destruct H as (i & H). exists i. unfold effect_fns. rewrite nth_error_map, H. reflexivity.
Qed.

Lemma dict_of_list_nodup {V} (l : list (string * V)) : NoDup (dict_keys (dict_of_list l)).
Proof.
  unfold dict_of_list. assert (G : forall acc, NoDup (dict_keys acc) -> NoDup (dict_keys (fold_left (fun d kv => dict_set d (fst kv) (snd kv)) l acc))).
  { induction l as [|kv l IH]; intros acc N; simpl; [exact N|]. apply IH. now apply dict_set_nodup. }
  apply G. constructor.
Qed.

Lemma non_skipped_nodup fitted effs : non_skipped fitted = Ok effs -> NoDup (dict_keys effs).
Proof. intros H. rewrite (non_skipped_list _ _ H). apply dict_of_list_nodup. Qed.

(** the location of any model run is the sum of trend and effects *)
Lemma model_location c s p t td y data : (c_hier c = false -> p_has_exogenous p = true) ->
  NoDup (dict_keys (p_effects p)) -> ~ In "trend" (dict_keys (p_effects p)) ->
  forall e o tr, run e [] (model_call c s p t td y (Some data)) = Ok (o, tr) ->
  exists k tv vs mean, model_call c s p t td y (Some data) =
      pbind (compute_mean (trend_predict t td) (Some data) (Some (effect_fns (p_effects p)))) k /\
    additive_mean e (trend_predict t td) data (effect_fns (p_effects p)) tv vs mean.
Proof.
  intros HE ND NT e o tr H. destruct (model_call_shape _ _ _ _ _ _ _ _ _ _ _ HE H) as (k & E). rewrite E in H |- *.
  rewrite run_bind in H. destruct (run e [] (compute_mean _ _ _)) as [[mean tr1]|] eqn:R; [|discriminate].
  destruct (c36_mean _ _ _ _ _ _ _ R) as (tv & vs & A); [now rewrite effect_fns_fst|now rewrite effect_fns_fst|].
  exists k, tv, vs, mean. auto.
Qed.

(** * C41: with distinct names every listed effect with columns contributes *)
Lemma fitted_names effects main s X : Forall2 (fitted_from order s X) effects main -> map fe_name main = map l_name effects.
Proof. induction 1 as [|l f ls fs (E & _) F IH]; [reflexivity|]. simpl. now rewrite E, IH. Qed.

Lemma NoDup_app_r {A} (l1 l2 : list A) : NoDup (l1 ++ l2) -> NoDup l1.
Proof. induction l1; simpl; [constructor|]. inversion 1; subst. constructor; auto. intros I. apply H2. apply in_app_iff. auto. Qed.

Lemma NoDup_map_filter {A B} (g : A -> B) q l : NoDup (map g l) -> NoDup (map g (filter q l)).
Proof.
  induction l as [|x l IH]; simpl; [constructor|]. intros H. inversion H; subst. destruct (q x); simpl; auto. constructor; auto.
  intros I. apply in_map_iff in I. destruct I as (z & E & I). apply filter_In in I. apply H2. rewrite <- E. apply in_map. tauto.
Qed.

Lemma all_kept default effects (Xe : frame R) s fitted effs :
  fit_effects order default effects (Some Xe) s = Ok fitted -> non_skipped fitted = Ok effs ->
  NoDup (map l_name effects) -> ~ In default_name (map l_name effects) ->
  effs = map (fun f => (fe_name f, fe_effect f))
           (filter (fun f => match should_skip_predict (fe_effect f) with Ok true => false | _ => true end) fitted).
Proof.
  intros H1 H2 ND NN. rewrite (non_skipped_list _ _ H2). apply dict_of_list_NoDup. rewrite map_map. cbn [fst].
  apply (NoDup_map_filter fe_name). apply fit_effects_inv in H1. destruct H1 as (main & dflt & -> & F & D).
  apply fitted_names in F. rewrite map_app, F. destruct D as [[-> _]|(f & -> & E & _)]; simpl; [now rewrite app_nil_r|].
  rewrite E. apply NoDup_rev in ND. rewrite <- rev_involutive. apply NoDup_rev. rewrite rev_app_distr. simpl. constructor; [|exact ND].
  rewrite <- in_rev. exact NN.
Qed.

Lemma entry_kept default effects (Xe : frame R) s fitted effs l :
  fit_effects order default effects (Some Xe) s = Ok fitted -> non_skipped fitted = Ok effs -> f_rows Xe <> [] ->
  NoDup (map l_name effects) -> ~ In default_name (map l_name effects) ->
  In l effects -> participates Xe l ->
  exists f, fitted_from order s Xe l f /\ In (l_name l, fe_effect f) effs.
Proof.
  intros H1 H2 NR ND NN Hl K. rewrite (all_kept _ _ _ _ _ _ H1 H2 ND NN). apply fit_effects_inv in H1.
  destruct H1 as (main & dflt & -> & F & _). apply Forall2_In_both in F. destruct F as [F1 _]. destruct (F1 l Hl) as (f & I & Hf).
  exists f. split; [exact Hf|]. apply in_map_iff. exists f. split; [destruct Hf as (-> & _); reflexivity|]. apply filter_In.
  split; [apply in_app_iff; auto|]. pose proof (proj2 (fitted_skip _ _ _ _ _ Hf NR) K).
  destruct (should_skip_predict (fe_effect f)) as [[]|]; congruence.
Qed.

Lemma contributes_from c s p t td y data l (Xe : frame R) :
  (c_hier c = false -> p_has_exogenous p = true) ->
  fit_effects order (c_default c) (effects_of c) (Some Xe) (scale_number s) = Ok (p_fitted p) ->
  non_skipped (p_fitted p) = Ok (p_effects p) -> f_rows Xe <> [] ->
  NoDup (map l_name (effects_of c)) -> ~ In default_name (map l_name (effects_of c)) -> ~ In "trend" (map l_name (effects_of c)) ->
  In l (effects_of c) -> participates Xe l ->
  contributes order l Xe (scale_number s) (model_call c s p t td y (Some data)).
Proof.
  intros HE H1 H2 NR ND NN NT Hl K. destruct (entry_kept _ _ _ _ _ _ _ H1 H2 NR ND NN Hl K) as (f & Hf & I).
  exists f. split; [exact Hf|]. intros e o tr R.
  assert (NT' : ~ In "trend" (dict_keys (p_effects p))).
  { intros Q. apply (names_part _ _ _ _ _ _ _ H1 H2 NR) in Q. destruct Q as [(l' & Hl' & E & _)|(E & _)]; [|discriminate].
    apply NT. rewrite <- E. now apply in_map. }
  destruct (model_location _ _ _ _ _ _ _ HE (non_skipped_nodup _ _ H2) NT' _ _ _ R) as (k & tv & vs & mean & Em & A).
  destruct (effect_fns_nth _ _ _ I) as (i & Hi). pose proof A as (_ & _ & A3 & _). destruct (A3 _ _ _ Hi) as (d & v & _ & Hv & _).
  exists k, (trend_predict t td), data, (effect_fns (p_effects p)), tv, vs, mean, i, v. auto.
Qed.

Lemma c41_fit c ob s y X ob' p m : fit_data c ob s y X = (ob', Ok (p, m)) -> c_hier c = false -> f_rows y <> [] ->
  NoDup (map l_name (effects_of c)) -> ~ In default_name (map l_name (effects_of c)) -> ~ In "trend" (map l_name (effects_of c)) ->
  exists Xe, (o_transformer ob = None -> f_cols Xe = match X with None => [] | Some X => f_cols X end) /\
    forall l, In l (effects_of c) -> participates Xe l -> contributes order l Xe (scale_number s) m.
Proof.
  intros H Hc Ny ND NN NT. pose proof H as H0. apply effects_frame in H. destruct H as (Xe & H1 & H2 & H3 & H4 & _).
  apply fit_data_inv in H0. destruct H0 as (Xe' & td & ya & data & _ & _ & _ & _ & HE & ->). exists Xe. split; [auto|].
  intros l Hl K. apply contributes_from; auto.
Qed.

Lemma c41_predict c ob y X ob' f : fit_forecaster c ob y X = (ob', Ok f) -> c_hier c = false -> f_rows y <> [] ->
  NoDup (map l_name (effects_of c)) -> ~ In default_name (map l_name (effects_of c)) -> ~ In "trend" (map l_name (effects_of c)) ->
  exists Xe, (o_transformer ob = None -> f_cols Xe = match X with None => [] | Some X => f_cols X end) /\
    forall l, In l (effects_of c) -> participates Xe l ->
    forall ob2 y2 X2 fh m, predict_model c ob2 f y2 X2 fh = Ok m -> contributes order l Xe (scale_number (ft_scale f)) m.
Proof.
  intros H Hc Ny ND NN NT. pose proof (fit_prepared _ _ _ _ _ _ H) as [_ HE]. apply fit_forecaster_inv in H.
  destruct H as (s & ys & p & m0 & post & _ & SY & H & _ & ->).
  apply effects_frame in H. destruct H as (Xe & H1 & H2 & H3 & H4 & _).
  assert (Nys : f_rows ys <> []).
  { apply scale_y_index in SY. destruct SY as [SY _]. unfold index_of in SY. destruct (f_rows ys); [|discriminate].
    destruct (f_rows y); [congruence|discriminate]. }
  exists Xe. split; [auto|].
  intros l Hl K ob2 y2 X2 fh m Hm. apply predict_inv in Hm; [|exact HE]. destruct Hm as (Xp & td & times & data & _ & _ & ->).
  simpl ft_scale. simpl ft_prepared. apply contributes_from; auto.
Qed.

(** * C39 *)
Lemma column_free_participates X l : skip_if_no_match (l_effect l) = false -> participates X l.
Proof. now left. Qed.

Lemma c39_names c ob s y ob' p m : fit_data c ob s y None = (ob', Ok (p, m)) -> o_transformer ob = None ->
  c_hier c = false -> f_rows y <> [] ->
  p_has_exogenous p = true /\
  forall n, In n (dict_keys (p_effects p)) <-> exists l, In l (effects_of c) /\ l_name l = n /\ skip_if_no_match (l_effect l) = false.
Proof.
  intros H NT Hc Ny. split. { apply fit_data_inv in H. destruct H as (? & ? & ? & ? & _ & _ & _ & _ & HE & _). auto. }
  destruct (c24_univariate _ _ _ _ _ _ _ _ H Hc Ny) as (Xe & HX & HN). specialize (HX NT). simpl in HX. intros n. rewrite HN. split.
  - intros [(l & H1 & H2 & [H3|(col & H3 & _)])|(_ & col & H3 & _)]; [eauto| |]; rewrite HX in H3; contradiction.
  - intros (l & H1 & H2 & H3). left. exists l. repeat split; auto. now left.
Qed.

Lemma c39_hierarchical c ob s y X ob' p m : fit_data c ob s y X = (ob', Ok (p, m)) -> o_transformer ob = None ->
  c_hier c = true -> frame_wf y -> (exists r, In r (f_rows y) /\ no_total (r_path r) = true) -> X = None ->
  forall n, In n (dict_keys (p_effects p)) <-> exists l, In l (effects_of c) /\ l_name l = n /\ skip_if_no_match (l_effect l) = false.
Proof.
  intros H NT Hc W Ny ->. destruct (c24_hierarchical _ _ _ _ _ _ _ _ H Hc NT W Ny) as (Xe & HX & HN); [discriminate|].
  specialize (HX I). intros n. rewrite HN. split.
  - intros [(l & H1 & H2 & [H3|(col & H3 & _)])|(_ & col & H3 & _)]; [eauto| |]; rewrite HX in H3; contradiction.
  - intros (l & H1 & H2 & H3). left. exists l. repeat split; auto. now left.
Qed.

Lemma c39_contributes c ob y ob' f : fit_forecaster c ob y None = (ob', Ok f) -> o_transformer ob = None ->
  c_hier c = false -> f_rows y <> [] ->
  NoDup (map l_name (effects_of c)) -> ~ In default_name (map l_name (effects_of c)) -> ~ In "trend" (map l_name (effects_of c)) ->
  exists Xe, f_cols Xe = [] /\
    forall l, In l (effects_of c) -> skip_if_no_match (l_effect l) = false ->
    forall ob2 y2 X2 fh m, predict_model c ob2 f y2 X2 fh = Ok m -> contributes order l Xe (scale_number (ft_scale f)) m.
Proof.
  intros H NT Hc Ny ND NN NTr. destruct (c41_predict _ _ _ _ _ _ H Hc Ny ND NN NTr) as (Xe & HX & HC). exists Xe. split; [exact (HX NT)|].
  intros l Hl S. apply HC; [exact Hl|now left].
Qed.

End Forecaster.
