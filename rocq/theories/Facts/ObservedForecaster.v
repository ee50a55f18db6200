(** The observation model of fitted forecasters. *)
From Coq Require Import Reals Lra ZArith String Bool List Lia Permutation Sorted.
From Verif.Model Require Import Base Num XFloat Frame Arr Prog Likelihood Effect Expand Trend TrendProg Aggregate Scale Engine Forecaster.
From Verif.Spec Require Import FrameSpec ProgSpec ForecasterSpec SiteSpec ScaleSpec ShapeSpec AlignSpec OverlapSpec ResponseSpec ObservedSpec.
From Verif.Facts Require Import BaseFacts FrameFacts NumFacts OrderFacts ArrFacts ProgFacts ForecasterFacts ForecasterInv ForecasterProps ModelProps ScaleFacts HorizonFacts OverlapFrames OverlapForecaster SiteFacts ComponentFacts ResponseForecaster ResponseHierarchical ObservedFacts.
From Verif.Facts Require CompleteFacts MergeFacts ShapeFacts EffectFourier AlignFacts FrameProps CompleteFacts AlignForecaster OverlapModel EffectPredict.
Import ListNotations.
Local Open Scope string_scope.

(** * Scaled targets *)
Lemma scaled_row d s y ys k r x u : scale_y d s y = Ok ys -> unit_of d s (r_path r) u -> nth_error (f_rows y) k = Some r -> r_vals r = [x] ->
  nth_error (f_rows ys) k = Some (mkRow (r_path r) (r_time r) [(x / u)%R]).
Proof.
  intros H U K V. destruct d; cbn [unit_of] in U.
  - injection H as <-. rewrite K. f_equal. destruct r as [p t vs]. cbn in *. subst. repeat f_equal. field.
  - destruct (apply_scale_ok_inv _ _ _ _ H) as [(c & ->)|[(tab & -> & L & A)|(tab & ->)]]; [| |discriminate].
    + cbn in H, U. injection H as <-. injection U as <-. unfold map_vals. cbn [f_rows]. rewrite nth_error_map, K. cbn [option_map]. now rewrite V.
    + set (c := fun p => match tab_get tab p with Some c => c | None => 0%R end). unfold scale_y in H. rewrite (apply_scale_rows Rdiv (STable tab) y c) in H; [| | |right; eauto].
      * injection H as <-. unfold scale_rows. cbn [f_rows]. rewrite nth_error_map, K. cbn [option_map]. rewrite V. cbn [map]. unfold c. cbn in U. now rewrite U.
      * intros r0 Hr. cbn [scale_of]. specialize (A _ Hr). unfold c. destruct (tab_get tab (r_path r0)); congruence.
      * intros _ _. exact L.
Qed.

Lemma flat_nth (rows : list (row R)) k r x : (forall r, In r rows -> List.length (r_vals r) = 1) -> nth_error rows k = Some r -> r_vals r = [x] -> nth_error (flat_map r_vals rows) k = Some x.
Proof.
  revert k. induction rows as [|r0 rows IH]; intros k W H V; [destruct k; discriminate|]. assert (W0 : List.length (r_vals r0) = 1) by (apply W; now left).
  destruct (r_vals r0) as [|v [|]] eqn:E; try discriminate W0. cbn [flat_map]. rewrite E. cbn [app]. destruct k as [|k].
  - injection H as ->. cbn [nth_error]. congruence.
  - cbn [nth_error] in *. apply IH; [intros; apply W; now right|exact H|exact V].
Qed.

Lemma scale_y_one d s y ys : scale_y d s y = Ok ys -> one_column y -> one_column ys.
Proof.
  intros H [W C]. split; [now apply (CompleteFacts.scale_y_wf _ _ _ _ W H)|]. destruct d; [now injection H as <-|]. destruct s; cbn in H; try discriminate.
  - now injection H as <-.
  - inv_bind H. now injection H as <-.
  - inv_bind H. unfold by_column in H. repeat match type of H with (if ?b then _ else _) = _ => destruct b; try discriminate | bind _ _ = Ok _ => inv_bind H end; try (injection H as <-; exact C); try discriminate.
Qed.

(** * Panels *)
Lemma sorted_crossing (y : frame R) ids ts : NoDup ids -> NoDup ts -> sorted_labels (crossing ids ts) -> Permutation (labels y) (crossing ids ts) -> labels (sort_index y) = crossing ids ts.
Proof.
  intros NI NT S P. apply (key_sorted_unique (fun x : path * Z => x)); [auto| | |].
  - etransitivity; [|exact P]. unfold labels. apply Permutation_map. symmetry. apply ShapeFacts.sort_index_perm_rows.
  - clear. pose proof (key_sort_sorted label (f_rows y)) as H. unfold sort_index, labels. cbn [f_rows]. change (fun r : row R => (r_path r, r_time r)) with (@label R). induction H; cbn [map]; constructor; auto.
    intros z Hz. apply in_map_iff in Hz as (w & <- & Hw). auto.
  - clear -S. unfold sorted_labels in S. induction S as [|a l S IH F]; constructor; auto. intros z Hz. rewrite Forall_forall in F. auto.
Qed.

Section Forecaster.
Variable ns_of : Z -> Z.
Variable order : list string -> list string.
Variable keep : path -> bool.
Context {TS : Type}.
Variable tr_fit_transform : TS -> frame R -> TS * res (frame R).
Variable tr_transform : TS -> frame R -> res (frame R).
Context {P : Type}.
Variable svi_run : Z -> nat -> nat -> prog arr -> res (list xr * P).
Variable nuts_run : Z -> nat -> nat -> nat -> prog arr -> res (nat -> nat -> env).
Variable latent_sites : prog arr -> list string.
Notation fit_forecaster := (fit_forecaster ns_of order keep tr_fit_transform svi_run nuts_run latent_sites).
Notation fit_data := (fit_data ns_of order keep tr_fit_transform).
Notation predict_model := (predict_model ns_of keep tr_transform).

Theorem c105_training c ob y X ob' (f : fitted (P := P)) : fit_forecaster c ob y X = (ob', Ok f) -> clean_config c -> c_hier c = false -> f_levels y = 0 -> one_column y -> NoDup (map r_time (f_rows y)) ->
  (scalar_piecewise (o_trend ob') \/ flat_trend (o_trend ob') /\ o_transformer ob = None /\ match X with None => True | Some X => NoDup (labels X) end) ->
  exists ys m, scale_y (discrete c) (ft_scale f) y = Ok ys /\ fit_data c ob (ft_scale f) ys X = (ob', Ok (ft_prepared f, m)) /\ infer svi_run nuts_run latent_sites (engine_of c) m = Ok (ft_posterior f) /\
  forall e o tr, run e [] m = Ok (o, tr) -> noise_parameter e tr "noise_scale" (c_noise c) /\
  exists d v, dict_get tr "obs" = Some (SSample d v true) /\ a_shape v = [List.length (f_rows y); 1] /\
  forall k r x u, nth_error (f_rows y) k = Some r -> r_vals r = [x] -> unit_of (discrete c) (ft_scale f) (r_path r) u ->
    nth_error (a_flat v) k = Some (x / u)%R /\ exists s, level tr (map fst (p_effects (ft_prepared f))) k s /\ law (c_likelihood c) (scale_number (ft_scale f)) (e "noise_scale" 0%nat) d k s.
Proof.
  intros H CC Hc L OC N HT. destruct (forecaster_clean _ _ _ _ _ _ _ _ _ _ _ _ _ H CC) as (C1 & C2 & HX).
  assert (TK : trend_ok ns_of (o_trend ob')) by (eapply univariate_trend_ok; eauto; destruct HT as [HT|[HT _]]; auto).
  apply fit_forecaster_inv in H as (s & ys & p & m & post & _ & HS & HF & HI & ->). cbn [ft_scale ft_prepared ft_posterior] in *.
  exists ys, m. do 3 (split; [assumption|]). intros e o tr RU.
  destruct (scale_y_index _ _ _ _ HS) as [IX LX]. pose proof (scale_y_one _ _ _ _ HS OC) as OS.
  assert (TS0 : map r_time (f_rows ys) = map r_time (f_rows y)) by (unfold index_of in IX; apply (f_equal (map snd)) in IX; rewrite !map_map in IX; exact IX).
  assert (LR : List.length (f_rows ys) = List.length (f_rows y)) by (rewrite <- (map_length r_time), TS0; apply map_length).
  destruct (ShapeFacts.c74_univariate _ _ _ _ _ _ _ _ _ _ _ _ HF Hc ltac:(congruence) OS ltac:(rewrite TS0; exact N) HT e o tr RU) as (d0 & v0 & G0 & S0 & V0).
  unfold Forecaster.fit_data in HF. rewrite Hc in HF. apply univariate_fit_inv in HF. destruct HF as (t0 & t & yt & X1 & Xe & td & data & _ & _ & _ & _ & _ & E0 & TD & _ & _ & _ & _ & ->). subst t.
  destruct (uni_law c s p (o_trend ob') td _ data e o tr HX C1 C2 (fun tv Y => TK _ _ _ _ _ TD Y) RU Hc) as (tv & d & Yt & Gt & Wt & NP & GO & VS & LV).
  rewrite GO in G0. injection G0 as -> <-. rewrite V0 in VS. injection VS as VS. split; [exact NP|]. exists d0. eexists. split; [exact GO|]. split; [rewrite <- LR; exact S0|].
  intros k r x u K V U. cbn [site_value]. split.
  - cbn [reshape_col a_flat]. eapply flat_nth; [|exact (scaled_row _ _ _ _ _ _ _ _ HS U K V)|reflexivity]. intros r0 Hr. destruct OS as [W C0]. destruct (W r0 Hr) as [W1 _]. congruence.
  - apply LV. rewrite <- VS, LR. apply nth_error_Some. congruence.
Qed.

Theorem c105_forecast c ob y X ob' (f : fitted (P := P)) : fit_forecaster c ob y X = (ob', Ok f) -> clean_config c -> c_hier c = false -> f_levels y = 0 ->
  scalar_piecewise (o_trend ob') \/ flat_trend (o_trend ob') ->
  forall y2 X2 fh m cutoff ts Xt, predict_model c ob' f y2 X2 fh = Ok m -> max_time (map r_time (f_rows y2)) = Ok cutoff -> to_absolute cutoff fh = ts ->
  run_transform tr_transform ob' (supplied X2 ts) = Ok Xt -> covers Xt ts -> f_levels Xt = 0 ->
  forall e o tr, run e [] m = Ok (o, tr) -> noise_parameter e tr "noise_scale" (c_noise c) /\
  exists d, dict_get tr "obs" = Some (SSample d (mkArr [List.length ts; 1] (map (e "obs") (seq 0 (List.length ts)))) false) /\
  forall k, (k < List.length ts)%nat -> exists s, level tr (map fst (p_effects (ft_prepared f))) k s /\ law (c_likelihood c) (scale_number (ft_scale f)) (e "noise_scale" 0%nat) d k s.
Proof.
  intros H CC Hc L TT y2 X2 fh m cutoff ts Xt Hm Hcut Hts RX CV LV0 e o tr RU. destruct (forecaster_clean _ _ _ _ _ _ _ _ _ _ _ _ _ H CC) as (C1 & C2 & HX).
  destruct (predict_univariate _ _ _ _ _ _ _ _ _ _ _ _ Hm Hc (HX Hc) Hcut Hts) as (Xa & td & data & RX2 & TD & TE & ->).
  assert (XS : supplied X2 ts = match X2 with None => empty_frame 0 (map (fun t => ([], t)) ts) | Some X => X end) by (unfold supplied, empty_frame; destruct X2; [reflexivity|now rewrite map_map]). rewrite XS in RX. rewrite RX in RX2. injection RX2 as <-.
  pose proof (fun tv Y => univariate_trend_length ns_of order keep tr_fit_transform svi_run nuts_run latent_sites _ _ _ _ _ _ _ _ _ e tv H Hc L TT CV LV0 TD Y) as TL.
  destruct (uni_law c (ft_scale f) (ft_prepared f) (o_trend ob') td None data e o tr HX C1 C2 (fun tv Y => proj1 (TL tv Y)) RU Hc) as (tv & d & Yt & Gt & Wt & NP & GO & VS & LV).
  destruct (TL _ Yt) as [_ LT]. rewrite LT in *. split; [exact NP|]. exists d. split; [|exact LV]. cbn [site_value seen_as] in GO. rewrite GO. unfold prod_shape. cbn [fold_right]. now rewrite Nat.mul_1_r.
Qed.

Lemma panel_trend c ob y X ob' (f : fitted (P := P)) : fit_forecaster c ob y X = (ob', Ok f) -> c_hier c = true -> f_levels y <> 0 -> frame_wf y -> (forall r, In r (f_rows y) -> ~ In "__total" (r_path r)) -> scalar_piecewise (o_trend ob') ->
  forall Xe ts td e tv, trend_transform ns_of (o_trend ob') Xe ts = Ok td -> NoDup ts -> yields e (trend_predict (o_trend ob') td) tv ->
  arr_wf tv /\ (p_single (ft_prepared f) = false -> a_shape tv = [List.length (series_ids y); List.length ts; 1]) /\ (List.length (series_ids y) = 1 -> List.length (a_flat tv) = List.length ts).
Proof.
  intros H Hc L W NT SP Xe ts td e tv TD N Y. destruct (hierarchical_trend_shape _ _ _ _ _ _ _ _ _ _ _ _ _ H Hc L W NT SP) as (sq & TS0). destruct (TS0 _ _ _ _ _ TD Y) as [Wt St]. rewrite times_unique_id in St by exact N.
  destruct (hierarchical_index _ _ _ _ _ _ _ _ _ _ _ _ _ H Hc L W NT) as (PS & _ & _). split; [exact Wt|]. split.
  - intros Q. rewrite Q in PS. rewrite St. unfold CompleteFacts.trend_shape. now rewrite <- PS.
  - intros Q. rewrite Q in *. unfold arr_wf in Wt. rewrite Wt, St. unfold CompleteFacts.trend_shape, prod_shape. destruct sq; simpl; lia.
Qed.

Theorem c105_panel_forecast c ob y X ob' (f : fitted (P := P)) : fit_forecaster c ob y X = (ob', Ok f) -> clean_config c -> c_hier c = true -> f_levels y <> 0 -> frame_wf y ->
  (forall r, In r (f_rows y) -> ~ In "__total" (r_path r)) -> scalar_piecewise (o_trend ob') ->
  forall y2 X2 fh m cutoff ts, predict_model c ob' f y2 X2 fh = Ok m -> max_time (map snd (p_index (ft_prepared f))) = Ok cutoff -> to_absolute cutoff fh = ts -> in_order ts ->
  forall n e o tr, run e [] m = Ok (o, tr) -> List.length (series_ids y) = n ->
  (n = 1 -> noise_parameter e tr "std_observation" (c_noise c) /\
     exists d, dict_get tr "obs" = Some (SSample d (mkArr [List.length ts; 1] (map (e "obs") (seq 0 (List.length ts)))) false) /\
     forall j, (j < List.length ts)%nat -> exists s, level tr (map fst (p_effects (ft_prepared f))) j s /\ law "normal" 1 (e "std_observation" 0%nat) d j s) /\
  (n <> 1 -> noise_parameters e tr n (c_noise c) (c_concentration c) /\
     exists d sum, dict_get tr "obs" = Some (SSample d (mkArr [1; List.length ts; n] (map (e "obs") (seq 0 (List.length ts * n)))) false) /\
     (forall i j, (i < n)%nat -> (j < List.length ts)%nat -> level tr (map fst (p_effects (ft_prepared f))) (i * List.length ts + j) (sum i j)) /\ joint_law e d n (List.length ts) sum).
Proof.
  intros H CC Hc L W NT SP y2 X2 fh m cutoff ts Hm Hcut Hts OT n e o tr RU Hn. destruct (forecaster_clean _ _ _ _ _ _ _ _ _ _ _ _ _ H CC) as (C1 & C2 & HX).
  destruct (predict_transformed _ _ _ _ _ _ _ _ _ _ _ _ Hm Hc Hcut Hts) as (Xb & Xt & Xe & td & data & _ & _ & TD & _ & ->).
  pose proof (fun tv => panel_trend _ _ _ _ _ _ H Hc L W NT SP _ _ _ e tv TD (in_order_nodup _ OT)) as PT. rewrite Hn in PT.
  destruct (hierarchical_index _ _ _ _ _ _ _ _ _ _ _ _ _ H Hc L W NT) as (PS & _ & _). rewrite Hn in PS. split; intros Q.
  - subst n. rewrite Q in *. destruct (single_law c (ft_scale f) (ft_prepared f) (o_trend ob') td None data e o tr HX C1 C2 (fun tv Y => proj1 (PT tv Y)) RU Hc PS) as (tv & d & y' & Yt & Gt & Wt & -> & NP & GO & VS & LV).
    destruct (PT _ Yt) as (_ & _ & LT). rewrite (LT eq_refl) in *. split; [exact NP|]. exists d. split; [|exact LV]. rewrite GO. cbn [site_value seen_as]. unfold prod_shape. cbn [fold_right]. now rewrite Nat.mul_1_r.
  - apply Nat.eqb_neq in Q. rewrite Q in PS.
    destruct (joint_laws c (ft_scale f) (ft_prepared f) (o_trend ob') td None data e o tr HX C1 C2 (fun tv Y => proj1 (PT tv Y)) RU n (List.length ts) Hc PS (fun tv Y => proj1 (proj2 (PT tv Y)) PS)) as (tv & d & y' & sum & Yt & Gt & Wt & -> & NP & GO & LV & JL).
    split; [exact NP|]. exists d, sum. split; [|split; [exact LV|exact JL]]. rewrite GO. cbn [site_value seen_as]. assert (PR : prod_shape [1; List.length ts; n] = List.length ts * n) by (unfold prod_shape; cbn [fold_right]; lia). now rewrite PR.
Qed.
(** the observed numbers of a panel *)
Lemma panel_target d s y ys tensor ids ts : scale_y d s y = Ok ys -> one_column y -> f_levels y <> 0 -> rectangle y ids ts -> ids <> [] -> ts <> [] -> series_to_tensor (sort_index ys) = Ok tensor ->
  List.length (series_ids y) = List.length ids /\ time_ids y <> [] /\ List.length (time_ids y) = List.length ts /\
  a_shape (arr_of_data 1 (D3 tensor)) = [List.length ids; List.length ts; 1] /\
  forall p t i j r x u, nth_error ids i = Some p -> nth_error ts j = Some t -> In r (f_rows y) -> r_path r = p -> r_time r = t -> r_vals r = [x] -> unit_of d s p u ->
    nth_error (a_flat (arr_of_data 1 (D3 tensor))) (i * List.length ts + j) = Some (x / u)%R.
Proof.
  intros HS OC L (NI & OT & SL & PL) NE NT HT. pose proof (in_order_nodup _ OT) as NTS. pose proof (scale_y_one _ _ _ _ HS OC) as OS. destruct (scale_y_index _ _ _ _ HS) as [IX LX].
  assert (LB : labels ys = labels y) by exact IX.
  pose proof (sorted_crossing ys ids ts NI NTS SL ltac:(now rewrite LB)) as LS. pose proof (nodup_pairs ids ts NI NTS) as NC.
  assert (RW : forall r, In r (f_rows (sort_index ys)) -> List.length (r_vals r) = 1).
  { intros r Hr. destruct OS as [W C0]. destruct (W r) as [W1 _]; [|congruence]. eapply Permutation_in; [symmetry; apply ShapeFacts.sort_index_perm_rows|exact Hr]. }
  assert (MP : forall q, In q (map r_path (f_rows y)) <-> In q ids).
  { intros q. assert (E : map r_path (f_rows y) = map fst (labels y)) by (unfold labels; now rewrite map_map). rewrite E. split; intros Q.
    - eapply Permutation_in in Q; [|apply Permutation_map, PL]. apply in_map_iff in Q as ([a b] & <- & Q). unfold crossing in Q. apply in_flat_map in Q as (a' & I & Q). apply in_map_iff in Q as (b' & [= <- <-] & _). exact I.
    - eapply Permutation_in; [apply Permutation_map; symmetry; exact PL|]. destruct ts as [|t ts]; [congruence|]. apply in_map_iff. exists (q, t). split; [reflexivity|]. unfold crossing. apply in_flat_map. exists q. split; [exact Q|]. now left. }
  assert (MT : forall q, In q (map r_time (f_rows y)) <-> In q ts).
  { intros q. assert (E : map r_time (f_rows y) = map snd (labels y)) by (unfold labels; now rewrite map_map). rewrite E. split; intros Q.
    - eapply Permutation_in in Q; [|apply Permutation_map, PL]. apply in_map_iff in Q as ([a b] & <- & Q). unfold crossing in Q. apply in_flat_map in Q as (a' & I & Q). apply in_map_iff in Q as (b' & [= <- <-] & I'). exact I'.
    - eapply Permutation_in; [apply Permutation_map; symmetry; exact PL|]. destruct ids as [|a ids]; [congruence|]. apply in_map_iff. exists (a, q). split; [reflexivity|]. unfold crossing. apply in_flat_map. exists a. split; [now left|]. now apply in_map. }
  assert (LI : List.length (series_ids y) = List.length ids) by (apply CompleteFacts.NoDup_same_length; [apply paths_unique_NoDup|exact NI|]; intros q; unfold series_ids; rewrite paths_unique_In; apply MP).
  assert (LT : List.length (time_ids y) = List.length ts) by (apply CompleteFacts.NoDup_same_length; [apply times_unique_NoDup|exact NTS|]; intros q; unfold time_ids; rewrite times_unique_In; apply MT).
  split; [exact LI|]. split; [intros E; rewrite E in LT; destruct ts; [congruence|discriminate]|]. split; [exact LT|].
  assert (PE : map r_path (f_rows ys) = map r_path (f_rows y)) by (unfold index_of in IX; apply (f_equal (map fst)) in IX; rewrite !map_map in IX; exact IX).
  assert (RY : f_rows (sort_index ys) <> []).
  { intros E. unfold labels in LS. rewrite E in LS. cbn [map] in LS. destruct ids as [|a ids]; [congruence|]. destruct ts; [congruence|discriminate]. }
  assert (LYS : f_levels (sort_index ys) <> 0) by (change (f_levels ys <> 0); congruence).
  assert (FL : a_flat (arr_of_data 1 (D3 tensor)) = flat_map r_vals (f_rows (sort_index ys))).
  { apply AlignForecaster.target_rows; [exact LYS| |exact HT]. unfold sorted_index. rewrite LS. exact SL. }
  split.
  - destruct (ShapeFacts.tensor_shape _ _ HT LYS RY) as (len & HL & Sy). rewrite Sy, ShapeFacts.sort_index_ids.
    assert (E1 : series_ids ys = series_ids y) by (unfold series_ids; now rewrite PE). rewrite E1, LI. repeat f_equal.
    assert (WF : arr_wf (arr_of_data 1 (D3 tensor))).
    { unfold arr_wf. rewrite FL, Sy. rewrite ShapeFacts.column_values by exact RW. rewrite ShapeFacts.sort_index_ids, E1, LI. unfold prod_shape. cbn [fold_right].
      transitivity (List.length (series_ids (sort_index ys)) * len); [|rewrite ShapeFacts.sort_index_ids, E1, LI; lia].
      assert (OR : EffectFourier.ordered_rows (sort_index ys) = f_rows (sort_index ys)) by (apply AlignFacts.ordered_sorted; unfold sorted_index; rewrite LS; exact SL).
      rewrite <- OR. unfold EffectFourier.ordered_rows. change (f_levels (sort_index ys)) with (f_levels ys). destruct (f_levels ys); [congruence|].
      rewrite flat_map_concat_map, (EffectFourier.concat_length_uniform len); [now rewrite map_length|]. intros l0 Hl. apply in_map_iff in Hl as (q & <- & Hq). now apply HL. }
    unfold arr_wf in WF. rewrite FL, Sy, ShapeFacts.column_values in WF by exact RW. rewrite ShapeFacts.sort_index_ids, E1, LI in WF. unfold prod_shape in WF. cbn [fold_right] in WF.
    assert (LC : List.length (f_rows (sort_index ys)) = List.length ids * List.length ts) by (rewrite <- (length_pairs ids ts); change (flat_map (fun p => map (fun t => (p, t)) ts) ids) with (crossing ids ts); rewrite <- LS; unfold labels; now rewrite map_length).
    rewrite LC in WF. destruct ids; [congruence|]. cbn [List.length] in WF. apply (Nat.mul_cancel_l len (List.length ts) (S (List.length ids))); lia.
  - intros p t i j r x u Hi Hj Hr EP ET V U. subst p t. rewrite FL. pose proof (nth_pairs ids ts i j _ _ Hi Hj) as NP. change (flat_map (fun p => map (fun t => (p, t)) ts) ids) with (crossing ids ts) in NP. rewrite <- LS in NP.
    unfold labels in NP. rewrite nth_error_map in NP. destruct (nth_error (f_rows (sort_index ys)) (i * List.length ts + j)) as [r'|] eqn:E; [|discriminate]. cbn [option_map] in NP. injection NP as E1 E2.
    apply In_nth_error in Hr as (k & Hk). pose proof (nth_error_In _ _ (scaled_row _ _ _ _ _ _ _ _ HS U Hk V)) as I1.
    assert (I2 : In r' (f_rows ys)) by (eapply Permutation_in; [symmetry; apply ShapeFacts.sort_index_perm_rows|eapply nth_error_In; exact E]).
    assert (ER : r' = mkRow (r_path r) (r_time r) [(x / u)%R]).
    { apply (MergeFacts.NoDup_labels_inj (f_rows ys)); [|exact I2|exact I1|unfold label; cbn [r_path r_time]; congruence]. change (NoDup (labels ys)). rewrite LB. eapply Permutation_NoDup; [symmetry; exact PL|exact NC]. }
    eapply flat_nth; [exact RW|exact E|]. now rewrite ER.
Qed.

Theorem c105_panel_training c ob y X ob' (f : fitted (P := P)) : fit_forecaster c ob y X = (ob', Ok f) -> clean_config c -> c_hier c = true -> f_levels y <> 0 -> one_column y ->
  (forall r, In r (f_rows y) -> ~ In "__total" (r_path r)) -> scalar_piecewise (o_trend ob') ->
  forall ids ts, rectangle y ids ts -> ids <> [] -> ts <> [] ->
  exists ys m, scale_y (discrete c) (ft_scale f) y = Ok ys /\ fit_data c ob (ft_scale f) ys X = (ob', Ok (ft_prepared f, m)) /\ infer svi_run nuts_run latent_sites (engine_of c) m = Ok (ft_posterior f) /\
  forall n e o tr, run e [] m = Ok (o, tr) -> List.length ids = n ->
  exists d v, dict_get tr "obs" = Some (SSample d v true) /\ a_shape v = [List.length ts; n] /\
  (forall p t i j r x u, nth_error ids i = Some p -> nth_error ts j = Some t -> In r (f_rows y) -> r_path r = p -> r_time r = t -> r_vals r = [x] -> unit_of (discrete c) (ft_scale f) p u ->
     nth_error (a_flat v) (j * n + i) = Some (x / u)%R) /\
  (n = 1 -> noise_parameter e tr "std_observation" (c_noise c) /\
     forall j, (j < List.length ts)%nat -> exists s, level tr (map fst (p_effects (ft_prepared f))) j s /\ law "normal" 1 (e "std_observation" 0%nat) d j s) /\
  (n <> 1 -> noise_parameters e tr n (c_noise c) (c_concentration c) /\
     exists sum, (forall i j, (i < n)%nat -> (j < List.length ts)%nat -> level tr (map fst (p_effects (ft_prepared f))) (i * List.length ts + j) (sum i j)) /\ joint_law e d n (List.length ts) sum).
Proof.
  intros H CC Hc L OC NT SP ids ts RE NI NTS. destruct (forecaster_clean _ _ _ _ _ _ _ _ _ _ _ _ _ H CC) as (C1 & C2 & HX). pose proof (proj1 OC) as W.
  pose proof (panel_trend _ _ _ _ _ _ H Hc L W NT SP) as PT. destruct (hierarchical_index _ _ _ _ _ _ _ _ _ _ _ _ _ H Hc L W NT) as (PS & _ & _).
  apply fit_forecaster_inv in H as (s & ys & p & m & post & _ & HS & HF & HI & ->). cbn [ft_scale ft_prepared ft_posterior] in *.
  exists ys, m. do 3 (split; [assumption|]). intros n e o tr RU Hn. pose proof (CompleteFacts.scale_y_wf _ _ _ _ W HS) as WS. destruct (scale_y_index _ _ _ _ HS) as [IX LX].
  assert (PE : map r_path (f_rows ys) = map r_path (f_rows y)) by (unfold index_of in IX; apply (f_equal (map fst)) in IX; rewrite !map_map in IX; exact IX).
  assert (TE : time_ids ys = time_ids y) by (unfold time_ids; unfold index_of in IX; apply (f_equal (map snd)) in IX; rewrite !map_map in IX; cbn [snd] in IX; change (fun x : row R => r_time x) with (@r_time R) in IX; now rewrite IX).
  assert (NTY : forall r, In r (f_rows ys) -> ~ In "__total" (r_path r)).
  { intros r Hr. assert (I : In (r_path r) (map r_path (f_rows y))) by (rewrite <- PE; now apply in_map). apply in_map_iff in I as (r0 & <- & I). now apply NT. }
  destruct (ShapeFacts.hierarchical_setup _ _ _ _ _ _ _ _ _ _ _ _ HF Hc ltac:(congruence) WS NTY) as (tensor & X2 & t0 & td & data & Ht & _ & TD & _ & _ & ->). rewrite TE in TD.
  destruct (panel_target _ _ _ _ _ _ _ HS OC L RE NI NTS Ht) as (LI & _ & LT & SA & VA).
  assert (NY : NoDup (time_ids y)) by apply times_unique_NoDup. pose proof (fun tv => PT _ _ _ e tv TD NY) as PT'. clear PT. rewrite LI, LT, Hn in *.
  set (ya := arr_of_data 1 (D3 tensor)) in *.
  assert (SQ : squeeze_last ya = Ok (mkArr [n; List.length ts] (a_flat ya))) by (unfold squeeze_last; rewrite SA; reflexivity).
  assert (RU' : run e [] (model_call c s p (o_trend ob') td (Some ya) (Some data)) = Ok (o, tr)) by (unfold model_call; rewrite Hc; exact RU).
  assert (OBS : forall p t i j r x u, nth_error ids i = Some p -> nth_error ts j = Some t -> In r (f_rows y) -> r_path r = p -> r_time r = t -> r_vals r = [x] -> unit_of (discrete c) s p u ->
     nth_error (a_flat (transpose (mkArr [n; List.length ts] (a_flat ya)))) (j * n + i) = Some (x / u)%R).
  { intros q t i j r x u Hi Hj Hr E1 E2 V U. assert (Z0 : prod_shape [n; List.length ts; 1] = n * List.length ts) by (unfold prod_shape; cbn [fold_right]; lia).
    apply (OverlapModel.transpose_nth n ts ts [n; List.length ts; 1] [n; List.length ts; 1] Z0 Z0 ltac:(discriminate) ltac:(discriminate) _ (List.length ts)); [reflexivity| | |].
    - rewrite <- Hn. apply nth_error_Some. congruence.
    - apply nth_error_Some. congruence.
    - cbn [a_flat]. eapply VA; eassumption. }
  destruct (Nat.eq_dec n 1) as [Q|Q].
  - assert (PS1 : p_single p = true) by (rewrite PS, Q; reflexivity).
    destruct (single_law c s p (o_trend ob') td (Some ya) data e o tr HX C1 C2 (fun tv Y => proj1 (PT' tv Y)) RU' Hc PS1) as (tv & d & y' & Yt & Gt & Wt & (q & Eq & ->) & NP & GO & VS & LV).
    rewrite SQ in Eq. injection Eq as <-. exists d. eexists. split; [exact GO|]. split; [reflexivity|]. split; [exact OBS|]. split; [|congruence]. intros _. split; [exact NP|]. destruct (PT' _ Yt) as (_ & _ & LT0). rewrite (LT0 Q) in LV. exact LV.
  - assert (PS1 : p_single p = false) by (rewrite PS; now apply Nat.eqb_neq).
    destruct (joint_laws c s p (o_trend ob') td (Some ya) data e o tr HX C1 C2 (fun tv Y => proj1 (PT' tv Y)) RU' n (List.length ts) Hc PS1 (fun tv Y => proj1 (proj2 (PT' tv Y)) PS1)) as (tv & d & y' & sum & Yt & Gt & Wt & (q & Eq & ->) & NP & GO & LV & JL).
    rewrite SQ in Eq. injection Eq as <-. exists d. eexists. split; [exact GO|]. split; [reflexivity|]. split; [exact OBS|]. split; [congruence|]. intros _. split; [exact NP|]. exists sum. split; [exact LV|exact JL].
Qed.
End Forecaster.
