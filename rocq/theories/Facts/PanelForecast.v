(** Well-posed panels can be fitted and forecast. *)
From Coq Require Import Reals Lra String Bool ZArith List Sorted Permutation Lia.
From Verif.Model Require Import Base Num XFloat Regex Frame Arr Expand Aggregate Scale Prog Likelihood Effect Trend TrendProg Engine Predict Forecaster.
From Verif.Spec Require Import FrameSpec ScaleSpec TrendSpec ProgSpec EffectSpec ForecasterSpec AlignSpec SiteSpec ShapeSpec LineSpec TotalSpec PanelSpec.
From Verif.Facts Require Import PredictProps BaseFacts NumFacts OrderFacts FrameFacts FrameProps ArrFacts ProgFacts MeanFacts LikelihoodFacts ScaleFacts ExpandFacts EffectFacts EffectFourier EffectPredict
  TimeFacts TrendFacts AlignFacts PredictFacts ForecasterFacts ForecasterInv ForecasterProps ForecasterTransformer CompleteFacts ShapeFacts SiteFacts AlignForecaster AlikeFacts HistoryTimes
  TotalFacts TotalTrend LineFacts TotalFit TotalForecast PanelGrid PanelEffects PanelTrend PanelBottom PanelScale PanelFit.
Import ListNotations.
Local Open Scope string_scope.

(** the drawn observations have one entry for each date and series *)
Lemma hier_drawn c s p t td data e o tr n T : c_hier c = true -> p_single p = false ->
  (forall v, yields e (trend_predict t td) v -> arr_wf v /\ a_shape v = [n; T; 1]) ->
  run e [] (model_call c s p t td None (Some data)) = Ok (o, tr) ->
  exists d v, dict_get tr "obs" = Some (SSample d v false) /\ a_shape v = [1; T; n] /\ List.length (a_flat v) = T * n.
Proof.
  intros Hc Hs HT. unfold model_call. rewrite Hc, Hs. unfold multivariate_model. rewrite run_bind. intros H. destruct (run e [] (compute_mean _ _ _)) as [[m tr1]|] eqn:E; [|discriminate]. cbn [bind] in H.
  apply mean_shape in E as (tv & Y & E). destruct (HT tv Y) as [W ET]. destruct (E W) as [Sm Wm]. rewrite ET in Sm.
  cbn [pbind] in H. unfold shape_at in H. rewrite Sm in H. cbn [nth_error lift_res pbind] in H. unfold squeeze_last in H. rewrite Sm in H. cbn [rev app lift_res pbind] in H.
  unfold sample, plate, observe in H. cbn [pbind run] in H.
  destruct (record tr1 "std_observation" _) as [t3|]; cbn [bind] in H; [|discriminate].
  destruct (record t3 "corr_matrix" _) as [t4|]; cbn [bind] in H; [|discriminate].
  destruct (matmul _ (site_value e "corr_matrix" _ _)) as [half|]; cbn [lift_res pbind run] in H; [|discriminate].
  destruct (matmul half _) as [cov|]; cbn [lift_res pbind run] in H; [|discriminate].
  destruct (record t4 "time" _) as [t5|]; cbn [bind] in H; [|discriminate].
  destruct (record t5 "obs" _) as [t6|] eqn:E6; cbn [bind] in H; [|discriminate]. injection H as <- <-.
  apply record_get in E6. eexists _, _. split; [exact E6|]. unfold site_value. cbn [a_shape a_flat]. unfold transpose, tabulate. cbn [a_shape rev app]. split; [reflexivity|].
  rewrite map_length, seq_length. unfold prod_shape. cbn [fold_right]. lia.
Qed.

(** * Data for the horizon *)
Definition future_frame (keep : path -> bool) (y : frame R) (times : list Z) (X : option (frame R)) : frame R :=
  match X with
  | None => aggregate keep (empty_frame (f_levels y) (map fst (reindex_time_series y times)))
  | Some X => if no_columns X then aggregate keep (empty_frame (f_levels y) (map fst (reindex_time_series y times))) else X
  end.

(** the series of a product of index levels which have no totals *)
Lemma stripped_product ids times y horizon : panel ids times y -> target_totals ids times y -> (forall p, In p ids -> ~ total_path p) -> times <> [] ->
  full_crossing (strip y) -> forall p t, In (p, t) (reindex_labels y horizon) /\ ~ In "__total" p <-> In p ids /\ In t horizon.
Proof.
  intros PY TT NI Et FC p t. pose proof (strip_grid ids times y PY TT NI) as G. pose proof PY as (W & L & _ & _). rewrite (reindex_labels_In y horizon p t L), (product_levels_In y p). split.
  - intros [[[LP H] Ht] NT]. split; [|exact Ht]. destruct (FC p LP) as (r & Hr & E).
    + intros i Hi. cbn [strip filter_rows f_levels] in Hi. destruct (H i Hi) as (r & Hr & E). destruct (in_dec string_dec "__total" (r_path r)) as [T|T]; [|exists r; split; [now apply strip_In|exact E]].
      destruct (TT r Hr T) as [(q & Hq & k & Hk & Eq) _]. apply (grid_ids ids times _ G Et) in Hq. apply series_ids_In in Hq as (r0 & H0 & E0). exists r0. split; [exact H0|]. rewrite <- E, Eq, E0.
      destruct (Nat.lt_ge_cases i k) as [Lt|Ge].
      * rewrite app_nth1 by (rewrite firstn_length; lia). symmetry. clear -Lt. revert i k Lt. induction q as [|x q IH]; intros [|i] [|k] Lt; cbn; try lia; try reflexivity. apply IH. lia.
      * exfalso. apply NT. rewrite Eq in E. rewrite app_nth2 in E by (rewrite firstn_length; lia). rewrite firstn_length in E. assert (LQ : List.length q = f_levels y) by (rewrite <- E0; apply strip_In in H0 as [H0 _]; apply (W r0 H0)).
        assert (ER : forall n m, m < n -> nth m (repeat "__total" n) "" = "__total") by (clear; induction n as [|n IH]; intros [|m] Hm; cbn; try lia; auto; apply IH; lia).
        rewrite ER in E by lia. rewrite E. apply nth_In. lia.
    + rewrite <- E. apply (grid_row ids times _ G r Hr).
  - intros [Hp Ht]. pose proof Hp as Hp'. apply (grid_ids ids times _ G Et) in Hp. apply series_ids_In in Hp as (r & Hr & <-). apply strip_In in Hr as [Hr T]. split; [|exact T]. split; [|exact Ht]. split; [apply (W r Hr)|]. intros i _. exists r. auto.
Qed.

Lemma future_panel keep ids times cols y horizon X : panel ids times y -> target_totals ids times y -> (forall p, In p ids -> ~ total_path p) -> NoDup ids -> ids <> [] -> times <> [] ->
  NoDup horizon -> horizon <> [] -> panel_future ids cols y horizon X ->
  exists times2, panel ids times2 (future_frame keep y horizon X) /\ (forall t, In t horizon -> In t times2) /\ forall c, In c cols -> In c (f_cols (future_frame keep y horizon X)).
Proof.
  intros PY TT NI Ni Ei Et NH EH P. pose proof (strip_grid ids times y PY TT NI) as G. pose proof PY as (W & L & _ & _).
  assert (NONE : full_crossing (without_totals y) -> panel ids horizon (aggregate keep (empty_frame (f_levels y) (map fst (reindex_time_series y horizon))))).
  { intros FC. rewrite without_strip in FC. pose proof (stripped_product ids times y horizon PY TT NI Et FC) as II. fold (reindex_labels y horizon). set (index := reindex_labels y horizon) in *.
    assert (LP : forall pt, In pt index -> List.length (fst pt) = f_levels y).
    { intros [p t] H. apply (reindex_labels_In y horizon p t L) in H as [H _]. apply (product_levels_In y p) in H. apply H. }
    set (E := empty_frame (f_levels y) index). assert (WE : frame_wf E) by now apply empty_wf. assert (LE : f_levels E <> 0) by exact L.
    assert (NE : NoDup (labels E)) by (unfold E; rewrite empty_labels; now apply reindex_NoDup).
    assert (GE : grid ids horizon (strip E)).
    { split; [now apply filter_rows_wf|]. split; [exact L|]. split; [now apply NoDup_labels_filter|]. intros p t. rewrite <- II. assert (QL : In (p, t) index <-> In (p, t) (labels E)) by (unfold E; now rewrite empty_labels). rewrite QL. unfold labels. rewrite !in_map_iff. split.
      - intros (r & [= E1 E2] & Hr). apply strip_In in Hr as [Hr T]. rewrite E1 in T. split; [exists r; rewrite E1, E2; auto|exact T].
      - intros [(r & [= E1 E2] & Hr) T]. exists r. rewrite E1, E2. split; [reflexivity|]. apply strip_In. rewrite E1. auto. }
    rewrite <- (aggregate_strip keep E LE). apply aggregate_panel; auto. intros r Hr. now apply strip_no_totals in Hr. }
  unfold panel_future, given, future_frame in *. destruct X as [X|]; [destruct (no_columns X)|].
  - destruct P as [-> FC]. exists horizon. split; [now apply NONE|]. split; [auto|]. intros c [].
  - destruct P as [(times2 & P & I2) C]. eauto.
  - destruct P as [-> FC]. exists horizon. split; [now apply NONE|]. split; [auto|]. intros c [].
Qed.

Lemma grid_product ids times : NoDup ids -> NoDup times -> NoDup (product_index ids times).
Proof.
  intros Ni Nt. unfold product_index. induction Ni as [|p ids H Ni IH]; [constructor|]. cbn [flat_map]. apply NoDup_app_disjoint; [|exact IH|].
  - apply FinFun.Injective_map_NoDup; [|exact Nt]. intros a b [= E]. exact E.
  - intros x I J. apply in_map_iff in I as (t & <- & _). apply in_flat_map in J as (q & Hq & J). apply in_map_iff in J as (t' & [= -> _] & _). contradiction.
Qed.

Lemma combine_labels {A} (l : list (path * Z)) : forall rs : list A, List.length rs = List.length l ->
  map (fun lr : path * Z * A => (fst (fst lr), snd (fst lr))) (combine l rs) = l.
Proof. induction l as [|[q t] l IH]; intros [|r rs] E; try discriminate; [reflexivity|]. cbn. f_equal. apply IH. now injection E. Qed.

Section Forecast.
Variable ns_of : Z -> Z.
Variable order : list string -> list string.
Hypothesis Order : forall l, Permutation (order l) l.
Variable keep : path -> bool.
Context {TS P : Type}.
Variable tr_fit_transform : TS -> frame R -> TS * res (frame R).
Variable tr_transform : TS -> frame R -> res (frame R).
Variable svi_run : Z -> nat -> nat -> prog arr -> res (list xr * P).
Variable nuts_run : Z -> nat -> nat -> nat -> prog arr -> res (nat -> nat -> env).
Variable latent_sites : prog arr -> list string.
Variable guide_draw : P -> Z -> nat -> prog arr -> env.
Variable complete_draw : env -> Z -> nat -> prog arr -> env.
Notation fit_forecaster := (fit_forecaster ns_of order keep tr_fit_transform svi_run nuts_run latent_sites).
Notation forecast_point := (forecast_point ns_of keep tr_transform guide_draw complete_draw).
Notation forecast_quantiles := (forecast_quantiles ns_of keep tr_transform guide_draw complete_draw).
Notation forecast_samples := (forecast_samples ns_of keep tr_transform guide_draw complete_draw).

Theorem fit_panel_total c (ob : objects (TS := TS)) ids times y X : well_posed_panel ns_of c ids times y X -> clean_config c -> o_transformer ob = None ->
  exists ob' tab p m cols, fit_forecaster c ob y X = (ob', post <- infer svi_run nuts_run latent_sites (engine_of c) m ;; Ok (mkFitted (STable tab) p post)) /\
    (forall env, exists o tr, run env [] m = Ok (o, tr)) /\ o_transformer ob' = None /\ tab_covers tab ids /\
    panel_ready ids (used_cols X) cols (o_trend ob') p /\ p_index p = index_of (aggregate keep (divided_panel tab y)).
Proof.
  intros W CL HT. destruct (pp_ids _ _ _ _ _ _ W) as (Ni & Two & NTI). destruct (pp_times _ _ _ _ _ _ W) as (St & TwoT). destruct (pp_target _ _ _ _ _ _ W) as (PY & C1 & NTY).
  pose proof (ids_nonempty ids Two) as Ei. pose proof (times_nonempty times TwoT) as Et. pose proof (strip_grid ids times y PY NTY NTI) as G.
  destruct (panel_scale y (proj1 PY) (proj1 (proj2 PY)) C1) as (tab & Es & TCy).
  assert (TC : tab_covers tab ids).
  { intros q Hq. apply TCy. destruct (nonempty_In _ Et) as (t & Ht). destruct (grid_label ids times _ G q t Hq Ht) as (r & Hr & E & _). apply strip_In in Hr as [Hr _]. apply series_ids_In. eauto. }
  destruct (fit_data_panel ns_of order Order keep tr_fit_transform c ob ids times y X tab W CL HT TC) as (ob' & p & m & cols & F & H1 & H2 & H3 & H4).
  exists ob', tab, p, m, cols. unfold Forecaster.fit_forecaster. rewrite (pp_scale _ _ _ _ _ _ W), Es. cbn [bind]. unfold discrete. rewrite (pp_class _ _ _ _ _ _ W).
  unfold scale_y. rewrite (obs_scale_total Rdiv y tab (proj1 (proj2 PY)) TCy). cbn [bind]. fold (divide_row tab). change (mkFrame (f_levels y) (f_cols y) (map (divide_row tab) (f_rows y))) with (divided_panel tab y).
  rewrite F. cbn [bind]. auto 10.
Qed.

Theorem forecast_panel_total c (ob0 ob : objects (TS := TS)) ids times y X f X2 fh cutoff : well_posed_panel ns_of c ids times y X -> clean_config c -> o_transformer ob0 = None ->
  fit_forecaster c ob0 y X = (ob, Ok f) ->
  max_time times = Ok cutoff -> NoDup (to_absolute cutoff fh) -> to_absolute cutoff fh <> [] ->
  panel_future ids (used_cols X) y (to_absolute cutoff fh) X2 ->
  ~ In "obs" (latent_of (ft_posterior f)) ->
  (forall m, draws guide_draw complete_draw (engine_of c) (ft_posterior f) m <> []) ->
  exists f' F, forecast_samples c ob f y X2 fh = (f', Ok F) /\ full_panel keep ids (to_absolute cutoff fh) F.
Proof.
  intros W CL HT EF EC NH EH HX2 LO DR. destruct (pp_ids _ _ _ _ _ _ W) as (Ni & Two & NTI). destruct (pp_times _ _ _ _ _ _ W) as (St & TwoT). destruct (pp_target _ _ _ _ _ _ W) as (PY & C1 & NTY).
  pose proof (ids_nonempty ids Two) as Ei. pose proof (times_nonempty times TwoT) as Et. pose proof (strip_grid ids times y PY NTY NTI) as G.
  destruct (fit_panel_total c ob0 ids times y X W CL HT) as (ob' & tab & p & m0 & cols & EF' & _ & T0 & TC & RP & EI).
  rewrite EF in EF'. injection EF' as <- EP. symmetry in EP. destruct (infer _ _ _ _ _) as [post|] eqn:EPo; [|discriminate]. cbn [bind] in EP. injection EP as <-.
  cbn [ft_posterior] in *. set (hz := to_absolute cutoff fh) in *. set (f := mkFitted (STable tab) p post) in *.
  pose proof (divided_grid ids times tab _ G) as GS.
  assert (EYF : aggregate keep (divided_panel tab y) = aggregate keep (divided_panel tab (strip y))) by (rewrite <- divided_strip; symmetry; apply aggregate_strip; exact (proj1 (proj2 PY))).
  rewrite EYF in EI. set (ys := divided_panel tab (strip y)) in *.
  assert (NTS : forall r, In r (f_rows ys) -> ~ In "__total" (r_path r)) by (intros r Hr; unfold ys, divided_panel in Hr; cbn [f_rows] in Hr; apply in_map_iff in Hr as (r0 & <- & Hr); exact (strip_no_totals y r0 Hr)).
  pose proof (aggregate_panel keep ids times ys GS Ei Et NTS) as PA.
  (* the cutoff *)
  pose proof (target_times ids times y PY NTY NTI Ei) as TY.
  assert (CY : max_time (map r_time (f_rows y)) = Ok cutoff) by (rewrite <- EC; apply max_time_set; exact TY).
  assert (CI : max_time (map snd (p_index p)) = Ok cutoff).
  { rewrite <- EC. apply max_time_set. intros t. rewrite EI, <- index_times, aggregate_times. split.
    - intros (b & Hb & _ & <-). now apply (grid_row ids times ys GS).
    - intros Ht. destruct (nonempty_In _ Ei) as (q & Hq). destruct (grid_label ids times ys GS q t Hq Ht) as (r & Hr & _ & E). exists r. split; [exact Hr|]. split; [|exact E]. right. unfold no_total. apply negb_true_iff, str_in_false. now apply NTS. }
  (* the exogenous data *)
  destruct (future_panel keep ids times (used_cols X) y hz X2 PY NTY NTI Ni Ei Et NH EH HX2) as (times2 & PX & IX & CX). set (X0 := future_frame keep y hz X2) in *.
  assert (Et2 : times2 <> []) by (destruct (nonempty_In _ EH) as (t & Ht); apply IX in Ht; destruct times2; [contradiction|discriminate]).
  destruct (panel_bottom ids times2 X0 PX NTI Ei Et2) as (Xb & EXb & GXb & CXb).
  assert (HEX : exists Xe ex, (if p_has_exogenous p then
           if forallb (fun t => existsb (Z.eqb t) (map r_time (f_rows Xb))) hz then
             Xb <- run_transform tr_transform ob Xb ;; ex <- attr (p_expander p) ;;
             '(Xb, ex) <- expand_transform 0%R (fun _ => false) ex Xb ;; Ok (Xb, Some ex)
           else Err AssertionError else Ok (Xb, p_expander p)) = Ok (Xe, ex) /\ grid ids times2 Xe /\ forall x, In x cols -> In x (f_cols Xe)).
  { destruct RP as (_ & _ & _ & _ & _ & RX). destruct (p_has_exogenous p).
    - destruct RX as (_ & ex & Eex & SX & MX & HC).
      assert (B : forallb (fun t => existsb (Z.eqb t) (map r_time (f_rows Xb))) hz = true).
      { apply forallb_forall. intros t Ht. apply existsb_exists. exists t. split; [|apply Z.eqb_refl]. destruct (nonempty_In _ Ei) as (q & Hq). destruct (grid_label ids times2 Xb GXb q t Hq (IX t Ht)) as (r & Hr & _ & E). apply in_map_iff. eauto. }
      rewrite B. unfold run_transform. rewrite T0. cbn [bind]. rewrite Eex. cbn [attr bind].
      destruct (expand_total ids times2 Xb ex GXb Ei Et2) as (Y & ex' & EE & GE & CE); [intros c0 H0; rewrite CXb; apply CX, MX, H0|]. specialize (CE SX). rewrite EE. cbn [bind]. exists Y, (Some ex'). split; [reflexivity|]. split; [exact GE|].
      intros x Hx. apply CE. destruct (HC x Hx) as [[H|H] H']; (split; [|exact H']); [left; rewrite CXb; now apply CX|right; exact H].
    - destruct RX as [-> _]. exists Xb, (p_expander p). split; [reflexivity|]. split; [exact GXb|]. intros x []. }
  destruct HEX as (Xe & ex & EXe & GXe & CXe).
  destruct (ready_model_panel ns_of c (STable tab) p (o_trend ob) ids (used_cols X) cols Xe times2 hz Ni Two (pp_class _ _ _ _ _ _ W) RP GXe CXe IX NH EH) as (td & data & Etd & Edata & YT & YM).
  set (m := model_call c (STable tab) p (o_trend ob) td None (Some data)) in *.
  assert (EM : hierarchical_predict_model ns_of keep tr_transform c ob f y X2 fh = Ok (m, ex)).
  { unfold hierarchical_predict_model. cbn [ft_prepared f]. rewrite CI. cbn [bind]. fold hz. cbv zeta. fold (future_frame keep y hz X2). fold X0. rewrite EXb. cbn [bind]. rewrite EXe. cbn [bind]. rewrite Etd. cbn [bind]. rewrite Edata. reflexivity. }
  pose proof (DR m) as DN.
  assert (RUN : forall e, In e (draws guide_draw complete_draw (engine_of c) post m) -> exists o tr, run e [] m = Ok (o, tr) /\ NoDup (map fst tr)).
  { intros e He. destruct (YM e None I) as (o & Y). fold m in Y.
    destruct (c71_predict ns_of order keep tr_fit_transform tr_transform svi_run nuts_run latent_sites c ob0 y X ob f EF CL ob y X2 fh m) with (e := e) (o := o) as (tr & Hr & N & _); eauto.
    unfold predict_model. rewrite (pp_class _ _ _ _ _ _ W), EM. reflexivity. }
  destruct (engine_predict_total guide_draw complete_draw (engine_of c) post m (model_call_alike _ _ _ _ _ _ _) DN RUN) as (d & Ed & SHP).
  destruct (nonempty_In _ DN) as (e0 & I0).
  set (n := List.length (draws guide_draw complete_draw (engine_of c) post m)) in *. assert (N0 : n <> 0) by (unfold n; intros Q; apply length_zero_iff_nil in Q; contradiction).
  destruct (RUN e0 I0) as (o & tr & Hr & NT). specialize (SHP e0 o tr I0 Hr).
  set (N := List.length ids) in *. set (T := List.length hz) in *.
  assert (OBS : exists a, dict_item d "obs" = Ok a /\ a_shape a = [n; 1; T; N] /\ List.length (a_flat a) = n * (T * N)).
  { destruct (hier_drawn c (STable tab) p (o_trend ob) td data e0 o tr N T) as (dd & v & Ho & Sv & Lv); auto; [apply W|apply RP| |].
    - intros v Y. destruct (YT e0) as (a & Ya & Sa & Wa). rewrite (yields_det _ _ _ _ Y Ya). auto.
    - assert (IO : In ("obs", v) (predictive_values (latent_of post) tr)).
      { apply dict_get_iff in Ho; [|exact NT]. unfold predictive_values. apply in_flat_map. exists ("obs", SSample dd v false). split; [exact Ho|]. cbn [fst snd].
        destruct (str_in "obs" (latent_of post)) eqn:Q; [exfalso; apply LO; now apply str_in_iff|simpl; auto]. }
      assert (KN : NoDup (map fst (predictive_values (latent_of post) tr))) by (apply predictive_nodup; exact NT).
      clear -SHP IO KN Sv Lv. unfold dict_item. induction SHP as [|[k1 a1] [k2 a2] l l' (E & S1 & L1) F IH]; [contradiction|]. cbn [fst snd] in *. subst k2. cbn [dict_get].
      destruct IO as [[= -> ->]|IO].
      + rewrite String.eqb_refl. exists a2. rewrite S1, L1, Sv, Lv. auto.
      + cbn [map fst] in KN. inversion KN; subst. destruct (String.eqb_spec "obs" k1) as [<-|NE]; [|apply IH; assumption]. exfalso. apply H1. apply in_map_iff. now exists ("obs", v). }
  destruct OBS as (a & Ea & Sa & La).
  (* the labels *)
  set (pids := filter (fun q => negb (String.eqb (last q "") total_name)) (paths_unique (map fst (p_index p)))).
  assert (EIX : periodindex_to_multiindex (labeller_of c f y) hz = Ok (product_index pids hz) /\ NoDup pids /\ forall q, In q pids <-> In q ids).
  { assert (PI : forall q, In q pids <-> In q ids).
    { intros q. unfold pids. rewrite filter_In, paths_unique_In, EI, negb_true_iff, String.eqb_neq. destruct PA as (_ & _ & _ & PA). split.
      - intros [H B]. apply in_map_iff in H as ([q' t] & E & H). cbn in E. subst q'. now apply (PA q t B).
      - intros H. split; [|exact (NTI q H)]. destruct (nonempty_In _ Et) as (t & Ht). apply in_map_iff. exists (q, t). split; [reflexivity|]. apply PA; [exact (NTI q H)|auto]. }
    split; [|split; [apply NoDup_filter, paths_unique_NoDup|exact PI]].
    unfold periodindex_to_multiindex, labeller_of. cbn [lb_levels lb_index lb_hier ft_prepared f]. rewrite (pp_class _ _ _ _ _ _ W). destruct (f_levels y) eqn:L; [destruct PY as (_ & GL & _); congruence|].
    unfold filter_series_tuples. fold pids. destruct (nonempty_In _ Ei) as (q & Hq). apply PI in Hq. unfold pids in Hq. apply filter_In in Hq as [Hq _]. destruct (paths_unique (map fst (p_index p))) eqn:EU; [contradiction|]. reflexivity. }
  destruct EIX as (EIX & NP & PI).
  assert (LI : List.length (product_index pids hz) = N * T).
  { assert (LP : List.length pids = N) by (apply NoDup_same_length; assumption). rewrite <- LP. unfold T. clear. unfold product_index. induction pids as [|q l IH]; [reflexivity|]. cbn [flat_map List.length]. rewrite app_length, map_length, IH. reflexivity. }
  exists (set_expander f ex).
  unfold Forecaster.forecast_samples, fh_to_index. rewrite CY. cbn [bind]. fold hz. unfold predictive_samples_dict. rewrite (pp_class _ _ _ _ _ _ W), EM. cbn [ft_posterior f]. rewrite Ed. cbn [bind].
  unfold predict_samples, predict_samples_base. rewrite Ea. cbn [bind]. rewrite Sa. unfold rows_of_width.
  assert (LT : List.length (a_flat (transpose a)) = (N * T) * n).
  { pose proof (tabulate_wf (rev (a_shape a)) (fun idx => aget a (rev idx))) as WT. unfold arr_wf in WT. fold (transpose a) in WT. rewrite WT. unfold transpose, tabulate. cbn [a_shape]. rewrite Sa. cbn [rev app]. unfold prod_shape. cbn [fold_right]. lia. }
  rewrite LT. destruct n as [|n'] eqn:En; [congruence|]. rewrite <- En in *. rewrite Nat.mod_mul by exact N0. cbn [Nat.eqb bind]. rewrite Nat.div_mul by exact N0. fold f. rewrite EIX. cbn [bind].
  unfold frame_of. rewrite LI. unfold chunks at 1. rewrite map_length, seq_length, Nat.eqb_refl. cbn [bind].
  unfold labeller_of. cbn [lb_levels lb_hier lb_scale lb_discrete]. set (fr := mkFrame _ _ _). rewrite (pp_class _ _ _ _ _ _ W). unfold discrete. rewrite (pp_class _ _ _ _ _ _ W). cbn [ft_scale f].
  assert (LR : List.length (chunks n (N * T) (a_flat (transpose a))) = N * T /\ forall l, In l (chunks n (N * T) (a_flat (transpose a))) -> List.length l = n).
  { split; [unfold chunks; now rewrite map_length, seq_length|]. intros l Hl. eapply chunks_width; [|exact N0]. rewrite LT, Nat.div_mul by exact N0. exact Hl. }
  destruct LR as [LR1 LR2].
  assert (FL : labels fr = product_index pids hz).
  { unfold labels, fr. cbn [f_rows]. rewrite map_map. cbn [r_path r_time]. apply combine_labels. congruence. }
  assert (GF : grid ids hz fr).
  { split; [|split; [apply G|rewrite FL; split; [now apply grid_product|intros q t; rewrite product_index_In, PI; reflexivity]]].
    intros r Hrr. assert (QL : In (r_path r, r_time r) (labels fr)) by (apply in_map_iff; exists r; auto). rewrite FL in QL. apply product_index_In in QL as [QL _]. apply PI in QL.
    unfold fr in *. cbn [f_rows f_cols f_levels] in *. split.
    - apply in_map_iff in Hrr as ([lb vs] & <- & Hrr). cbn. apply in_combine_r in Hrr. rewrite map_length, seq_length. now apply LR2.
    - apply (grid_ids ids times (strip y) G Et) in QL. apply series_ids_In in QL as (r0 & H0 & <-). now apply G. }
  pose proof (grid_sort ids hz fr GF) as GFS. unfold inv_scale_y. rewrite (obs_scale_total Rmult (sort_index fr) tab (proj1 (proj2 GFS)) (grid_covers tab ids hz _ GFS TC)). cbn [bind]. eexists. split; [reflexivity|].
  set (out := mkFrame _ _ _). assert (GO : grid ids hz out).
  { apply (grid_same ids hz (sort_index fr)); [exact GFS| |unfold labels, out; cbn [f_rows]; rewrite map_map; reflexivity|reflexivity].
    intros r Hrr. unfold out in *. cbn [f_rows f_cols f_levels] in *. apply in_map_iff in Hrr as (r0 & <- & H0). cbn [r_vals r_path]. rewrite map_length. now apply GFS. }
  apply aggregate_full; auto. intros r Hrr. apply (grid_row ids hz out GO) in Hrr as [Hrr _]. apply (grid_ids ids times (strip y) G Et) in Hrr. apply series_ids_In in Hrr as (r0 & H0 & <-). now apply (strip_no_totals y).
Qed.

(** point forecasts and quantiles *)
Theorem forecast_panel_methods c (ob0 ob : objects (TS := TS)) ids times y X f X2 fh cutoff : well_posed_panel ns_of c ids times y X -> clean_config c -> o_transformer ob0 = None ->
  fit_forecaster c ob0 y X = (ob, Ok f) ->
  max_time times = Ok cutoff -> NoDup (to_absolute cutoff fh) -> to_absolute cutoff fh <> [] ->
  panel_future ids (used_cols X) y (to_absolute cutoff fh) X2 ->
  ~ In "obs" (latent_of (ft_posterior f)) ->
  (forall m, draws guide_draw complete_draw (engine_of c) (ft_posterior f) m <> []) ->
  (exists f' F, forecast_point c ob f y X2 fh = (f', Ok F) /\ full_panel keep ids (to_absolute cutoff fh) F) /\
  (forall alpha, (forall a, In a alpha -> (0 <= a <= 1)%R) ->
    exists f' q, forecast_quantiles c ob f y X2 fh alpha = (f', Ok q) /\ full_panel keep ids (to_absolute cutoff fh) (q_frame q)).
Proof.
  intros. destruct (forecast_panel_total c ob0 ob ids times y X f X2 fh cutoff) as (f' & F & E & PF); auto. unfold Forecaster.forecast_point, Forecaster.forecast_quantiles. rewrite E. cbn [bind].
  assert (KEEP : forall g cols, (forall r, List.length (g r) = List.length cols) -> full_panel keep ids (to_absolute cutoff fh) (mkFrame (f_levels F) cols (map (fun r => mkRow (r_path r) (r_time r) (g r)) (f_rows F)))).
  { intros g cols HG. destruct PF as (W & L & N & I). split; [|split; [exact L|]].
    - intros r Hr. cbn [f_rows f_cols f_levels] in *. apply in_map_iff in Hr as (r0 & <- & Hr). cbn. split; [apply HG|]. now apply W.
    - assert (EL : labels (mkFrame (f_levels F) cols (map (fun r => mkRow (r_path r) (r_time r) (g r)) (f_rows F))) = labels F) by (unfold labels; cbn [f_rows]; rewrite map_map; reflexivity).
      rewrite EL. auto. }
  split.
  - eexists _, _. split; [reflexivity|]. unfold point_forecast. apply KEEP. reflexivity.
  - intros alpha HA. destruct (c60_ok alpha F HA) as (q & Eq). exists f', q. rewrite Eq. split; [reflexivity|]. unfold predict_quantiles in Eq. destruct (forallb _ _); [|discriminate]. injection Eq as <-.
    cbn [q_frame]. apply KEEP. intros r. now rewrite !map_length.
Qed.
End Forecast.
