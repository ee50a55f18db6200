(** [predict_all_sites] and [predict_all_sites_samples] succeed for well-posed panels. *)
From Coq Require Import Reals Lra String Bool ZArith List Permutation Lia Sorted.
From Verif.Model Require Import Base Num XFloat Regex Frame Arr Expand Aggregate Scale Prog Likelihood Effect Trend TrendProg Engine Predict Forecaster Tensors.
From Verif.Spec Require Import DocsSpec FrameSpec ScaleSpec ProgSpec PredictSpec EffectSpec TrendSpec ForecasterSpec AlignSpec ShapeSpec SiteSpec LineSpec PosteriorSpec TotalSpec PanelSpec.
From Verif.Facts Require Import PredictProps BaseFacts NumFacts OrderFacts FrameFacts FrameProps ArrFacts ProgFacts MeanFacts LikelihoodFacts ScaleFacts ExpandFacts EffectFacts EffectFourier EffectPredict
  TimeFacts TrendFacts AlignFacts PredictFacts ForecasterFacts ForecasterInv ForecasterProps ForecasterTransformer ModelProps EngineFacts CompleteFacts ShapeFacts SiteFacts AlignForecaster ComponentFacts AlikeFacts HistoryTimes
  DocsExamples TotalFacts TotalTrend LineFacts TotalFit TotalForecast PosteriorFacts TotalSites PanelGrid PanelEffects PanelTrend PanelBottom PanelScale PanelFit PanelForecast.
Import ListNotations.
Local Open Scope string_scope.

(** * Effects for panels have no lift tests *)
Lemma panel_lifts ids (fitted : list fitted_effect) cols X fh data : Forall (panel_entry ids cols) fitted -> transform_effects fitted X fh = Ok data -> forall T n d, dict_get data n = Some d -> lifts T d.
Proof.
  intros F H T. unfold transform_effects in H. revert H. assert (G : forall out, (forall n d, dict_get out n = Some d -> lifts T d) ->
    foldM (fun out (f : fitted_effect) => let '(name, e, cols) := f in skip <- should_skip_predict e ;; if (skip : bool) then Ok out else XC <- select_columns 0%R X cols ;; d <- transform e (Some XC) fh ;; Ok (dict_set out name d)) out fitted = Ok data ->
    forall n d, dict_get data n = Some d -> lifts T d); [|apply G; intros n d [=]].
  induction F as [|[[name ef] cs] fs [_ PE] F IH]; intros out H E; cbn [foldM] in E; [injection E as <-; exact H|].
  apply bind_ok in E as (out' & E & E'). refine (IH out' _ E'). apply bind_ok in E as (sk & Sk & E). destruct sk; [injection E as <-; exact H|].
  apply bind_ok in E as (XC & _ & E). apply bind_ok in E as (d0 & Ed & E). injection E as <-. intros n d. rewrite dict_get_set.
  destruct (String.eqb _ _); [|apply H]. intros [= <-]. cbn [fe_effect fst snd] in PE. destruct PE as [PE|[_ PE]]; [congruence|].
  unfold transform in Ed. apply bind_ok in Ed as (g & _ & Ed). destruct (negb g); [discriminate|]. apply bind_ok in Ed as (sk & _ & Ed). destruct sk; [injection Ed as <-; exact I|].
  apply bind_ok in Ed as (cols0 & _ & Ed). apply bind_ok in Ed as (X' & _ & Ed).
  destruct ef as [m p b|m p q b|m p q r b|inner tab ps b sc|sp terms ps m b ff x l]; try contradiction; cbn [inner_transform] in Ed.
  - inv_bind Ed. injection Ed as <-. exact I.
  - apply bind_ok in Ed. destruct Ed as (z & _ & Ed). apply bind_ok in Ed. destruct Ed as (z1 & _ & Ed). apply bind_ok in Ed. destruct Ed as (z2 & _ & Ed). apply bind_ok in Ed. destruct Ed as ([z3 b'] & _ & Ed).
    unfold linear_transform in Ed. apply bind_ok in Ed. destruct Ed as (g0 & _ & Ed). destruct (negb g0); [discriminate|]. apply bind_ok in Ed. destruct Ed as (sk & _ & Ed). destruct sk; [injection Ed as <-; exact I|].
    apply bind_ok in Ed. destruct Ed as (g1 & _ & Ed). apply bind_ok in Ed. destruct Ed as (g2 & _ & Ed). apply bind_ok in Ed. destruct Ed as (g3 & _ & Ed). injection Ed as <-. exact I.
Qed.

(** * All recorded sites *)
Lemma model_good_panel T c s p t td data e o l : c_hier c = true -> p_single p = false ->
  (forall n d, dict_get data n = Some d -> lifts T d) ->
  (forall v, yields e (trend_predict t td) v -> arr_wf v /\ prod_shape (a_shape v) = T) ->
  eval e (model_call c s p t td None (Some data)) = Ok (o, l) -> Forall (good T) l.
Proof.
  intros Hc Hs LD HT. unfold model_call. rewrite Hc, Hs.
  assert (M : forall m lm, eval e (compute_mean (trend_predict t td) (Some data) (Some (effect_fns (p_effects p)))) = Ok (m, lm) -> Forall (good T) lm).
  { intros m lm E. apply eval_compute_mean in E as (tv & lt & vs & gs & E1 & C & -> & F). destruct (HT tv (proj2 (eval_yields _ _ _) (ex_intro _ lt E1))) as [W S0].
    apply Forall_app. split; [apply fits_good, latent_fits; eapply trend_latent; exact E1|]. constructor; [split; assumption|].
    eapply chain_good; [exact LD|exact C|reflexivity|exact W|exact S0|]. apply sum_entries in F as (_ & F & _). eapply Forall_impl; [|exact F]. cbn beta. intros v ->. exact S0. }
  unfold multivariate_model. rewrite eval_bind. intros E. apply bind_ok in E as ([m lm] & Em & E). apply bind_ok in E as ([o' lo] & Eo & E). injection E as -> <-.
  apply Forall_app. split; [eapply M; exact Em|]. apply fits_good, latent_fits. eapply latent_eval; [|exact Eo]. cbn [pbind].
  apply latent_bind; [apply latent_lift|]. intros n. cbn [sample pbind latent_only]. intros std corr. apply latent_bind; [apply latent_lift|]. intros half. apply latent_bind; [apply latent_lift|]. intros cov.
  apply latent_bind; [apply latent_lift|]. intros t0. cbn [plate pbind latent_only]. apply latent_bind; [apply latent_lift|]. intros loc. cbn. auto.
Qed.


Lemma panel_sample_labels times n (ids : list path) (g : nat -> nat -> nat -> list R) :
  map (fun r => (sr_sample r, (sr_path r, sr_time r))) (flat_map (fun s => flat_map (fun i => map (fun j => mkSR s (nth i ids []) (nth j times 0%Z) (g s i j)) (seq 0 (List.length times))) (seq 0 (List.length ids))) (seq 0 n)) = list_prod (seq 0 n) (list_prod ids times).
Proof.
  assert (A : forall s, map (fun r => (sr_sample r, (sr_path r, sr_time r))) (flat_map (fun i => map (fun j => mkSR s (nth i ids []) (nth j times 0%Z) (g s i j)) (seq 0 (List.length times))) (seq 0 (List.length ids))) = map (fun qt => (s, qt)) (list_prod ids times)).
  { intros s. rewrite map_flat_map. rewrite (flat_map_ext _ (fun i => map (fun t => (s, (nth i ids [], t))) times)); [|intros i; rewrite map_map; cbn [sr_sample sr_path sr_time]; rewrite <- (nth_all times) at 2; rewrite map_map; reflexivity].
    clear. induction ids as [|q ids IH]; [reflexivity|]. cbn [List.length seq flat_map nth list_prod]. rewrite map_app, map_map. f_equal. rewrite <- seq_shift, flat_map_concat_map, map_map, <- flat_map_concat_map. exact IH. }
  rewrite map_flat_map. rewrite (flat_map_ext _ (fun s => map (fun qt => (s, qt)) (list_prod ids times))); [|exact A]. generalize (seq 0 n). intros l. induction l as [|s l IH]; [reflexivity|]. cbn [flat_map list_prod]. now rewrite IH.
Qed.

Section Forecast.
Variable ns_of : Z -> Z.
Variable order : list string -> list string.
Hypothesis Order : forall l, Permutation (order l) l.
Variable keep : path -> bool.
Context {TS P : Type}.
Variable tr_fit_transform : TS -> frame R -> TS * res (frame R).
Variable tr_transform : TS -> frame R -> res (frame R).
Variable svi_run : Z -> nat -> nat -> prog arr -> res (list xr * P).
Variable nuts_run : Z -> nat -> nat -> nat -> prog arr -> res (nat -> nat -> env).
Variable latent_sites : prog arr -> list string.
Variable guide_draw : P -> Z -> nat -> prog arr -> env.
Variable complete_draw : env -> Z -> nat -> prog arr -> env.
Notation fit_forecaster := (fit_forecaster ns_of order keep tr_fit_transform svi_run nuts_run latent_sites).
Notation forecast_all_sites := (forecast_all_sites ns_of keep tr_transform guide_draw complete_draw).
Notation forecast_all_sites_samples := (forecast_all_sites_samples ns_of keep tr_transform guide_draw complete_draw).
Notation fit_panel_total := (fit_panel_total ns_of order Order keep tr_fit_transform svi_run nuts_run latent_sites).

Theorem panel_sites_total c (ob0 ob : objects (TS := TS)) ids times y X f X2 fh cutoff : well_posed_panel ns_of c ids times y X -> clean_config c -> (forall r, In r (f_rows y) -> ~ In "__total" (r_path r)) -> o_transformer ob0 = None ->
  fit_forecaster c ob0 y X = (ob, Ok f) ->
  (forall ys p m, scale_y (discrete c) (ft_scale f) y = Ok ys -> fit_data ns_of order keep tr_fit_transform c ob0 (ft_scale f) ys X = (ob, Ok (p, m)) -> posterior_sites (latent_sites m) m) ->
  max_time times = Ok cutoff -> NoDup (to_absolute cutoff fh) -> to_absolute cutoff fh <> [] ->
  panel_future ids (used_cols X) y (to_absolute cutoff fh) X2 ->
  ~ In "obs" (latent_of (ft_posterior f)) ->
  (forall m, draws guide_draw complete_draw (engine_of c) (ft_posterior f) m <> []) ->
  (exists f' F, forecast_all_sites c ob f y X2 fh = (f', Ok F) /\ NoDup (labels F) /\ forall q t, In (q, t) (labels F) <-> In q ids /\ In t (to_absolute cutoff fh)) /\
  (exists f' m cols rows pids, predict_model ns_of keep tr_transform c ob f y X2 fh = Ok m /\ forecast_all_sites_samples c ob f y X2 fh = (f', Ok (cols, rows)) /\ Permutation pids ids /\
    map (fun r => (sr_sample r, (sr_path r, sr_time r))) rows = list_prod (seq 0 (List.length (draws guide_draw complete_draw (engine_of c) (ft_posterior f) m))) (list_prod pids (to_absolute cutoff fh))).
Proof.
  intros W CL NTY0 HT EF LS EC NH EH HX2 LO DR. destruct (pp_ids _ _ _ _ _ _ W) as (Ni & Two & NTI). destruct (pp_times _ _ _ _ _ _ W) as (St & TwoT). destruct (pp_target _ _ _ _ _ _ W) as (PY & C1 & NTY).
  pose proof (ids_nonempty ids Two) as Ei. pose proof (times_nonempty times TwoT) as Et. pose proof (strip_grid ids times y PY NTY NTI) as G.
  destruct (fit_panel_total c ob0 ids times y X W CL HT) as (ob' & tab & p & m0 & cols & EF' & _ & T0 & TC & RP & EI).
  rewrite EF in EF'. injection EF' as <- EP. symmetry in EP. destruct (infer _ _ _ _ _) as [post|] eqn:EPo; [|discriminate]. cbn [bind] in EP. injection EP as <-.
  cbn [ft_posterior] in *. set (hz := to_absolute cutoff fh) in *. set (f := mkFitted (STable tab) p post) in *.
  pose proof (divided_grid ids times tab _ G) as GS.
  assert (EYF : aggregate keep (divided_panel tab y) = aggregate keep (divided_panel tab (strip y))) by (rewrite <- divided_strip; symmetry; apply aggregate_strip; exact (proj1 (proj2 PY))).
  rewrite EYF in EI. set (ys := divided_panel tab (strip y)) in *.
  assert (NTS : forall r, In r (f_rows ys) -> ~ In "__total" (r_path r)) by (intros r Hr; unfold ys, divided_panel in Hr; cbn [f_rows] in Hr; apply in_map_iff in Hr as (r0 & <- & Hr); exact (strip_no_totals y r0 Hr)).
  pose proof (aggregate_panel keep ids times ys GS Ei Et NTS) as PA.
  (* the cutoff *)
  pose proof (target_times ids times y PY NTY NTI Ei) as TY.
  assert (CY : max_time (map r_time (f_rows y)) = Ok cutoff) by (rewrite <- EC; apply max_time_set; exact TY).
  assert (CI : max_time (map snd (p_index p)) = Ok cutoff).
  { rewrite <- EC. apply max_time_set. intros t. rewrite EI, <- index_times, aggregate_times. split.
    - intros (b & Hb & _ & <-). now apply (grid_row ids times ys GS).
    - intros Ht. destruct (nonempty_In _ Ei) as (q & Hq). destruct (grid_label ids times ys GS q t Hq Ht) as (r & Hr & _ & E). exists r. split; [exact Hr|]. split; [|exact E]. right. unfold no_total. apply negb_true_iff, str_in_false. now apply NTS. }
  (* the exogenous data *)
  destruct (future_panel keep ids times (used_cols X) y hz X2 PY NTY NTI Ni Ei Et NH EH HX2) as (times2 & PX & IX & CX). set (X0 := future_frame keep y hz X2) in *.
  assert (Et2 : times2 <> []) by (destruct (nonempty_In _ EH) as (t & Ht); apply IX in Ht; destruct times2; [contradiction|discriminate]).
  destruct (panel_bottom ids times2 X0 PX NTI Ei Et2) as (Xb & EXb & GXb & CXb).
  assert (HEX : exists Xe ex, (if p_has_exogenous p then
           if forallb (fun t => existsb (Z.eqb t) (map r_time (f_rows Xb))) hz then
             Xb <- run_transform tr_transform ob Xb ;; ex <- attr (p_expander p) ;;
             '(Xb, ex) <- expand_transform 0%R (fun _ => false) ex Xb ;; Ok (Xb, Some ex)
           else Err AssertionError else Ok (Xb, p_expander p)) = Ok (Xe, ex) /\ grid ids times2 Xe /\ forall x, In x cols -> In x (f_cols Xe)).
  { destruct RP as (_ & _ & _ & _ & _ & RX). destruct (p_has_exogenous p).
    - destruct RX as (_ & ex & Eex & SX & MX & HC).
      assert (B : forallb (fun t => existsb (Z.eqb t) (map r_time (f_rows Xb))) hz = true).
      { apply forallb_forall. intros t Ht. apply existsb_exists. exists t. split; [|apply Z.eqb_refl]. destruct (nonempty_In _ Ei) as (q & Hq). destruct (grid_label ids times2 Xb GXb q t Hq (IX t Ht)) as (r & Hr & _ & E). apply in_map_iff. eauto. }
      rewrite B. unfold run_transform. rewrite T0. cbn [bind]. rewrite Eex. cbn [attr bind].
      destruct (expand_total ids times2 Xb ex GXb Ei Et2) as (Y & ex' & EE & GE & CE); [intros c0 H0; rewrite CXb; apply CX, MX, H0|]. specialize (CE SX). rewrite EE. cbn [bind]. exists Y, (Some ex'). split; [reflexivity|]. split; [exact GE|].
      intros x Hx. apply CE. destruct (HC x Hx) as [[H|H] H']; (split; [|exact H']); [left; rewrite CXb; now apply CX|right; exact H].
    - destruct RX as [-> _]. exists Xb, (p_expander p). split; [reflexivity|]. split; [exact GXb|]. intros x []. }
  destruct HEX as (Xe & ex & EXe & GXe & CXe).
  destruct (ready_model_panel ns_of c (STable tab) p (o_trend ob) ids (used_cols X) cols Xe times2 hz Ni Two (pp_class _ _ _ _ _ _ W) RP GXe CXe IX NH EH) as (td & data & Etd & Edata & YT & YM).
  set (m := model_call c (STable tab) p (o_trend ob) td None (Some data)) in *.
  assert (EM : hierarchical_predict_model ns_of keep tr_transform c ob f y X2 fh = Ok (m, ex)).
  { unfold hierarchical_predict_model. cbn [ft_prepared f]. rewrite CI. cbn [bind]. fold hz. cbv zeta. fold (future_frame keep y hz X2). fold X0. rewrite EXb. cbn [bind]. rewrite EXe. cbn [bind]. rewrite Etd. cbn [bind]. rewrite Edata. reflexivity. }
  assert (EM' : predict_model ns_of keep tr_transform c ob f y X2 fh = Ok m) by (unfold predict_model; rewrite (pp_class _ _ _ _ _ _ W), EM; reflexivity).
  pose proof (DR m) as DN.
  assert (RUN : forall e, In e (draws guide_draw complete_draw (engine_of c) post m) -> exists o tr, run e [] m = Ok (o, tr) /\ NoDup (map fst tr) /\ NoDup (actions e m)).
  { intros e He. destruct (YM e None I) as (o & Y). fold m in Y.
    destruct (c71_predict ns_of order keep tr_fit_transform tr_transform svi_run nuts_run latent_sites c ob0 y X ob f EF CL ob y X2 fh m) with (e := e) (o := o) as (tr & Hr & N & NA); eauto. exists o, tr. rewrite <- NA. auto. }
  destruct (engine_predict_total guide_draw complete_draw (engine_of c) post m (model_call_alike _ _ _ _ _ _ _) DN) as (d & Ed & SHP).
  { intros e He. destruct (RUN e He) as (o & tr & H1 & H2 & _). eauto. }
  destruct (nonempty_In _ DN) as (e0 & I0).
  set (n := List.length (draws guide_draw complete_draw (engine_of c) post m)) in *. assert (N0 : n <> 0) by (unfold n; intros Q; apply length_zero_iff_nil in Q; contradiction).
  destruct (RUN e0 I0) as (o & tr & Hr & NT & NA). specialize (SHP e0 o tr I0 Hr).
  set (N := List.length ids) in *. set (T := List.length hz) in *.

  assert (YT0 : forall v, yields e0 (trend_predict (o_trend ob) td) v -> arr_wf v /\ a_shape v = [N; T; 1]).
  { intros v Y. destruct (YT e0) as (a & Ya & Sa & Wa). rewrite (yields_det _ _ _ _ Y Ya). auto. }
  assert (GOOD : Forall (good (N * T)) tr).
  { destruct (run_nodup_trace _ _ _ _ Hr NA) as (l & El & -> & _). eapply (model_good_panel _ c (STable tab) p (o_trend ob) td data e0 o l); [apply W|apply RP| | |exact El].
    - intros k v Hv. exact (panel_lifts ids (p_fitted p) cols Xe hz data (proj1 (proj2 RP)) Edata (N * T) k v Hv).
    - intros v Y. destruct (YT0 v Y) as [W0 S0]. split; [exact W0|]. rewrite S0. unfold prod_shape. cbn [fold_right]. lia. }
  destruct (hier_drawn c (STable tab) p (o_trend ob) td data e0 o tr N T) as (dd & v0 & Ho & Sv & Lv); auto; [apply W|apply RP|].
  assert (SPW : scalar_piecewise (o_trend ob)).
  { destruct (pp_trend _ _ _ _ _ _ W) as (name & EN & HN). assert (PO := DocsExamples.named_options ns_of order keep tr_fit_transform svi_run nuts_run latent_sites _ _ _ _ _ _ name EF EN). destruct PO as [PO _]; [simpl; destruct HN as [[<-|[<-|[]]]|[-> _]]; auto|].
    unfold DocsSpec.piecewise_options in PO. destruct (o_trend ob); try contradiction. destruct PO as (P1 & P2 & _). split; eauto. }
  assert (PAR : forall k, k <> "obs" -> In k (parameter_names tr) -> In k (latent_of post)).
  { destruct (c87_site_names ns_of order keep tr_fit_transform tr_transform svi_run nuts_run latent_sites c ob0 y X ob f EF) as (m1 & (ys1 & Ey1 & Efd) & Sn & PS).
    { right. right. split; [exact (proj1 PY)|]. split; [exact NTY0|]. right. exact SPW. }
    intros k Hk Hn. change (latent_of post) with (site_names f). apply (PS ltac:(rewrite Sn; eapply LS; [exact Ey1|exact Efd]) ob y X2 fh m EM' eq_refl _ _ _ Hr k Hk). exact Hn. }
  assert (VAL : forall k v, In (k, v) (predictive_values (latent_of post) tr) -> prod_shape (a_shape v) = N * T /\ arr_wf v).
  { intros k v Hk. unfold predictive_values in Hk. apply in_flat_map in Hk as ([k' sv] & Hin & Hk). cbn [fst snd] in Hk. rewrite Forall_forall in GOOD. pose proof (GOOD _ Hin) as GG.
    destruct sv as [ds w ob1|w|z]; cbn [good snd] in GG; [|destruct Hk as [[= -> ->]|[]]; exact GG|contradiction].
    destruct (str_in k' (latent_of post)) eqn:Q; [contradiction|]. destruct Hk as [[= -> ->]|[]]. destruct ob1; [exact GG|].
    destruct (string_dec k "obs") as [->|No].
    - apply (dict_get_iff tr) in Hin; [|exact NT]. rewrite Ho in Hin. injection Hin as _ <-. unfold arr_wf. rewrite Sv, Lv. unfold prod_shape. cbn [fold_right]. lia.
    - exfalso. assert (In k (latent_of post)) by (apply PAR; [exact No|]; apply parameter_names_In; eauto). apply str_in_iff in H. congruence. }
  assert (DRW : forall kv, In kv d -> a_shape (snd kv) <> [] /\ prod_shape (tl (a_shape (snd kv))) = N * T /\ hd_error (a_shape (snd kv)) = Some n /\ arr_wf (snd kv)).
  { intros kv Hkv. apply Forall2_In_both in SHP as [_ SHP]. destruct (SHP kv Hkv) as ([k v] & Hv & Ek & Ea & La). cbn [fst snd] in *. destruct (VAL _ _ Hv) as [V1 V2].
    rewrite Ea. cbn [tl hd_error]. split; [discriminate|]. split; [exact V1|]. split; [reflexivity|]. unfold arr_wf in *. rewrite La, Ea, V2. unfold prod_shape. cbn [fold_right]. reflexivity. }
  assert (DNE : d <> []).
  { intros ->. inversion SHP as [E|]. assert (IO : In ("obs", v0) (predictive_values (latent_of post) tr)).
    { apply dict_get_iff in Ho; [|exact NT]. unfold predictive_values. apply in_flat_map. exists ("obs", SSample dd v0 false). split; [exact Ho|]. cbn [fst snd].
      destruct (str_in "obs" (latent_of post)) eqn:Q; [exfalso; apply LO; now apply str_in_iff|simpl; auto]. }
    rewrite <- E in IO. exact IO. }
  (* the labels *)
  set (pids := filter (fun q => negb (String.eqb (last q "") total_name)) (paths_unique (map fst (p_index p)))).
  assert (EIX : periodindex_to_multiindex (labeller_of c f y) hz = Ok (product_index pids hz) /\ NoDup pids /\ forall q, In q pids <-> In q ids).
  { assert (PI : forall q, In q pids <-> In q ids).
    { intros q. unfold pids. rewrite filter_In, paths_unique_In, EI, negb_true_iff, String.eqb_neq. destruct PA as (_ & _ & _ & PA). split.
      - intros [H B]. apply in_map_iff in H as ([q' t] & E & H). cbn in E. subst q'. now apply (PA q t B).
      - intros H. split; [|exact (NTI q H)]. destruct (nonempty_In _ Et) as (t & Ht). apply in_map_iff. exists (q, t). split; [reflexivity|]. apply PA; [exact (NTI q H)|auto]. }
    split; [|split; [apply NoDup_filter, paths_unique_NoDup|exact PI]].
    unfold periodindex_to_multiindex, labeller_of. cbn [lb_levels lb_index lb_hier ft_prepared f]. rewrite (pp_class _ _ _ _ _ _ W). destruct (f_levels y) eqn:L; [destruct PY as (_ & GL & _); congruence|].
    unfold filter_series_tuples. fold pids. destruct (nonempty_In _ Ei) as (q & Hq). apply PI in Hq. unfold pids in Hq. apply filter_In in Hq as [Hq _]. destruct (paths_unique (map fst (p_index p))) eqn:EU; [contradiction|]. reflexivity. }
  destruct EIX as (EIX & NP & PI).
  assert (LI : List.length (product_index pids hz) = N * T).
  { assert (LP : List.length pids = N) by (apply NoDup_same_length; assumption). rewrite <- LP. unfold T. clear. unfold product_index. induction pids as [|q l IH]; [reflexivity|]. cbn [flat_map List.length]. rewrite app_length, map_length, IH. reflexivity. }
  assert (LV : lb_levels (labeller_of c f y) <> 0) by exact (proj1 (proj2 PY)).
  assert (IS : index_series (labeller_of c f y) = pids).
  { unfold index_series. destruct (lb_levels (labeller_of c f y)); [congruence|]. cbn [lb_hier lb_index labeller_of]. rewrite (pp_class _ _ _ _ _ _ W). reflexivity. }
  assert (LPI : List.length pids = N) by (apply NoDup_same_length; assumption).
  assert (LBI : lb_levels (labeller_of c f y) <> 0 -> lb_index (labeller_of c f y) <> []).
  { intros _ E0. cbn [lb_index labeller_of ft_prepared f] in E0. unfold pids in LPI. rewrite E0 in LPI. cbn in LPI. unfold N in LPI. lia. }
  assert (EPS : predictive_samples_dict ns_of keep tr_transform guide_draw complete_draw c ob f y X2 fh = (set_expander f ex, Ok d)).
  { unfold predictive_samples_dict. rewrite (pp_class _ _ _ _ _ _ W), EM. cbn [ft_posterior f]. rewrite Ed. reflexivity. }
  split.
  - destruct (all_sites_rows (labeller_of c f y) hz d (fun q => match tab_get tab q with Some k => k | None => 0%R end)) as (F & HF & _ & _ & _ & HR).
    + exact LBI.
    + rewrite IS. intros E0. rewrite E0 in LPI. cbn in LPI. unfold N in LPI. lia.
    + intros kv Hkv. destruct (DRW kv Hkv) as (D1 & D2 & _). split; [exact D1|]. rewrite D2, IS. fold hz T. f_equal. symmetry. exact LPI.
    + rewrite IS. intros q Hq. apply PI in Hq. destruct (TC q Hq) as (k & Ek & _). unfold unit_of. cbn [lb_discrete labeller_of]. unfold discrete. rewrite (pp_class _ _ _ _ _ _ W). cbn [f]. rewrite Ek. exact Ek.
    + intros L0. congruence.
    + exists (set_expander f ex), F. split.
      { unfold Forecaster.forecast_all_sites, fh_to_index. rewrite CY. cbn [bind]. fold hz. rewrite EPS. cbn [bind]. rewrite HF. reflexivity. }
      assert (PL : Permutation (labels F) (product_index pids hz)).
      { unfold labels. rewrite HR, IS. eapply perm_trans; [apply Permutation_map; apply Permutation_sym; apply key_sort_perm|].
        unfold draw_rows. rewrite map_flat_map. erewrite flat_map_ext; [|intros a; rewrite map_map; cbn [r_path r_time]; reflexivity].
        pose proof (multiindex_blocks (labeller_of c f y) hz LBI) as MB. rewrite EIX, IS in MB. injection MB as <-. reflexivity. }
      split; [apply (Permutation_NoDup (Permutation_sym PL)); now apply grid_product|].
      intros q t. rewrite <- (PI q). split; intros H; [apply (Permutation_in _ PL) in H; now apply product_index_In in H|apply (Permutation_in _ (Permutation_sym PL)); now apply product_index_In].
  - exists (set_expander f ex), m. eexists _, _, pids. split; [exact EM'|]. split; [|split].
    + unfold Forecaster.forecast_all_sites_samples, fh_to_index. rewrite EPS, CY. cbn [bind]. fold hz.
      rewrite (all_sites_samples_rows (labeller_of c f y) hz d n LBI DNE); [reflexivity|].
      intros kv Hkv. destruct (DRW kv Hkv) as (D1 & D2 & D3 & D4). rewrite IS, D2. split; [exact D4|]. split; [exact D3|]. fold hz T. f_equal. symmetry. exact LPI.
    + apply NoDup_Permutation; assumption.
    + rewrite IS. apply panel_sample_labels.
Qed.
End Forecast.
