(** The columns of [predict_all_sites] for panels with a feature transformer. *)
From Coq Require Import Reals Lra String Bool ZArith List Permutation Lia Sorted.
From Verif.Model Require Import Base Num XFloat Frame Arr Expand Aggregate Scale Prog Likelihood Effect Trend TrendProg Engine Predict Forecaster.
From Verif.Spec Require Import RegexSpec FrameSpec ScaleSpec ProgSpec PredictSpec EffectSpec TrendSpec ForecasterSpec AlignSpec ShapeSpec SiteSpec ComponentSpec OverlapSpec DocsSpec ResponseSpec DrawSpec TableSpec.
From Verif.Facts Require Import BaseFacts NumFacts OrderFacts FrameFacts FrameProps ArrFacts ProgFacts MeanFacts LikelihoodFacts EffectPredict PredictFacts ForecasterFacts ForecasterInv
  ForecasterProps ModelProps EngineFacts AlignFacts TrendFacts CompleteFacts ShapeFacts SiteFacts ComponentFacts DocsForecaster DocsTrend ResponseForecaster ResponsePanel ResponseHierarchical OverlapFrames TableFacts TablePanel.
Import ListNotations.
Local Open Scope string_scope.

Section Forecaster.
Variable ns_of : Z -> Z.
Variable order : list string -> list string.
Hypothesis Order : forall l, Permutation (order l) l.
Variable keep : path -> bool.
Context {TS P : Type}.
Variable tr_fit_transform : TS -> frame R -> TS * res (frame R).
Variable tr_transform : TS -> frame R -> res (frame R).
Variable svi_run : Z -> nat -> nat -> prog arr -> res (list xr * P).
Variable nuts_run : Z -> nat -> nat -> nat -> prog arr -> res (nat -> nat -> env).
Variable latent_sites : prog arr -> list string.
Variable guide_draw : P -> Z -> nat -> prog arr -> env.
Variable complete_draw : env -> Z -> nat -> prog arr -> env.
Notation fit_forecaster := (fit_forecaster ns_of order keep tr_fit_transform svi_run nuts_run latent_sites).
Notation forecast_all_sites := (forecast_all_sites ns_of keep tr_transform guide_draw complete_draw).
Notation predict_model := (predict_model ns_of keep tr_transform).
Notation draws := (Engine.draws guide_draw complete_draw).
Notation day := (fun t => day (ns_of t)).

Theorem c112_transformed c ob y X0 ob' (f : fitted (P := P)) iv rg lg K u : fit_forecaster c ob y X0 = (ob', Ok f) -> c_hier c = true -> f_levels y <> 0 -> frame_wf y ->
  (forall r, In r (f_rows y) -> ~ In "__total" (r_path r)) -> balanced y -> clean_config c -> distinct_names c -> piecewise_options (o_trend ob') iv rg lg -> (0 < iv)%R ->
  forall B0 ob1 Zt, given_training X0 y B0 -> run_fit_transform tr_fit_transform ob B0 = (ob1, Ok Zt) -> frame_wf Zt -> f_levels Zt <> 0 -> f_rows Zt <> [] -> f_cols Zt <> [] ->
  forall shared, (match c_shared c with None => [] | Some l => l end) = shared -> copyable shared (f_cols Zt) (series_ids Zt) ->
  forall ds, StronglySorted Z.lt ds -> (forall t, In t ds <-> In t (map r_time (f_rows y))) -> increasing (map day ds) -> changepoint_count (List.length ds) iv rg K ->
  forall y2 X2 fh f2 out ts, forecast_all_sites c ob' f y2 X2 fh = (f2, Ok out) -> f_levels y2 = f_levels y -> fh_to_index y2 fh = Ok ts ->
  forall cutoff, max_time (map snd (p_index (ft_prepared f))) = Ok cutoff -> to_absolute cutoff fh = ts ->
  forall B Xt, given_forecast X2 y2 ts B -> run_transform tr_transform ob' B = Ok Xt ->
  index_series (labeller_of c f y2) = series_ids Xt -> (forall q, In q (series_ids Xt) -> scale_of (ft_scale f) q = Some (u q)) ->
  frame_wf Xt -> f_levels Xt <> 0 -> f_cols Xt = f_cols Zt -> series_ids Xt = series_ids Zt -> covers Xt ts -> ts <> [] -> in_order ts ->
  exists m es, predict_model c ob' f y2 X2 fh = Ok m /\ es = draws (engine_of c) (ft_posterior f) m /\ es <> [] /\
    (forall q t, In q (series_ids Xt) /\ In t ts <-> exists row, In row (f_rows out) /\ r_path row = q /\ r_time row = t) /\
    forall row i, In row (f_rows out) -> nth_error (series_ids Xt) i = Some (r_path row) -> let trend e := trend_at e lg K iv i (steps (map day ds) (day (r_time row))) in
      cell out row "trend" = Some (u (r_path row) * Rmean (map trend es))%R /\
      forall name ef cols, In (name, ef, cols) (p_fitted (ft_prepared f)) -> In (name, ef) (p_effects (ft_prepared f)) ->
      exists ef0, configured c name ef0 /\ numbering ef0 (wave_numbers ef) /\
      forall r t0, In r (f_rows Xt) -> r_path r = r_path row -> r_time r = r_time row -> first_date (dates Zt (r_path r)) t0 ->
      exists x vs, Forall2 (ResponseSpec.seen shared (series_ids Xt) Xt r) cols x /\
        Forall2 (fun e v => answers e name (fun k => wave_numbers ef k * List.length (series_ids Xt) + i) ef0 x (r_time row - t0) (trend e) v) es vs /\ cell out row name = Some (u (r_path row) * Rmean vs)%R.
Proof.
  intros HF Hc L Wy NT BA HC DN PO HI B0 ob1 Zt GT RT WZ LZ RZ NZ shared SH CP ds SS Dts Inc HK y2 X2 fh f2 out ts HO L2 HT cutoff Hcut Hts B Xt GF RF IS HU WX LX CX BX CV N O.
  assert (SP : scalar_piecewise (o_trend ob')) by (destruct (o_trend ob'); try contradiction; destruct PO as (P1 & P2 & _); split; eauto).
  pose proof (hierarchical_trend_ok ns_of order keep tr_fit_transform svi_run nuts_run latent_sites _ _ _ _ _ _ HF Hc L Wy NT (or_introl SP)) as TOK.
  destruct (hierarchical_index ns_of order keep tr_fit_transform svi_run nuts_run latent_sites _ _ _ _ _ _ HF Hc L Wy NT) as (_ & RY & HN). specialize (HN y2 L2). rewrite IS in HN.
  assert (NE0 : series_ids Xt <> []).
  { intros E. rewrite E in HN. destruct (f_rows y) as [|r l] eqn:Ey; [congruence|]. assert (I : In (r_path r) (series_ids y)) by (unfold series_ids; rewrite paths_unique_In, Ey; simpl; auto). destruct (series_ids y); [contradiction|discriminate]. }
  assert (HD : discrete c = false) by (unfold discrete; now rewrite Hc).
  destruct (site_column ns_of order keep tr_fit_transform tr_transform svi_run nuts_run latent_sites guide_draw complete_draw c ob y X0 ob' f HF HC TOK y2 X2 fh f2 out u HO) as (m & times & HM & HT' & NE & RUN & COL & ROWS).
  { now rewrite IS. } { intros q Hq. rewrite HD. rewrite IS in Hq. now apply HU. } { congruence. }
  assert (times = ts) by congruence. subst times. rewrite IS in *.
  assert (NDts : NoDup ts) by (clear -O; induction O as [|t l S IH F]; constructor; auto; intros I; rewrite Forall_forall in F; specialize (F _ I); lia).
  assert (NDS : NoDup (series_ids Xt)) by (apply paths_unique_NoDup).
  exists m, (draws (engine_of c) (ft_posterior f) m). split; [exact HM|]. split; [reflexivity|]. split; [exact NE|]. split.
  { intros q t. split; [intros [Hq Ht]; exact (ROWS q t Hq Ht)|]. intros (row & Hr & <- & <-). destruct (COL row Hr) as (i & j & Hi & Hj & _). split; eapply nth_error_In; eassumption. }
  intros row i Hrow Hi trend. destruct (COL row Hrow) as (i' & j & Hi' & Hj & CELL).
  assert (LI : i < List.length (series_ids Xt)) by (apply nth_error_Some; congruence).
  assert (i' = i) by (apply (proj1 (NoDup_nth_error _) NDS); [apply nth_error_Some; congruence|congruence]). subst i'. clear Hi'.
  assert (TR : forall e o tr, run e [] m = Ok (o, tr) -> exists tv, dict_get tr "trend" = Some (SDet tv) /\ nth_error (a_flat tv) (i * List.length ts + j) = Some (trend e)).
  { intros e o tr RU. destruct (c103_hierarchical ns_of order keep tr_fit_transform tr_transform svi_run nuts_run latent_sites c ob y X0 ob' f iv rg lg K HF Hc L Wy NT BA HC PO HI ds SS Dts Inc HK y2 X2 fh m cutoff ts HM Hcut Hts NDts e o tr RU) as (tv & G & V & _).
    exists tv. split; [exact G|]. apply V; [lia|exact Hj]. }
  split.
  { apply CELL; [now left|]. clear -TR. generalize (draws (engine_of c) (ft_posterior f) m). intros es. induction es as [|e es IH]; constructor; auto. intros o tr RU. eauto. }
  intros name ef cols IF IE.
  assert (H104 := fun e o tr RU => c104_transformed ns_of order Order keep tr_fit_transform tr_transform svi_run nuts_run latent_sites c ob y X0 ob' f HF Hc L Wy NT HC SP B0 ob1 Zt GT RT WZ LZ RZ NZ shared SH CP y2 X2 fh m cutoff ts B Xt HM Hcut Hts GF RF WX LX CX BX CV N O e o tr RU).
  assert (CFG : exists ef0, configured c name ef0 /\ numbering ef0 (wave_numbers ef)).
  { destruct (draws (engine_of c) (ft_posterior f) m) as [|e es]; [congruence|]. destruct (RUN e (or_introl eq_refl)) as (o & tr & RU). destruct (H104 e o tr RU) as (tv & _ & EF). destruct (EF name ef IE) as (ef1 & cols1 & w & CF1 & _ & _ & NU & _). eauto. }
  destruct CFG as (ef0 & CF & NU). exists ef0. split; [exact CF|]. split; [exact NU|]. intros r t0 Hr Hp Et FD.
  assert (EACH : forall e, In e (draws (engine_of c) (ft_posterior f) m) -> exists v, (exists x, Forall2 (ResponseSpec.seen shared (series_ids Xt) Xt r) cols x /\ answers e name (fun k => wave_numbers ef k * List.length (series_ids Xt) + i) ef0 x (r_time row - t0) (trend e) v) /\
     forall o tr, run e [] m = Ok (o, tr) -> exists w, dict_get tr name = Some (SDet w) /\ nth_error (a_flat w) (i * List.length ts + j) = Some v).
  { intros e He. destruct (RUN e He) as (o & tr & RU). destruct (TR e o tr RU) as (tv & G & V). destruct (H104 e o tr RU) as (tv' & G' & EF).
    assert (tv' = tv) by congruence. subst tv'. destruct (EF name ef IE) as (ef1 & cols1 & w & CF1 & IF1 & GW & _ & VAL & _).
    assert (ef1 = ef0) by (eapply configured_unique; eauto). subst ef1.
    assert (Q : (name, ef, cols1) = (name, ef, cols)) by (apply (OverlapFrames.nodup_map_inj fe_name (p_fitted (ft_prepared f))); auto; eapply fitted_names_panel; eauto). injection Q as ->.
    rewrite <- Hp in Hi. destruct (VAL i j (r_time row) r t0 Hi Hj Hr Et FD) as (x & trd & v & VX & HTR & HV & AN). assert (trd = trend e) by congruence. subst trd.
    exists v. split; [eauto|]. intros o' tr' RU'. assert (tr' = tr) by congruence. subst tr'. eauto. }
  destruct (relation_list _ _ EACH) as (vs & FV).
  assert (XX : exists x, Forall2 (ResponseSpec.seen shared (series_ids Xt) Xt r) cols x). { destruct (draws (engine_of c) (ft_posterior f) m) as [|e es]; [congruence|]. destruct (EACH e (or_introl eq_refl)) as (v & (x & VX & _) & _). eauto. }
  destruct XX as (x & VX). exists x, vs. split; [exact VX|]. rewrite <- BX, <- CX in CP. split.
  - clear -FV VX CP. induction FV as [|e v es vs ((x' & VX' & A) & _) F IH]; constructor; auto. assert (x' = x) by (eapply seen_unique; eauto). now subst.
  - apply CELL; [right; apply in_map_iff; now exists (name, ef)|]. clear -FV. induction FV as [|e v es vs (_ & H) F IH]; constructor; auto.
Qed.

Theorem c112_bare c ob y X0 ob' (f : fitted (P := P)) iv rg lg K u : fit_forecaster c ob y X0 = (ob', Ok f) -> c_hier c = true -> f_levels y <> 0 -> frame_wf y ->
  (forall r, In r (f_rows y) -> ~ In "__total" (r_path r)) -> balanced y -> clean_config c -> distinct_names c -> piecewise_options (o_trend ob') iv rg lg -> (0 < iv)%R ->
  forall B0 ob1 Zt, given_training X0 y B0 -> run_fit_transform tr_fit_transform ob B0 = (ob1, Ok Zt) -> frame_wf Zt -> f_levels Zt <> 0 -> f_rows Zt <> [] -> f_cols Zt = [] -> NoDup (map (String.concat "-") (series_ids Zt)) ->
  forall ds, StronglySorted Z.lt ds -> (forall t, In t ds <-> In t (map r_time (f_rows y))) -> increasing (map day ds) -> changepoint_count (List.length ds) iv rg K ->
  forall y2 X2 fh f2 out ts, forecast_all_sites c ob' f y2 X2 fh = (f2, Ok out) -> f_levels y2 = f_levels y -> fh_to_index y2 fh = Ok ts ->
  forall cutoff, max_time (map snd (p_index (ft_prepared f))) = Ok cutoff -> to_absolute cutoff fh = ts ->
  forall B, given_forecast X2 y2 ts B ->
  index_series (labeller_of c f y2) = series_ids B -> (forall q, In q (series_ids B) -> scale_of (ft_scale f) q = Some (u q)) ->
  frame_wf B -> f_levels B <> 0 -> series_ids B = series_ids Zt -> covers B ts -> ts <> [] -> in_order ts ->
  exists m es, predict_model c ob' f y2 X2 fh = Ok m /\ es = draws (engine_of c) (ft_posterior f) m /\ es <> [] /\
    (forall q t, In q (series_ids B) /\ In t ts <-> exists row, In row (f_rows out) /\ r_path row = q /\ r_time row = t) /\
    forall row i, In row (f_rows out) -> nth_error (series_ids B) i = Some (r_path row) -> let trend e := trend_at e lg K iv i (steps (map day ds) (day (r_time row))) in
      cell out row "trend" = Some (u (r_path row) * Rmean (map trend es))%R /\
      forall name ef, In (name, ef) (p_effects (ft_prepared f)) ->
      exists ef0, configured c name ef0 /\ numbering ef0 (wave_numbers ef) /\
      forall t0, first_date (dates Zt (r_path row)) t0 ->
      exists vs, Forall2 (fun e v => answers e name (fun k => wave_numbers ef k * List.length (series_ids B) + i) ef0 [] (r_time row - t0) (trend e) v) es vs /\ cell out row name = Some (u (r_path row) * Rmean vs)%R.
Proof.
  intros HF Hc L Wy NT BA HC DN PO HI B0 ob1 Zt GT RT WZ LZ RZ NZ ND ds SS Dts Inc HK y2 X2 fh f2 out ts HO L2 HT cutoff Hcut Hts B GF IS HU WX LX BX CV N O.
  assert (SP : scalar_piecewise (o_trend ob')) by (destruct (o_trend ob'); try contradiction; destruct PO as (P1 & P2 & _); split; eauto).
  pose proof (hierarchical_trend_ok ns_of order keep tr_fit_transform svi_run nuts_run latent_sites _ _ _ _ _ _ HF Hc L Wy NT (or_introl SP)) as TOK.
  destruct (hierarchical_index ns_of order keep tr_fit_transform svi_run nuts_run latent_sites _ _ _ _ _ _ HF Hc L Wy NT) as (_ & RY & HN). specialize (HN y2 L2). rewrite IS in HN.
  assert (NE0 : series_ids B <> []).
  { intros E. rewrite E in HN. destruct (f_rows y) as [|r l] eqn:Ey; [congruence|]. assert (I : In (r_path r) (series_ids y)) by (unfold series_ids; rewrite paths_unique_In, Ey; simpl; auto). destruct (series_ids y); [contradiction|discriminate]. }
  assert (HD : discrete c = false) by (unfold discrete; now rewrite Hc).
  destruct (site_column ns_of order keep tr_fit_transform tr_transform svi_run nuts_run latent_sites guide_draw complete_draw c ob y X0 ob' f HF HC TOK y2 X2 fh f2 out u HO) as (m & times & HM & HT' & NE & RUN & COL & ROWS).
  { now rewrite IS. } { intros q Hq. rewrite HD. rewrite IS in Hq. now apply HU. } { congruence. }
  assert (times = ts) by congruence. subst times. rewrite IS in *.
  assert (NDts : NoDup ts) by (clear -O; induction O as [|t l S IH F]; constructor; auto; intros I; rewrite Forall_forall in F; specialize (F _ I); lia).
  assert (NDS : NoDup (series_ids B)) by (apply paths_unique_NoDup).
  exists m, (draws (engine_of c) (ft_posterior f) m). split; [exact HM|]. split; [reflexivity|]. split; [exact NE|]. split.
  { intros q t. split; [intros [Hq Ht]; exact (ROWS q t Hq Ht)|]. intros (row & Hr & <- & <-). destruct (COL row Hr) as (i & j & Hi & Hj & _). split; eapply nth_error_In; eassumption. }
  intros row i Hrow Hi trend. destruct (COL row Hrow) as (i' & j & Hi' & Hj & CELL).
  assert (LI : i < List.length (series_ids B)) by (apply nth_error_Some; congruence).
  assert (i' = i) by (apply (proj1 (NoDup_nth_error _) NDS); [apply nth_error_Some; congruence|congruence]). subst i'. clear Hi'.
  assert (TR : forall e o tr, run e [] m = Ok (o, tr) -> exists tv, dict_get tr "trend" = Some (SDet tv) /\ nth_error (a_flat tv) (i * List.length ts + j) = Some (trend e)).
  { intros e o tr RU. destruct (c103_hierarchical ns_of order keep tr_fit_transform tr_transform svi_run nuts_run latent_sites c ob y X0 ob' f iv rg lg K HF Hc L Wy NT BA HC PO HI ds SS Dts Inc HK y2 X2 fh m cutoff ts HM Hcut Hts NDts e o tr RU) as (tv & G & V & _).
    exists tv. split; [exact G|]. apply V; [lia|exact Hj]. }
  split.
  { apply CELL; [now left|]. clear -TR. generalize (draws (engine_of c) (ft_posterior f) m). intros es. induction es as [|e es IH]; constructor; auto. intros o tr RU. eauto. }
  intros name ef IE.
  assert (H104 := fun e o tr RU => c104_bare ns_of order Order keep tr_fit_transform tr_transform svi_run nuts_run latent_sites c ob y X0 ob' f HF Hc L Wy NT HC SP B0 ob1 Zt GT RT WZ LZ RZ NZ ND y2 X2 fh m cutoff ts B HM Hcut Hts GF WX LX BX CV N O e o tr RU).
  assert (CFG : exists ef0, configured c name ef0 /\ numbering ef0 (wave_numbers ef)).
  { destruct (draws (engine_of c) (ft_posterior f) m) as [|e es]; [congruence|]. destruct (RUN e (or_introl eq_refl)) as (o & tr & RU). destruct (H104 e o tr RU) as (tv & _ & EF). destruct (EF name ef IE) as (ef1 & w & CF1 & _ & _ & NU & _). eauto. }
  destruct CFG as (ef0 & CF & NU). exists ef0. split; [exact CF|]. split; [exact NU|]. intros t0 FD.
  assert (EACH : forall e, In e (draws (engine_of c) (ft_posterior f) m) -> exists v, answers e name (fun k => wave_numbers ef k * List.length (series_ids B) + i) ef0 [] (r_time row - t0) (trend e) v /\
     forall o tr, run e [] m = Ok (o, tr) -> exists w, dict_get tr name = Some (SDet w) /\ nth_error (a_flat w) (i * List.length ts + j) = Some v).
  { intros e He. destruct (RUN e He) as (o & tr & RU). destruct (TR e o tr RU) as (tv & G & V). destruct (H104 e o tr RU) as (tv' & G' & EF).
    assert (tv' = tv) by congruence. subst tv'. destruct (EF name ef IE) as (ef1 & w & CF1 & IF1 & GW & _ & VAL & _).
    assert (ef1 = ef0) by (eapply configured_unique; eauto). subst ef1.
    assert (Hi' : nth_error (series_ids Zt) i = Some (r_path row)) by (rewrite <- BX; exact Hi).
    destruct (VAL i j (r_path row) (r_time row) t0 Hi' Hj FD) as (trd & v & HTR & HV & AN). assert (trd = trend e) by congruence. subst trd. rewrite <- BX in AN.
    exists v. split; [exact AN|]. intros o' tr' RU'. assert (tr' = tr) by congruence. subst tr'. eauto. }
  destruct (relation_list _ _ EACH) as (vs & FV). exists vs. split.
  - clear -FV. induction FV as [|e v es vs (A & _) F IH]; constructor; auto.
  - apply CELL; [right; apply in_map_iff; now exists (name, ef)|]. clear -FV. induction FV as [|e v es vs (_ & H) F IH]; constructor; auto.
Qed.
End Forecaster.
