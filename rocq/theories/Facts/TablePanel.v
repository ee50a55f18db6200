(** The columns of [predict_all_sites] for panels. *)
From Coq Require Import Reals Lra String Bool ZArith List Permutation Lia Sorted.
From Verif.Model Require Import Base Num XFloat Frame Arr Expand Aggregate Scale Prog Likelihood Effect Trend TrendProg Engine Predict Forecaster.
From Verif.Spec Require Import RegexSpec FrameSpec ScaleSpec ProgSpec PredictSpec EffectSpec TrendSpec ForecasterSpec AlignSpec ShapeSpec SiteSpec ComponentSpec OverlapSpec DocsSpec ResponseSpec DrawSpec TableSpec.
From Verif.Facts Require Import BaseFacts NumFacts OrderFacts FrameFacts FrameProps ArrFacts ProgFacts MeanFacts LikelihoodFacts EffectPredict PredictFacts ForecasterFacts ForecasterInv
  ForecasterProps ModelProps EngineFacts AlignFacts TrendFacts CompleteFacts ShapeFacts SiteFacts ComponentFacts DocsForecaster DocsTrend ResponseForecaster ResponsePanel ResponseHierarchical OverlapFrames TableFacts.
Import ListNotations.
Local Open Scope string_scope.

Lemma seen_unique shared ids X r cols : copyable shared (f_cols X) ids -> forall x x', Forall2 (ResponseSpec.seen shared ids X r) cols x -> Forall2 (ResponseSpec.seen shared ids X r) cols x' -> x = x'.
Proof.
  intros (_ & _ & _ & Inj & Fresh) x x' H. revert x'. induction H as [|col u cols x S H IH]; intros x' H'; inversion H' as [|? u' ? x1 S' H1]; subst; [reflexivity|]. f_equal; [|now apply IH]. clear IH H H'.
  destruct S as [(I & _ & E)|(c & q & I & NS & Q & -> & V)].
  - destruct S' as [(_ & _ & E')|(c' & q' & I' & _ & Q' & -> & _)]; [congruence|]. exfalso. exact (Fresh _ _ I' Q' I).
  - destruct S' as [(I' & _ & _)|(c' & q' & I' & _ & Q' & EQ & V')]; [exfalso; exact (Fresh _ _ I Q I')|]. destruct (Inj _ _ _ _ I I' Q Q' EQ) as [-> ->].
    destruct V as [[-> V]|[N ->]], V' as [[E V']|[N' ->]]; congruence.
Qed.

Section Forecaster.
Variable ns_of : Z -> Z.
Variable order : list string -> list string.
Hypothesis Order : forall l, Permutation (order l) l.
Variable keep : path -> bool.
Context {TS P : Type}.
Variable tr_fit_transform : TS -> frame R -> TS * res (frame R).
Variable tr_transform : TS -> frame R -> res (frame R).
Variable svi_run : Z -> nat -> nat -> prog arr -> res (list xr * P).
Variable nuts_run : Z -> nat -> nat -> nat -> prog arr -> res (nat -> nat -> env).
Variable latent_sites : prog arr -> list string.
Variable guide_draw : P -> Z -> nat -> prog arr -> env.
Variable complete_draw : env -> Z -> nat -> prog arr -> env.
Notation fit_forecaster := (fit_forecaster ns_of order keep tr_fit_transform svi_run nuts_run latent_sites).
Notation forecast_all_sites := (forecast_all_sites ns_of keep tr_transform guide_draw complete_draw).
Notation predict_model := (predict_model ns_of keep tr_transform).
Notation draws := (Engine.draws guide_draw complete_draw).
Notation day := (fun t => day (ns_of t)).

Lemma fitted_names_panel c ob y X ob' (f : fitted (P := P)) : fit_forecaster c ob y X = (ob', Ok f) -> c_hier c = true -> distinct_names c -> NoDup (map fe_name (p_fitted (ft_prepared f))).
Proof.
  intros H Hc DN. apply fit_forecaster_inv in H. destruct H as (s & ys & p & m & post & _ & HY & HF & _ & ->). cbn [ft_prepared].
  unfold fit_data in HF. rewrite Hc in HF. apply hierarchical_fit_inv in HF. destruct HF as (yb & tens & X0 & X1 & X3 & ob1 & t1 & t & td2 & data2 & _ & _ & _ & _ & _ & _ & _ & _ & _ & _ & HE & _).
  apply fit_effects_inv in HE as (main & dflt & EF & F & D). rewrite EF, map_app.
  assert (NM : map fe_name main = map l_name (effects_of c)) by (clear -F; induction F as [|l fe ls fs (Hn & _) F IH]; [reflexivity|]; cbn [map]; rewrite IH; f_equal; congruence).
  unfold distinct_names in DN. change (NoDup (default_name :: map l_name (effects_of c))) in DN. rewrite <- NM in DN. inversion DN as [|? ? D1 D2]. subst.
  destruct D as [[-> _]|(g & -> & GN & _)]; [cbn [map]; now rewrite app_nil_r|]. cbn [map]. rewrite GN.
  apply (Permutation_NoDup (l := default_name :: map fe_name main)); [apply Permutation_cons_append|now constructor].
Qed.

Theorem c112_panel c ob y Z0 ob' (f : fitted (P := P)) iv rg lg K u : fit_forecaster c ob y (Some Z0) = (ob', Ok f) -> c_hier c = true -> f_levels y <> 0 -> frame_wf y ->
  (forall r, In r (f_rows y) -> ~ In "__total" (r_path r)) -> balanced y -> clean_config c -> distinct_names c -> piecewise_options (o_trend ob') iv rg lg -> (0 < iv)%R ->
  o_transformer ob = None -> frame_wf Z0 -> f_levels Z0 <> 0 -> f_cols Z0 <> [] ->
  forall shared, (match c_shared c with None => [] | Some l => l end) = shared -> copyable shared (f_cols Z0) (bottom_series Z0) ->
  forall ds, StronglySorted Z.lt ds -> (forall t, In t ds <-> In t (map r_time (f_rows y))) -> increasing (map day ds) -> changepoint_count (List.length ds) iv rg K ->
  forall y2 X2 fh f2 out ts, forecast_all_sites c ob' f y2 (Some X2) fh = (f2, Ok out) -> f_levels y2 = f_levels y -> fh_to_index y2 fh = Ok ts ->
  forall cutoff, max_time (map snd (p_index (ft_prepared f))) = Ok cutoff -> to_absolute cutoff fh = ts ->
  index_series (labeller_of c f y2) = bottom_series X2 -> (forall q, In q (bottom_series X2) -> scale_of (ft_scale f) q = Some (u q)) ->
  frame_wf X2 -> f_levels X2 <> 0 -> f_cols X2 = f_cols Z0 -> bottom_series X2 = bottom_series Z0 -> covers X2 ts -> ts <> [] -> in_order ts ->
  exists m es, predict_model c ob' f y2 (Some X2) fh = Ok m /\ es = draws (engine_of c) (ft_posterior f) m /\ es <> [] /\
    (forall q t, In q (bottom_series X2) /\ In t ts <-> exists row, In row (f_rows out) /\ r_path row = q /\ r_time row = t) /\
    forall row i, In row (f_rows out) -> nth_error (bottom_series X2) i = Some (r_path row) -> let trend e := trend_at e lg K iv i (steps (map day ds) (day (r_time row))) in
      cell out row "trend" = Some (u (r_path row) * Rmean (map trend es))%R /\
      forall name ef cols, In (name, ef, cols) (p_fitted (ft_prepared f)) -> In (name, ef) (p_effects (ft_prepared f)) ->
      exists ef0, configured c name ef0 /\ numbering ef0 (wave_numbers ef) /\
      forall r t0, In r (f_rows X2) -> r_path r = r_path row -> r_time r = r_time row -> first_date (dates Z0 (r_path r)) t0 ->
      exists x vs, Forall2 (ResponseSpec.seen shared (bottom_series X2) X2 r) cols x /\
        Forall2 (fun e v => answers e name (fun k => wave_numbers ef k * List.length (bottom_series X2) + i) ef0 x (r_time row - t0) (trend e) v) es vs /\ cell out row name = Some (u (r_path row) * Rmean vs)%R.
Proof.
  intros HF Hc L Wy NT BA HC DN PO HI OT WZ LZ NZ shared SH CP ds SS Dts Inc HK y2 X2 fh f2 out ts HO L2 HT cutoff Hcut Hts IS HU WX LX CX BX CV N O.
  assert (SP : scalar_piecewise (o_trend ob')) by (destruct (o_trend ob'); try contradiction; destruct PO as (P1 & P2 & _); split; eauto).
  pose proof (hierarchical_trend_ok ns_of order keep tr_fit_transform svi_run nuts_run latent_sites _ _ _ _ _ _ HF Hc L Wy NT (or_introl SP)) as TOK.
  destruct (hierarchical_index ns_of order keep tr_fit_transform svi_run nuts_run latent_sites _ _ _ _ _ _ HF Hc L Wy NT) as (_ & RY & HN). specialize (HN y2 L2). rewrite IS in HN.
  assert (NE0 : bottom_series X2 <> []).
  { intros E. rewrite E in HN. destruct (f_rows y) as [|r l] eqn:Ey; [congruence|]. assert (I : In (r_path r) (series_ids y)) by (unfold series_ids; rewrite paths_unique_In, Ey; simpl; auto). destruct (series_ids y); [contradiction|discriminate]. }
  assert (HD : discrete c = false) by (unfold discrete; now rewrite Hc).
  destruct (site_column ns_of order keep tr_fit_transform tr_transform svi_run nuts_run latent_sites guide_draw complete_draw c ob y (Some Z0) ob' f HF HC TOK y2 (Some X2) fh f2 out u HO) as (m & times & HM & HT' & NE & RUN & COL & ROWS).
  { now rewrite IS. } { intros q Hq. rewrite HD. rewrite IS in Hq. now apply HU. } { congruence. }
  assert (times = ts) by congruence. subst times. rewrite IS in *.
  assert (NDts : NoDup ts) by (clear -O; induction O as [|t l S IH F]; constructor; auto; intros I; rewrite Forall_forall in F; specialize (F _ I); lia).
  assert (NDS : NoDup (bottom_series X2)) by (unfold bottom_series; apply NoDup_filter, paths_unique_NoDup).
  exists m, (draws (engine_of c) (ft_posterior f) m). split; [exact HM|]. split; [reflexivity|]. split; [exact NE|]. split.
  { intros q t. split; [intros [Hq Ht]; exact (ROWS q t Hq Ht)|]. intros (row & Hr & <- & <-). destruct (COL row Hr) as (i & j & Hi & Hj & _). split; eapply nth_error_In; eassumption. }
  intros row i Hrow Hi trend. destruct (COL row Hrow) as (i' & j & Hi' & Hj & CELL).
  assert (LI : i < List.length (bottom_series X2)) by (apply nth_error_Some; congruence).
  assert (i' = i) by (apply (proj1 (NoDup_nth_error _) NDS); [apply nth_error_Some; congruence|congruence]). subst i'. clear Hi'.
  assert (TR : forall e o tr, run e [] m = Ok (o, tr) -> exists tv, dict_get tr "trend" = Some (SDet tv) /\ nth_error (a_flat tv) (i * List.length ts + j) = Some (trend e)).
  { intros e o tr RU. destruct (c103_hierarchical ns_of order keep tr_fit_transform tr_transform svi_run nuts_run latent_sites c ob y (Some Z0) ob' f iv rg lg K HF Hc L Wy NT BA HC PO HI ds SS Dts Inc HK y2 (Some X2) fh m cutoff ts HM Hcut Hts NDts e o tr RU) as (tv & G & V & _).
    exists tv. split; [exact G|]. apply V; [lia|exact Hj]. }
  split.
  { apply CELL; [now left|]. clear -TR. generalize (draws (engine_of c) (ft_posterior f) m). intros es. induction es as [|e es IH]; constructor; auto. intros o tr RU. eauto. }
  intros name ef cols IF IE.
  assert (H104 := fun e o tr RU => c104_hierarchical ns_of order Order keep tr_fit_transform tr_transform svi_run nuts_run latent_sites c ob y Z0 ob' f HF Hc L Wy NT HC SP OT WZ LZ NZ shared SH CP y2 X2 fh m cutoff ts HM Hcut Hts WX LX CX BX CV N O e o tr RU).
  assert (CFG : exists ef0, configured c name ef0 /\ numbering ef0 (wave_numbers ef)).
  { destruct (draws (engine_of c) (ft_posterior f) m) as [|e es]; [congruence|]. destruct (RUN e (or_introl eq_refl)) as (o & tr & RU). destruct (H104 e o tr RU) as (tv & _ & EF). destruct (EF name ef IE) as (ef1 & cols1 & w & CF1 & _ & _ & NU & _). eauto. }
  destruct CFG as (ef0 & CF & NU). exists ef0. split; [exact CF|]. split; [exact NU|]. intros r t0 Hr Hp Et FD.
  assert (EACH : forall e, In e (draws (engine_of c) (ft_posterior f) m) -> exists v, (exists x, Forall2 (ResponseSpec.seen shared (bottom_series X2) X2 r) cols x /\ answers e name (fun k => wave_numbers ef k * List.length (bottom_series X2) + i) ef0 x (r_time row - t0) (trend e) v) /\
     forall o tr, run e [] m = Ok (o, tr) -> exists w, dict_get tr name = Some (SDet w) /\ nth_error (a_flat w) (i * List.length ts + j) = Some v).
  { intros e He. destruct (RUN e He) as (o & tr & RU). destruct (TR e o tr RU) as (tv & G & V). destruct (H104 e o tr RU) as (tv' & G' & EF).
    assert (tv' = tv) by congruence. subst tv'. destruct (EF name ef IE) as (ef1 & cols1 & w & CF1 & IF1 & GW & _ & VAL & _).
    assert (ef1 = ef0) by (eapply configured_unique; eauto). subst ef1.
    assert (Q : (name, ef, cols1) = (name, ef, cols)) by (apply (OverlapFrames.nodup_map_inj fe_name (p_fitted (ft_prepared f))); auto; eapply fitted_names_panel; eauto). injection Q as ->.
    rewrite <- Hp in Hi. destruct (VAL i j (r_time row) r t0 Hi Hj Hr Et FD) as (x & trd & v & VX & HTR & HV & AN). assert (trd = trend e) by congruence. subst trd.
    exists v. split; [eauto|]. intros o' tr' RU'. assert (tr' = tr) by congruence. subst tr'. eauto. }
  destruct (relation_list _ _ EACH) as (vs & FV).
  assert (XX : exists x, Forall2 (ResponseSpec.seen shared (bottom_series X2) X2 r) cols x). { destruct (draws (engine_of c) (ft_posterior f) m) as [|e es]; [congruence|]. destruct (EACH e (or_introl eq_refl)) as (v & (x & VX & _) & _). eauto. }
  destruct XX as (x & VX). exists x, vs. split; [exact VX|]. rewrite <- BX, <- CX in CP. split.
  - clear -FV VX CP. induction FV as [|e v es vs ((x' & VX' & A) & _) F IH]; constructor; auto. assert (x' = x) by (eapply seen_unique; eauto). now subst.
  - apply CELL; [right; apply in_map_iff; now exists (name, ef)|]. clear -FV. induction FV as [|e v es vs (_ & H) F IH]; constructor; auto.
Qed.
End Forecaster.
