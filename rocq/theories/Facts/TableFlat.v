(** The columns of [predict_all_sites] with a flat trend. *)
From Coq Require Import Reals Lra String Bool ZArith List Permutation Lia Sorted.
From Verif.Model Require Import Base Num XFloat Frame Arr Expand Aggregate Scale Prog Likelihood Effect Trend TrendProg Engine Predict Forecaster.
From Verif.Spec Require Import FrameSpec ScaleSpec ProgSpec PredictSpec EffectSpec TrendSpec ForecasterSpec AlignSpec ShapeSpec SiteSpec ComponentSpec OverlapSpec DocsSpec ResponseSpec DrawSpec TableSpec.
From Verif.Facts Require Import BaseFacts NumFacts OrderFacts FrameFacts FrameProps ArrFacts ProgFacts MeanFacts LikelihoodFacts EffectPredict PredictFacts ForecasterFacts ForecasterInv
  ForecasterProps ModelProps EngineFacts AlignFacts TrendFacts CompleteFacts ShapeFacts SiteFacts ComponentFacts DocsForecaster DocsTrend ResponseForecaster UpwardForecaster SeasonForecaster OverlapFrames TableFacts.
Import ListNotations.
Local Open Scope string_scope.

Section Forecaster.
Variable ns_of : Z -> Z.
Variable order : list string -> list string.
Variable keep : path -> bool.
Context {TS P : Type}.
Variable tr_fit_transform : TS -> frame R -> TS * res (frame R).
Variable tr_transform : TS -> frame R -> res (frame R).
Variable svi_run : Z -> nat -> nat -> prog arr -> res (list xr * P).
Variable nuts_run : Z -> nat -> nat -> nat -> prog arr -> res (nat -> nat -> env).
Variable latent_sites : prog arr -> list string.
Variable guide_draw : P -> Z -> nat -> prog arr -> env.
Variable complete_draw : env -> Z -> nat -> prog arr -> env.
Notation fit_forecaster := (fit_forecaster ns_of order keep tr_fit_transform svi_run nuts_run latent_sites).
Notation forecast_all_sites := (forecast_all_sites ns_of keep tr_transform guide_draw complete_draw).
Notation predict_model := (predict_model ns_of keep tr_transform).
Notation draws := (Engine.draws guide_draw complete_draw).

Theorem c112_flat c ob y X ob' (f : fitted (P := P)) s u : fit_forecaster c ob y X = (ob', Ok f) -> c_hier c = false -> f_levels y = 0 -> frame_wf y -> clean_config c -> distinct_names c ->
  flat_trend (o_trend ob') -> ft_scale f = SFloat s -> factor c f u ->
  (forall Z, X = Some Z -> frame_wf Z) -> (forall s Z s' Z', frame_wf Z -> tr_fit_transform s Z = (s', Ok Z') -> frame_wf Z') ->
  forall ds t0, map r_time (f_rows y) = ds -> first_date ds t0 ->
  forall y2 X2 fh f2 out cutoff ts Xt, forecast_all_sites c ob' f y2 X2 fh = (f2, Ok out) -> f_levels y2 = 0 -> max_time (map r_time (f_rows y2)) = Ok cutoff -> to_absolute cutoff fh = ts ->
  run_transform tr_transform ob' (supplied X2 ts) = Ok Xt -> covers Xt ts -> frame_wf Xt -> f_levels Xt = 0 -> ts <> [] -> in_order ts ->
  exists m es, predict_model c ob' f y2 X2 fh = Ok m /\ es = draws (engine_of c) (ft_posterior f) m /\ es <> [] /\
    (forall t, In t ts <-> exists row, In row (f_rows out) /\ r_time row = t) /\
    forall row, In row (f_rows out) -> let trend e := e "trend_flat_coefficient" 0 in
      cell out row "trend" = Some (u * Rmean (map trend es))%R /\
      forall name ef cols, In (name, ef, cols) (p_fitted (ft_prepared f)) -> In (name, ef) (p_effects (ft_prepared f)) ->
      exists ef0, configured c name ef0 /\
      forall r, In r (f_rows Xt) -> r_time r = r_time row ->
      exists x vs, values_at Xt r cols x /\ Forall2 (fun e v => answers e name (fun k => k) ef0 x (r_time row - t0) (trend e) v) es vs /\ cell out row name = Some (u * Rmean vs)%R.
Proof.
  intros HF Hc L Wy HC DN SP SC FU WX WT ds t0 Hds FD y2 X2 fh f2 out cutoff ts Xt HO L2 Hcut Hts RX CV WV LV N O.
  pose proof (univariate_trend_ok ns_of order keep tr_fit_transform svi_run nuts_run latent_sites _ _ _ _ _ _ HF Hc L (or_intror SP)) as TOK.
  assert (IS : index_series (labeller_of c f y2) = [[]]) by (unfold index_series, labeller_of; cbn [lb_levels]; now rewrite L2).
  destruct (site_column ns_of order keep tr_fit_transform tr_transform svi_run nuts_run latent_sites guide_draw complete_draw c ob y X ob' f HF HC TOK y2 X2 fh f2 out (fun _ => u) HO) as (m & times & HM & HT & NE & RUN & COL & ROWS).
  { rewrite IS. discriminate. }
  { intros q _. unfold unit_of. destruct FU as [[D ->]|[D E]]; rewrite D; [reflexivity|]. rewrite E. reflexivity. }
  { intros _ tab E. congruence. }
  assert (times = ts) by (unfold fh_to_index in HT; rewrite Hcut in HT; cbn [bind] in HT; congruence). subst times. rewrite IS in *.
  exists m, (draws (engine_of c) (ft_posterior f) m). split; [exact HM|]. split; [reflexivity|]. split; [exact NE|]. split.
  { intros t. split.
    - intros Ht. destruct (ROWS [] t (or_introl eq_refl) Ht) as (r & Hr & _ & Et). eauto.
    - intros (row & Hr & <-). destruct (COL row Hr) as (i & j & _ & Hj & _). now apply nth_error_In in Hj. }
  intros row Hrow trend. destruct (COL row Hrow) as (i & j & Hi & Hj & CELL). destruct i as [|[|i]]; try discriminate. cbn [Nat.mul Nat.add] in CELL.
  assert (TR : forall e o tr, run e [] m = Ok (o, tr) -> exists tv, dict_get tr "trend" = Some (SDet tv) /\ nth_error (a_flat tv) j = Some (trend e)).
  { intros e o tr RU. subst ds. destruct (univariate_replies ns_of order keep tr_fit_transform tr_transform svi_run nuts_run latent_sites c ob ob' y X f HF Hc L Wy HC (or_intror SP) WX WT _ FD _ _ _ _ _ _ _ HM Hcut Hts RX CV WV LV N O _ _ _ RU) as (td & tv & lt & TD & E & G & LN & _).
    exists tv. split; [exact G|]. destruct (nth_error (a_flat tv) j) as [v|] eqn:Q; [|apply nth_error_None in Q; assert (j < List.length ts) by (apply nth_error_Some; congruence); lia].
    f_equal. exact (flat_everywhere _ _ _ _ _ _ _ _ _ _ SP TD E Q). }
  split.
  { apply CELL; [now left|]. clear -TR. generalize (draws (engine_of c) (ft_posterior f) m). intros es. induction es as [|e es IH]; constructor; auto. intros o tr RU. eauto. }
  intros name ef cols IF IE. subst ds.
  destruct (univariate_state ns_of order keep tr_fit_transform svi_run nuts_run latent_sites _ _ _ _ _ _ _ HF Hc L FD WX WT Wy _ _ _ IF) as [_ (ef0 & CF & _)].
  exists ef0. split; [exact CF|]. intros r Hr Et.
  assert (EACH : forall e, In e (draws (engine_of c) (ft_posterior f) m) -> exists v, (exists x, values_at Xt r cols x /\ answers e name (fun k => k) ef0 x (r_time row - t0) (trend e) v) /\
     forall o tr, run e [] m = Ok (o, tr) -> exists w, dict_get tr name = Some (SDet w) /\ nth_error (a_flat w) j = Some v).
  { intros e He. destruct (RUN e He) as (o & tr & RU). destruct (TR e o tr RU) as (tv & G & V).
    destruct (c104_univariate ns_of order keep tr_fit_transform tr_transform svi_run nuts_run latent_sites c ob y X ob' f t0 HF Hc L Wy HC (or_intror SP) WX WT FD y2 X2 fh m cutoff ts Xt HM Hcut Hts RX CV WV LV N O e o tr RU) as (tv' & G' & EF).
    assert (tv' = tv) by congruence. subst tv'. destruct (EF name ef IE) as (ef1 & cols1 & w & CF1 & IF1 & GW & VAL & _).
    assert (ef1 = ef0) by (eapply configured_unique; eauto). subst ef1.
    assert (Q : (name, ef, cols1) = (name, ef, cols)) by (apply (OverlapFrames.nodup_map_inj fe_name (p_fitted (ft_prepared f))); auto; eapply fitted_names; eauto). injection Q as ->.
    destruct (VAL j (r_time row) r Hj Hr Et) as (x & trd & v & VX & HTR & HV & AN). assert (trd = trend e) by congruence. subst trd.
    exists v. split; [eauto|]. intros o' tr' RU'. assert (tr' = tr) by congruence. subst tr'. eauto. }
  destruct (relation_list _ _ EACH) as (vs & FV).
  assert (XX : exists x, values_at Xt r cols x). { destruct (draws (engine_of c) (ft_posterior f) m) as [|e es]; [congruence|]. destruct (EACH e (or_introl eq_refl)) as (v & (x & VX & _) & _). eauto. }
  destruct XX as (x & VX). exists x, vs. split; [exact VX|]. split.
  - clear -FV VX. induction FV as [|e v es vs ((x' & VX' & A) & _) F IH]; constructor; auto.
    assert (x' = x); [|now subst]. unfold values_at in *. rewrite VX in VX'. clear -VX'. revert x' VX'. induction x as [|a x IH]; intros [|b x'] E; try discriminate; [reflexivity|]. cbn [map] in E. injection E as -> E. f_equal. now apply IH.
  - apply CELL; [right; apply in_map_iff; now exists (name, ef)|]. clear -FV. induction FV as [|e v es vs (_ & H) F IH]; constructor; auto.
Qed.
End Forecaster.
