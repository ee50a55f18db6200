(** The model of a forecast of a well-posed panel runs for every draw. *)
From Coq Require Import Reals Lra String Bool ZArith List Permutation Lia Sorted.
From Verif.Model Require Import Base Num XFloat Regex Frame Arr Expand Aggregate Scale Prog Likelihood Effect Trend TrendProg Engine Predict Forecaster Tensors.
From Verif.Spec Require Import DocsSpec FrameSpec ScaleSpec ProgSpec PredictSpec EffectSpec TrendSpec ForecasterSpec AlignSpec ShapeSpec SiteSpec LineSpec PosteriorSpec TotalSpec PanelSpec.
From Verif.Facts Require Import PredictProps BaseFacts NumFacts OrderFacts FrameFacts FrameProps ArrFacts ProgFacts MeanFacts LikelihoodFacts ScaleFacts ExpandFacts EffectFacts EffectFourier EffectPredict
  TimeFacts TrendFacts AlignFacts PredictFacts ForecasterFacts ForecasterInv ForecasterProps ForecasterTransformer ModelProps EngineFacts CompleteFacts ShapeFacts SiteFacts AlignForecaster ComponentFacts AlikeFacts HistoryTimes
  DocsExamples TotalFacts TotalTrend LineFacts TotalFit TotalForecast PosteriorFacts TotalSites PanelGrid PanelEffects PanelTrend PanelBottom PanelScale PanelFit PanelForecast.
Import ListNotations.
Local Open Scope string_scope.

Section Forecast.
Variable ns_of : Z -> Z.
Variable order : list string -> list string.
Hypothesis Order : forall l, Permutation (order l) l.
Variable keep : path -> bool.
Context {TS P : Type}.
Variable tr_fit_transform : TS -> frame R -> TS * res (frame R).
Variable tr_transform : TS -> frame R -> res (frame R).
Variable svi_run : Z -> nat -> nat -> prog arr -> res (list xr * P).
Variable nuts_run : Z -> nat -> nat -> nat -> prog arr -> res (nat -> nat -> env).
Variable latent_sites : prog arr -> list string.
Variable guide_draw : P -> Z -> nat -> prog arr -> env.
Variable complete_draw : env -> Z -> nat -> prog arr -> env.
Notation fit_forecaster := (fit_forecaster ns_of order keep tr_fit_transform svi_run nuts_run latent_sites).
Notation forecast_all_sites := (forecast_all_sites ns_of keep tr_transform guide_draw complete_draw).
Notation forecast_all_sites_samples := (forecast_all_sites_samples ns_of keep tr_transform guide_draw complete_draw).
Notation fit_panel_total := (fit_panel_total ns_of order Order keep tr_fit_transform svi_run nuts_run latent_sites).

Theorem panel_model_total c (ob0 ob : objects (TS := TS)) ids times y X f X2 fh cutoff : well_posed_panel ns_of c ids times y X -> clean_config c -> o_transformer ob0 = None ->
  fit_forecaster c ob0 y X = (ob, Ok f) -> max_time times = Ok cutoff -> NoDup (to_absolute cutoff fh) -> to_absolute cutoff fh <> [] -> panel_future ids (used_cols X) y (to_absolute cutoff fh) X2 ->
  max_time (map snd (p_index (ft_prepared f))) = Ok cutoff /\ exists m, predict_model ns_of keep tr_transform c ob f y X2 fh = Ok m /\ forall e, exists o tr, run e [] m = Ok (o, tr).
Proof.
  intros W CL HT EF EC NH EH HX2. destruct (pp_ids _ _ _ _ _ _ W) as (Ni & Two & NTI). destruct (pp_times _ _ _ _ _ _ W) as (St & TwoT). destruct (pp_target _ _ _ _ _ _ W) as (PY & C1 & NTY).
  pose proof (ids_nonempty ids Two) as Ei. pose proof (times_nonempty times TwoT) as Et. pose proof (strip_grid ids times y PY NTY NTI) as G.
  destruct (fit_panel_total c ob0 ids times y X W CL HT) as (ob' & tab & p & m0 & cols & EF' & _ & T0 & TC & RP & EI).
  rewrite EF in EF'. injection EF' as <- EP. symmetry in EP. destruct (infer _ _ _ _ _) as [post|] eqn:EPo; [|discriminate]. cbn [bind] in EP. injection EP as <-.
  cbn [ft_posterior] in *. set (hz := to_absolute cutoff fh) in *. set (f := mkFitted (STable tab) p post) in *.
  pose proof (divided_grid ids times tab _ G) as GS.
  assert (EYF : aggregate keep (divided_panel tab y) = aggregate keep (divided_panel tab (strip y))) by (rewrite <- divided_strip; symmetry; apply aggregate_strip; exact (proj1 (proj2 PY))).
  rewrite EYF in EI. set (ys := divided_panel tab (strip y)) in *.
  assert (NTS : forall r, In r (f_rows ys) -> ~ In "__total" (r_path r)) by (intros r Hr; unfold ys, divided_panel in Hr; cbn [f_rows] in Hr; apply in_map_iff in Hr as (r0 & <- & Hr); exact (strip_no_totals y r0 Hr)).
  pose proof (aggregate_panel keep ids times ys GS Ei Et NTS) as PA.
  (* the cutoff *)
  pose proof (target_times ids times y PY NTY NTI Ei) as TY.
  assert (CY : max_time (map r_time (f_rows y)) = Ok cutoff) by (rewrite <- EC; apply max_time_set; exact TY).
  assert (CI : max_time (map snd (p_index p)) = Ok cutoff).
  { rewrite <- EC. apply max_time_set. intros t. rewrite EI, <- index_times, aggregate_times. split.
    - intros (b & Hb & _ & <-). now apply (grid_row ids times ys GS).
    - intros Ht. destruct (nonempty_In _ Ei) as (q & Hq). destruct (grid_label ids times ys GS q t Hq Ht) as (r & Hr & _ & E). exists r. split; [exact Hr|]. split; [|exact E]. right. unfold no_total. apply negb_true_iff, str_in_false. now apply NTS. }
  (* the exogenous data *)
  destruct (future_panel keep ids times (used_cols X) y hz X2 PY NTY NTI Ni Ei Et NH EH HX2) as (times2 & PX & IX & CX). set (X0 := future_frame keep y hz X2) in *.
  assert (Et2 : times2 <> []) by (destruct (nonempty_In _ EH) as (t & Ht); apply IX in Ht; destruct times2; [contradiction|discriminate]).
  destruct (panel_bottom ids times2 X0 PX NTI Ei Et2) as (Xb & EXb & GXb & CXb).
  assert (HEX : exists Xe ex, (if p_has_exogenous p then
           if forallb (fun t => existsb (Z.eqb t) (map r_time (f_rows Xb))) hz then
             Xb <- run_transform tr_transform ob Xb ;; ex <- attr (p_expander p) ;;
             '(Xb, ex) <- expand_transform 0%R (fun _ => false) ex Xb ;; Ok (Xb, Some ex)
           else Err AssertionError else Ok (Xb, p_expander p)) = Ok (Xe, ex) /\ grid ids times2 Xe /\ forall x, In x cols -> In x (f_cols Xe)).
  { destruct RP as (_ & _ & _ & _ & _ & RX). destruct (p_has_exogenous p).
    - destruct RX as (_ & ex & Eex & SX & MX & HC).
      assert (B : forallb (fun t => existsb (Z.eqb t) (map r_time (f_rows Xb))) hz = true).
      { apply forallb_forall. intros t Ht. apply existsb_exists. exists t. split; [|apply Z.eqb_refl]. destruct (nonempty_In _ Ei) as (q & Hq). destruct (grid_label ids times2 Xb GXb q t Hq (IX t Ht)) as (r & Hr & _ & E). apply in_map_iff. eauto. }
      rewrite B. unfold run_transform. rewrite T0. cbn [bind]. rewrite Eex. cbn [attr bind].
      destruct (expand_total ids times2 Xb ex GXb Ei Et2) as (Y & ex' & EE & GE & CE); [intros c0 H0; rewrite CXb; apply CX, MX, H0|]. specialize (CE SX). rewrite EE. cbn [bind]. exists Y, (Some ex'). split; [reflexivity|]. split; [exact GE|].
      intros x Hx. apply CE. destruct (HC x Hx) as [[H|H] H']; (split; [|exact H']); [left; rewrite CXb; now apply CX|right; exact H].
    - destruct RX as [-> _]. exists Xb, (p_expander p). split; [reflexivity|]. split; [exact GXb|]. intros x []. }
  destruct HEX as (Xe & ex & EXe & GXe & CXe).
  destruct (ready_model_panel ns_of c (STable tab) p (o_trend ob) ids (used_cols X) cols Xe times2 hz Ni Two (pp_class _ _ _ _ _ _ W) RP GXe CXe IX NH EH) as (td & data & Etd & Edata & YT & YM).
  set (m := model_call c (STable tab) p (o_trend ob) td None (Some data)) in *.
  assert (EM : hierarchical_predict_model ns_of keep tr_transform c ob f y X2 fh = Ok (m, ex)).
  { unfold hierarchical_predict_model. cbn [ft_prepared f]. rewrite CI. cbn [bind]. fold hz. cbv zeta. fold (future_frame keep y hz X2). fold X0. rewrite EXb. cbn [bind]. rewrite EXe. cbn [bind]. rewrite Etd. cbn [bind]. rewrite Edata. reflexivity. }
  assert (EM' : predict_model ns_of keep tr_transform c ob f y X2 fh = Ok m) by (unfold predict_model; rewrite (pp_class _ _ _ _ _ _ W), EM; reflexivity).
  split; [exact CI|]. exists m. split; [exact EM'|]. intros e. destruct (YM e None I) as (o & Y). fold m in Y.
  destruct (c71_predict ns_of order keep tr_fit_transform tr_transform svi_run nuts_run latent_sites c ob0 y X ob f EF CL ob y X2 fh m) with (e := e) (o := o) as (tr & Hr & _); eauto.
Qed.
End Forecast.
