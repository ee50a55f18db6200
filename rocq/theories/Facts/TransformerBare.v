(** A feature transformer that leaves a panel without exogenous columns without columns. *)
From Coq Require Import Reals String Bool ZArith List Lia.
From Verif.Model Require Import Base Num XFloat Regex Frame Arr Expand Aggregate Scale Predict Prog Likelihood Trend Effect
  TrendProg Engine Forecaster.
From Verif.Spec Require Import FrameSpec ProgSpec EffectSpec ForecasterSpec AlignSpec TotalSpec TransformerSpec.
From Verif.Facts Require Import BaseFacts FrameFacts ForecasterFacts ForecasterInv ForecasterTransformer HistoryTimes ShiftFacts InsampleFacts AlignForecaster TransformerFacts.
Import ListNotations.

Lemma bare_rows (l l' : list (row R)) : map (fun r => (r_path r, r_time r)) l' = map (fun r => (r_path r, r_time r)) l ->
  (forall r, In r l -> r_vals r = []) -> (forall r, In r l' -> r_vals r = []) -> l' = l.
Proof.
  revert l'. induction l as [|[p t v] tl IH]; intros [|[p' t' v'] tl'] E A B; cbn [map] in E; try discriminate; [reflexivity|].
  injection E as E1 E2 E3. cbn [r_path r_time] in E1, E2. subst.
  pose proof (A _ (or_introl eq_refl)) as V. pose proof (B _ (or_introl eq_refl)) as V'. cbn [r_vals] in V, V'. subst.
  f_equal. apply IH; [exact E3| |]; intros r Hr; [apply A|apply B]; now right.
Qed.

Lemma bare_frames (X0 X1 : frame R) : frame_wf X0 -> f_cols X0 = [] -> keeps_rows X0 X1 -> f_cols X1 = [] -> X1 = X0.
Proof.
  intros W C (KL & KI & KW) C1. destruct X0 as [l c rs], X1 as [l1 c1 rs1]. cbn [f_levels f_cols] in *. subst. f_equal.
  apply bare_rows; [exact KI| |]; intros r Hr; [destruct (W r Hr) as [H _]|destruct (KW r Hr) as [H _]]; cbn [f_cols] in H; now apply length_zero_iff_nil.
Qed.

Lemma bottom_cols (T X0 : frame R) : frame_wf T -> loc_bottom_series T = Ok X0 -> f_cols X0 = f_cols T.
Proof.
  intros W H. destruct (Nat.eq_dec (f_levels T) 0) as [Z|N].
  - unfold loc_bottom_series in H. rewrite Z in H. now injection H as <-.
  - rewrite (loc_bottom_spec T W N) in H. cbn zeta in H. destruct (f_rows _); [discriminate|]. now injection H as <-.
Qed.

Section Forecaster.
Variable ns_of : Z -> Z.
Variable order : list string -> list string.
Variable keep : path -> bool.
Context {TS : Type}.
Variable tr_fit_transform : TS -> frame R -> TS * res (frame R).
Variable tr_transform : TS -> frame R -> res (frame R).
Context {P : Type}.
Variable svi_run : Z -> nat -> nat -> prog arr -> res (list xr * P).
Variable nuts_run : Z -> nat -> nat -> nat -> prog arr -> res (nat -> nat -> env).
Variable latent_sites : prog arr -> list string.
Variable guide_draw : P -> Z -> nat -> prog arr -> env.
Variable complete_draw : env -> Z -> nat -> prog arr -> env.
Notation fit_forecaster := (fit_forecaster ns_of order keep tr_fit_transform svi_run nuts_run latent_sites).
Notation fit_data := (fit_data ns_of order keep tr_fit_transform).
Notation hierarchical_fit_data := (hierarchical_fit_data ns_of order keep tr_fit_transform).
Notation objects := (objects (TS := TS)).

Lemma hierarchical_bare c (ob : objects) s y X tr tr' T X0 : c_hier c = true ->
  o_transformer ob = Some tr -> given_table keep c y X = T -> f_cols X0 = [] ->
  loc_bottom_series T = Ok X0 -> tr_fit_transform tr X0 = (tr', Ok X0) ->
  snd (hierarchical_fit_data c ob s y X) = snd (hierarchical_fit_data c (without_transformer ob) s y X) /\
  forall r, snd (hierarchical_fit_data c ob s y X) = Ok r ->
    o_transformer (fst (hierarchical_fit_data c ob s y X)) = Some tr' /\
    o_trend (fst (hierarchical_fit_data c ob s y X)) = o_trend (fst (hierarchical_fit_data c (without_transformer ob) s y X)) /\
    p_has_exogenous (fst r) = false.
Proof.
  intros Hc HT HTb NC HB HX. unfold Forecaster.hierarchical_fit_data.
  destruct (loc_bottom_series (aggregate keep y)) as [yb|]; [|split; [reflexivity|discriminate]].
  destruct (series_to_tensor yb) as [tensor|]; [|split; [reflexivity|discriminate]].
  assert (E0 : match X with
     | None => empty_frame (f_levels (aggregate keep y)) (index_of (aggregate keep y))
     | Some X => if no_columns X then empty_frame (f_levels (aggregate keep y)) (index_of (aggregate keep y)) else X end = T).
  { rewrite <- HTb. unfold given_table. rewrite Hc. rewrite aggregate_levels. destruct X; [cbn [andb]|]; reflexivity. }
  rewrite E0, HB. assert (NC1 : no_columns X0 = true) by (unfold no_columns; now rewrite NC).
  unfold run_fit_transform, without_transformer. cbn [o_transformer o_trend]. rewrite HT, HX. cbn [fst snd].
  rewrite NC1. cbn [negb bind].
  unfold get_trend_model. cbn [o_trend]. destruct (match c_trend c with TrendName s0 => named_trend c s0 | TrendObject => Ok (o_trend ob) end) as [t0|]; [|split; [reflexivity|discriminate]].
  destruct (trend_fit ns_of order t0 (Some X0) yb (scale_number s)) as [t er]. cbn [fst snd o_trend o_transformer].
  split; [reflexivity|]. intros r Hr. split; [reflexivity|]. split; [reflexivity|].
  destruct er; [discriminate|]. repeat inv_bind Hr. injection Hr as <-. reflexivity.
Qed.

Theorem bare_fit c (ob : objects) y X tr tr' X0 X1 : c_hier c = true -> o_transformer ob = Some tr ->
  f_cols (given_table keep c y X) = [] -> transformer_input c (given_table keep c y X) = Ok X0 ->
  tr_fit_transform tr X0 = (tr', Ok X1) -> keeps_rows X0 X1 -> f_cols X1 = [] -> frame_wf (given_table keep c y X) ->
  snd (fit_forecaster c ob y X) = snd (fit_forecaster c (without_transformer ob) y X) /\
  forall f, snd (fit_forecaster c ob y X) = Ok f ->
    o_transformer (fst (fit_forecaster c ob y X)) = Some tr' /\
    o_trend (fst (fit_forecaster c ob y X)) = o_trend (fst (fit_forecaster c (without_transformer ob) y X)) /\
    p_has_exogenous (ft_prepared f) = false.
Proof.
  intros Hc HT GC HI HX K NC W. unfold transformer_input in HI. rewrite Hc in HI.
  assert (C0 : f_cols X0 = []) by (rewrite (bottom_cols _ _ W HI); exact GC).
  pose proof (bare_frames _ _ (loc_bottom_wf _ _ W HI) C0 K NC) as ->. unfold Forecaster.fit_forecaster.
  destruct (set_y_scales (c_scale c) y) as [s|]; [|split; [reflexivity|discriminate]]. cbn [bind].
  destruct (scale_y (discrete c) s y) as [ys|] eqn:SY; [|split; [reflexivity|discriminate]]. cbn [bind].
  apply apply_scale_index in SY. destruct SY as [SI SL]. unfold Forecaster.fit_data. rewrite Hc.
  destruct (hierarchical_bare c ob s ys X tr tr' (given_table keep c y X) X0 Hc HT (given_index keep c y ys X SL SI) C0 HI HX) as [K1 K2].
  destruct (hierarchical_fit_data c ob s ys X) as [ob1 d1], (hierarchical_fit_data c (without_transformer ob) s ys X) as [ob2 d2].
  cbn [fst snd] in *. subst d2. split; [reflexivity|]. intros f Hf. destruct d1 as [[p m]|]; [|discriminate]. cbn [bind] in Hf. inv_bind Hf. injection Hf as <-.
  exact (K2 _ eq_refl).
Qed.

Notation predictive_samples_dict := (predictive_samples_dict ns_of keep tr_transform guide_draw complete_draw).
Notation forecast_samples := (forecast_samples ns_of keep tr_transform guide_draw complete_draw).
Notation forecast_point := (forecast_point ns_of keep tr_transform guide_draw complete_draw).
Notation forecast_quantiles := (forecast_quantiles ns_of keep tr_transform guide_draw complete_draw).
Notation forecast_all_sites := (forecast_all_sites ns_of keep tr_transform guide_draw complete_draw).
Notation forecast_all_sites_samples := (forecast_all_sites_samples ns_of keep tr_transform guide_draw complete_draw).

Lemma bare_dict c (ob ob' : objects) (f : fitted (P := P)) y X fh : c_hier c = true -> o_trend ob = o_trend ob' ->
  p_has_exogenous (ft_prepared f) = false -> predictive_samples_dict c ob f y X fh = predictive_samples_dict c ob' f y X fh.
Proof.
  intros Hc HT HE. unfold Forecaster.predictive_samples_dict, hierarchical_predict_model. rewrite Hc. cbv zeta. rewrite HE, HT. reflexivity.
Qed.

Theorem bare_transformer c (ob : objects) y X tr tr' X0 X1 : c_hier c = true -> o_transformer ob = Some tr ->
  f_cols (given_table keep c y X) = [] -> frame_wf (given_table keep c y X) -> transformer_input c (given_table keep c y X) = Ok X0 ->
  tr_fit_transform tr X0 = (tr', Ok X1) -> keeps_rows X0 X1 -> f_cols X1 = [] ->
  snd (fit_forecaster c ob y X) = snd (fit_forecaster c (without_transformer ob) y X) /\
  forall ob1 ob2 f, fit_forecaster c ob y X = (ob1, Ok f) -> fst (fit_forecaster c (without_transformer ob) y X) = ob2 ->
    o_transformer ob1 = Some tr' /\
    forall X2 fh,
      forecast_samples c ob1 f y X2 fh = forecast_samples c ob2 f y X2 fh /\
      forecast_point c ob1 f y X2 fh = forecast_point c ob2 f y X2 fh /\
      (forall alphas, forecast_quantiles c ob1 f y X2 fh alphas = forecast_quantiles c ob2 f y X2 fh alphas) /\
      forecast_all_sites c ob1 f y X2 fh = forecast_all_sites c ob2 f y X2 fh /\
      forecast_all_sites_samples c ob1 f y X2 fh = forecast_all_sites_samples c ob2 f y X2 fh.
Proof.
  intros Hc HT GC W HI HX K NC. destruct (bare_fit c ob y X tr tr' X0 X1 Hc HT GC HI HX K NC W) as [A B].
  split; [exact A|]. intros ob1 ob2 f E1 E2. rewrite E1 in B. cbn [fst snd] in B. rewrite E2 in B. destruct (B f eq_refl) as (B1 & B2 & B3).
  split; [exact B1|]. intros X2 fh. pose proof (bare_dict c ob1 ob2 f y X2 fh Hc B2 B3) as D.
  repeat split; intros; unfold Forecaster.forecast_quantiles, Forecaster.forecast_point, Forecaster.forecast_samples, Forecaster.forecast_all_sites, Forecaster.forecast_all_sites_samples; rewrite ?D; reflexivity.
Qed.
End Forecaster.
