(** C118: forecasts with more of what helps are not lower. *)
From Coq Require Import Reals Lra String Bool ZArith List Sorted Permutation.
From Verif.Model Require Import Base Num XFloat Frame Arr Expand Aggregate Scale Prog Likelihood Effect Trend TrendProg Engine Forecaster.
From Verif.Spec Require Import RegexSpec FrameSpec TrendSpec ProgSpec ForecasterSpec AlignSpec SiteSpec ShapeSpec OverlapSpec ComponentSpec ResponseSpec UpwardSpec.
From Verif.Facts Require Import EffectExamples ForecasterExamples EngineExamples HistoryExamples ComponentExamples CounterExamples OverlapExamples TotalExamples DocsExamples ResponseExamples InsampleExamples CellExamples
  UpwardForecaster UpwardPanel UpwardTransformed UpwardExamples TransformedExamples.
Import ListNotations.
Local Open Scope string_scope.

Section Any.
Variable ns_of : Z -> Z.
Variable order : list string -> list string.
Variable keep : path -> bool.
Context {TS : Type}.
Variable tr_fit_transform : TS -> frame R -> TS * res (frame R).
Variable tr_transform : TS -> frame R -> res (frame R).
Context {P : Type}.
Variable svi_run : Z -> nat -> nat -> prog arr -> res (list xr * P).
Variable nuts_run : Z -> nat -> nat -> nat -> prog arr -> res (nat -> nat -> env).
Variable latent_sites : prog arr -> list string.
Notation fit_forecaster := (fit_forecaster ns_of order keep tr_fit_transform svi_run nuts_run latent_sites).
Notation predict_model := (predict_model ns_of keep tr_transform).

(** * C118 *)
(** Full statement: for one posterior draw and one date, a forecast in which no input is lower (and every coefficient, scale,
    rate, slope and maximum is nonnegative) has no component lower, nor the expected observation.  It is false: the
    component of a Hill effect falls when its input leaves zero ([C118_hill_zero_refuted]).  Proved here is everything else:
    Hill inputs which are positive in both forecasts, all linear effects (inputs with a negative coefficient may be lowered),
    log effects, lift experiments around these, seasonalities, additive and multiplicative (then with a nonnegative trend).
    The two forecasts may have different horizons, different exogenous data and different recent observations; [t] is a
    date in both, and [U1], [U2] are the exogenous data after the feature transformer. *)
Theorem C118_forecast_partial : forall c ob ob' y X (f : fitted (P := P)), fit_forecaster c ob y X = (ob', Ok f) -> c_hier c = false -> f_levels y = 0 -> frame_wf y -> clean_config c ->
  scalar_piecewise (o_trend ob') \/ flat_trend (o_trend ob') -> (forall Z, X = Some Z -> frame_wf Z) -> (forall s Z s' Z', frame_wf Z -> tr_fit_transform s Z = (s', Ok Z') -> frame_wf Z') ->
  forall y1 y2 X1 X2 fh1 fh2 m1 m2 cut1 cut2 ts1 ts2 U1 U2, predict_model c ob' f y1 X1 fh1 = Ok m1 -> predict_model c ob' f y2 X2 fh2 = Ok m2 ->
  max_time (map r_time (f_rows y1)) = Ok cut1 -> max_time (map r_time (f_rows y2)) = Ok cut2 -> to_absolute cut1 fh1 = ts1 -> to_absolute cut2 fh2 = ts2 ->
  run_transform tr_transform ob' (supplied X1 ts1) = Ok U1 -> run_transform tr_transform ob' (supplied X2 ts2) = Ok U2 ->
  covers U1 ts1 -> covers U2 ts2 -> frame_wf U1 -> frame_wf U2 -> f_levels U1 = 0 -> f_levels U2 = 0 -> in_order ts1 -> in_order ts2 ->
  forall e o1 o2 tr1 tr2, run e [] m1 = Ok (o1, tr1) -> run e [] m2 = Ok (o2, tr2) ->
  forall t j1 j2 r1 r2, nth_error ts1 j1 = Some t -> nth_error ts2 j2 = Some t -> In r1 (f_rows U1) -> In r2 (f_rows U2) -> r_time r1 = t -> r_time r2 = t ->
  f_rows y <> [] -> (c_likelihood c = "gamma" -> 0 < e "noise_scale" 0%nat)%R -> (c_likelihood c = "negbinomial" -> 0 <= scale_number (ft_scale f))%R ->
  (forall name ef ef0 cols trend x1 x2, In (name, ef, cols) (p_fitted (ft_prepared f)) -> configured c name ef0 -> component_at tr1 "trend" j1 trend -> values_at U1 r1 cols x1 -> values_at U2 r2 cols x2 ->
     raises e name trend ef0 x1 x2) ->
  (exists trend, component_at tr1 "trend" j1 trend /\ component_at tr2 "trend" j2 trend) /\
  (forall name, In name (map fst (p_effects (ft_prepared f))) -> exists v1 v2, component_at tr1 name j1 v1 /\ component_at tr2 name j2 v2 /\ (v1 <= v2)%R) /\
  exists x1 x2, expected tr1 j1 x1 /\ expected tr2 j2 x2 /\ (x1 <= x2)%R.
Proof. exact (c118_forecast ns_of order keep tr_fit_transform tr_transform svi_run nuts_run latent_sites). Qed.

(** A Hill effect has its largest value at zero: with a positive maximum and half-maximum its component is strictly lower for
    every positive input, and so is the expected observation when nothing else changes (here with the normal likelihood). *)
Theorem C118_hill_zero_refuted : forall c ob ob' y X (f : fitted (P := P)), fit_forecaster c ob y X = (ob', Ok f) -> c_hier c = false -> f_levels y = 0 -> frame_wf y -> clean_config c ->
  scalar_piecewise (o_trend ob') \/ flat_trend (o_trend ob') -> (forall Z, X = Some Z -> frame_wf Z) -> (forall s Z s' Z', frame_wf Z -> tr_fit_transform s Z = (s', Ok Z') -> frame_wf Z') ->
  forall y1 y2 X1 X2 fh1 fh2 m1 m2 cut1 cut2 ts1 ts2 U1 U2, predict_model c ob' f y1 X1 fh1 = Ok m1 -> predict_model c ob' f y2 X2 fh2 = Ok m2 ->
  max_time (map r_time (f_rows y1)) = Ok cut1 -> max_time (map r_time (f_rows y2)) = Ok cut2 -> to_absolute cut1 fh1 = ts1 -> to_absolute cut2 fh2 = ts2 ->
  run_transform tr_transform ob' (supplied X1 ts1) = Ok U1 -> run_transform tr_transform ob' (supplied X2 ts2) = Ok U2 ->
  covers U1 ts1 -> covers U2 ts2 -> frame_wf U1 -> frame_wf U2 -> f_levels U1 = 0 -> f_levels U2 = 0 -> in_order ts1 -> in_order ts2 ->
  forall e o1 o2 tr1 tr2, run e [] m1 = Ok (o1, tr1) -> run e [] m2 = Ok (o2, tr2) ->
  forall t j1 j2 r1 r2, nth_error ts1 j1 = Some t -> nth_error ts2 j2 = Some t -> In r1 (f_rows U1) -> In r2 (f_rows U2) -> r_time r1 = t -> r_time r2 = t ->
  forall name, f_rows y <> [] -> In name (map fst (p_effects (ft_prepared f))) ->
  (forall ef ef0 cols trend x1 x2, In (name, ef, cols) (p_fitted (ft_prepared f)) -> configured c name ef0 -> component_at tr1 "trend" j1 trend -> values_at U1 r1 cols x1 -> values_at U2 r2 cols x2 ->
     starts e name trend ef0 x1 x2) ->
  (exists v1 v2, component_at tr1 name j1 v1 /\ component_at tr2 name j2 v2 /\ (v2 < v1)%R) /\
  (c_likelihood c = "normal" ->
   (forall other ef cols x1 x2, other <> name -> In (other, ef, cols) (p_fitted (ft_prepared f)) -> values_at U1 r1 cols x1 -> values_at U2 r2 cols x2 -> x1 = x2) ->
   exists x1 x2, expected tr1 j1 x1 /\ expected tr2 j2 x2 /\ (x2 < x1)%R).
Proof.
  intros c ob ob' y X f HF Hc L Wy HC TT WX WT y1 y2 X1 X2 fh1 fh2 m1 m2 cut1 cut2 ts1 ts2 U1 U2 M1 M2 K1 K2 H1 H2 T1 T2 C1 C2 W1 W2 L1 L2 O1 O2 e o1 o2 tr1 tr2 R1 R2 t j1 j2 r1 r2 J1 J2 I1 I2 D1 D2 name NY IN ST.
  split; [exact (c118_start ns_of order keep tr_fit_transform tr_transform svi_run nuts_run latent_sites c ob ob' y X f HF Hc L Wy HC TT WX WT y1 y2 X1 X2 fh1 fh2 m1 m2 cut1 cut2 ts1 ts2 U1 U2 M1 M2 K1 K2 H1 H2 T1 T2 C1 C2 W1 W2 L1 L2 O1 O2 e o1 o2 tr1 tr2 R1 R2 t j1 j2 r1 r2 J1 J2 I1 I2 D1 D2 name NY IN ST)|]. intros LN OT. exact (c118_start_expected ns_of order keep tr_fit_transform tr_transform svi_run nuts_run latent_sites c ob ob' y X f HF Hc L Wy HC TT WX WT y1 y2 X1 X2 fh1 fh2 m1 m2 cut1 cut2 ts1 ts2 U1 U2 M1 M2 K1 K2 H1 H2 T1 T2 C1 C2 W1 W2 L1 L2 O1 O2 e o1 o2 tr1 tr2 R1 R2 t j1 j2 r1 r2 J1 J2 I1 I2 D1 D2 name NY LN IN ST OT).
Qed.

(** Panels (hierarchical class): the same for every series [i] at every common date, where what an effect of a series reads are
    the values in the rows of this series, and zero in the copies of the columns for other series. *)
Theorem C118_panel (Order : forall l, Permutation (order l) l) : forall c ob ob' y Z0 (f : fitted (P := P)), fit_forecaster c ob y (Some Z0) = (ob', Ok f) -> c_hier c = true -> f_levels y <> 0 -> frame_wf y ->
  (forall r, In r (f_rows y) -> ~ In "__total" (r_path r)) -> clean_config c -> scalar_piecewise (o_trend ob') -> o_transformer ob = None -> frame_wf Z0 -> f_levels Z0 <> 0 -> f_cols Z0 <> [] ->
  forall shared, (match c_shared c with None => [] | Some l => l end) = shared -> copyable shared (f_cols Z0) (bottom_series Z0) ->
  forall y1 y2 X1 X2 fh1 fh2 m1 m2 cutoff ts1 ts2, predict_model c ob' f y1 (Some X1) fh1 = Ok m1 -> predict_model c ob' f y2 (Some X2) fh2 = Ok m2 ->
  max_time (map snd (p_index (ft_prepared f))) = Ok cutoff -> to_absolute cutoff fh1 = ts1 -> to_absolute cutoff fh2 = ts2 ->
  frame_wf X1 -> frame_wf X2 -> f_levels X1 <> 0 -> f_levels X2 <> 0 -> f_cols X1 = f_cols Z0 -> f_cols X2 = f_cols Z0 ->
  bottom_series X1 = bottom_series Z0 -> bottom_series X2 = bottom_series Z0 -> covers X1 ts1 -> covers X2 ts2 -> in_order ts1 -> in_order ts2 ->
  forall e o1 o2 tr1 tr2, run e [] m1 = Ok (o1, tr1) -> run e [] m2 = Ok (o2, tr2) ->
  forall i t j1 j2 r1 r2, i < List.length (series_ids y) -> nth_error ts1 j1 = Some t -> nth_error ts2 j2 = Some t -> In r1 (f_rows X1) -> In r2 (f_rows X2) -> r_time r1 = t -> r_time r2 = t ->
  nth_error (bottom_series Z0) i = Some (r_path r1) -> nth_error (bottom_series Z0) i = Some (r_path r2) ->
  (forall name ef ef0 cols trend x1 x2, In (name, ef, cols) (p_fitted (ft_prepared f)) -> configured c name ef0 -> component_at tr1 "trend" (i * List.length ts1 + j1) trend ->
     Forall2 (seen shared (bottom_series X1) X1 r1) cols x1 -> Forall2 (seen shared (bottom_series X2) X2 r2) cols x2 -> raises e name trend ef0 x1 x2) ->
  (exists trend, component_at tr1 "trend" (i * List.length ts1 + j1) trend /\ component_at tr2 "trend" (i * List.length ts2 + j2) trend) /\
  (forall name, In name (map fst (p_effects (ft_prepared f))) -> exists v1 v2, component_at tr1 name (i * List.length ts1 + j1) v1 /\ component_at tr2 name (i * List.length ts2 + j2) v2 /\ (v1 <= v2)%R) /\
  exists x1 x2, (x1 <= x2)%R /\
    (List.length (series_ids y) = 1 -> expected tr1 j1 x1 /\ expected tr2 j2 x2) /\
    (List.length (series_ids y) <> 1 -> expected_at tr1 i j1 x1 /\ expected_at tr2 i j2 x2).
Proof. exact (c118_panel ns_of order Order keep tr_fit_transform tr_transform svi_run nuts_run latent_sites). Qed.
(** The same with a feature transformer of the forecaster (or without inputs): [Zt] is what it made of the training table and [X1], [X2] what it makes of the given ones. *)
Theorem C118_transformed (Order : forall l, Permutation (order l) l) : forall c ob ob' y X0 (f : fitted (P := P)), fit_forecaster c ob y X0 = (ob', Ok f) -> c_hier c = true -> f_levels y <> 0 -> frame_wf y ->
  (forall r, In r (f_rows y) -> ~ In "__total" (r_path r)) -> clean_config c -> scalar_piecewise (o_trend ob') ->
  forall B0 Zt ob1, given_training X0 y B0 -> run_fit_transform tr_fit_transform ob B0 = (ob1, Ok Zt) -> frame_wf Zt -> f_levels Zt <> 0 -> f_rows Zt <> [] -> f_cols Zt <> [] ->
  forall shared, (match c_shared c with None => [] | Some l => l end) = shared -> copyable shared (f_cols Zt) (series_ids Zt) ->
  forall y1 y2 given1 given2 below1 below2 X1 X2 fh1 fh2 m1 m2 cutoff ts1 ts2, predict_model c ob' f y1 given1 fh1 = Ok m1 -> predict_model c ob' f y2 given2 fh2 = Ok m2 ->
  max_time (map snd (p_index (ft_prepared f))) = Ok cutoff -> to_absolute cutoff fh1 = ts1 -> to_absolute cutoff fh2 = ts2 ->
  given_forecast given1 y1 ts1 below1 -> given_forecast given2 y2 ts2 below2 -> run_transform tr_transform ob' below1 = Ok X1 -> run_transform tr_transform ob' below2 = Ok X2 ->
  frame_wf X1 -> frame_wf X2 -> f_levels X1 <> 0 -> f_levels X2 <> 0 -> f_cols X1 = f_cols Zt -> f_cols X2 = f_cols Zt ->
  series_ids X1 = series_ids Zt -> series_ids X2 = series_ids Zt -> covers X1 ts1 -> covers X2 ts2 -> in_order ts1 -> in_order ts2 ->
  forall e o1 o2 tr1 tr2, run e [] m1 = Ok (o1, tr1) -> run e [] m2 = Ok (o2, tr2) ->
  forall i t j1 j2 r1 r2, i < List.length (series_ids y) -> nth_error ts1 j1 = Some t -> nth_error ts2 j2 = Some t -> In r1 (f_rows X1) -> In r2 (f_rows X2) -> r_time r1 = t -> r_time r2 = t ->
  nth_error (series_ids Zt) i = Some (r_path r1) -> nth_error (series_ids Zt) i = Some (r_path r2) ->
  (forall name ef ef0 cols trend x1 x2, In (name, ef, cols) (p_fitted (ft_prepared f)) -> configured c name ef0 -> component_at tr1 "trend" (i * List.length ts1 + j1) trend ->
     Forall2 (seen shared (series_ids X1) X1 r1) cols x1 -> Forall2 (seen shared (series_ids X2) X2 r2) cols x2 -> raises e name trend ef0 x1 x2) ->
  (exists trend, component_at tr1 "trend" (i * List.length ts1 + j1) trend /\ component_at tr2 "trend" (i * List.length ts2 + j2) trend) /\
  (forall name, In name (map fst (p_effects (ft_prepared f))) -> exists v1 v2, component_at tr1 name (i * List.length ts1 + j1) v1 /\ component_at tr2 name (i * List.length ts2 + j2) v2 /\ (v1 <= v2)%R) /\
  exists x1 x2, (x1 <= x2)%R /\
    (List.length (series_ids y) = 1 -> expected tr1 j1 x1 /\ expected tr2 j2 x2) /\
    (List.length (series_ids y) <> 1 -> expected_at tr1 i j1 x1 /\ expected_at tr2 i j2 x2).
Proof. exact (c118_transformed ns_of order Order keep tr_fit_transform tr_transform svi_run nuts_run latent_sites). Qed.
End Any.

Print Assumptions C118_forecast_partial.
Print Assumptions C118_hill_zero_refuted.
Print Assumptions C118_panel.
Print Assumptions C118_transformed.

(** A linear effect, a seasonality and a Hill effect, forecasts for the days 0, 7 and 14, with more of both inputs on day 7
    (tv from 2 to 5, web from 20 to 40), all parameters one: all hypotheses hold. *)
Example C118_nonvacuous : forall trend, In trend ["linear"; "linear_raw"; "logistic"] -> exists ob f m1 o1 tr1 m2 o2 tr2, total_fit trend "normal" "mcmc" = (ob, Ok f) /\ frame_wf ex_y /\ clean_config (docs_config trend) /\
  scalar_piecewise (o_trend ob) /\ frame_wf Xu /\ (forall s Z s' Z', frame_wf Z -> ex_fit_transform s Z = (s', Ok Z') -> frame_wf Z') /\
  predict_model ex_ns keep_all ex_transform (docs_config trend) ob f ex_y (Some Xd) hd3 = Ok m1 /\ predict_model ex_ns keep_all ex_transform (docs_config trend) ob f ex_y (Some Xmore) hd3 = Ok m2 /\
  run_transform ex_transform ob (supplied (Some Xd) [0; 7; 14]%Z) = Ok Xd /\ run_transform ex_transform ob (supplied (Some Xmore) [0; 7; 14]%Z) = Ok Xmore /\
  frame_wf Xd /\ frame_wf Xmore /\ covers Xd [0; 7; 14]%Z /\ covers Xmore [0; 7; 14]%Z /\ in_order [0; 7; 14]%Z /\ run one [] m1 = Ok (o1, tr1) /\ run one [] m2 = Ok (o2, tr2) /\
  nth_error [0; 7; 14]%Z 1 = Some 7%Z /\ In before_raise (f_rows Xd) /\ In after_raise (f_rows Xmore) /\
  (forall name ef0 cols v x1 x2, configured (docs_config trend) name ef0 -> values_at Xd before_raise cols x1 -> values_at Xmore after_raise cols x2 -> raises one name v ef0 x1 x2) /\
  (forall l, In l [linear_tv; season; hill_web] -> exists ef, In (l_name l, ef) (p_effects (ft_prepared f))).
Proof.
  intros trend HT. destruct (plan_run trend HT) as (ob & f & HF & HR). destruct (HR Xd) as (m1 & o1 & tr1 & M1 & R1); [simpl; auto|]. destruct (HR Xmore) as (m2 & o2 & tr2 & M2 & R2); [simpl; auto|].
  destruct (plan_wf Xd) as (W1 & C1 & _); [simpl; auto|]. destruct (plan_wf Xmore) as (W2 & C2 & _); [simpl; auto|]. exists ob, f, m1, o1, tr1, m2, o2, tr2.
  split; [exact HF|]. split; [exact docs_y_wf|]. split; [apply total_clean|]. split; [exact (docs_piecewise trend HT ob f HF)|]. split; [exact docs_x_wf|]. split; [exact docs_transformer|]. split; [exact M1|]. split; [exact M2|].
  split; [exact (plan_transformed _ _ _ _ HF)|]. split; [exact (plan_transformed _ _ _ _ HF)|]. do 4 (split; [assumption|]). split; [exact docs_order|]. split; [exact R1|]. split; [exact R2|]. split; [reflexivity|].
  split; [simpl; auto|]. split; [simpl; auto|]. split; [exact (plan_raised trend)|]. intros l Hl. exact (docs_used trend ob f l HF Hl).
Qed.
(** The same forecaster: no web on day 7 against web = 20, all else equal.  The expected observation of day 7 is lower with
    web = 20 than without. *)
Example C118_hill_zero_nonvacuous : forall trend, In trend ["linear"; "linear_raw"; "logistic"] -> exists ob f m1 o1 tr1 m2 o2 tr2 x1 x2, total_fit trend "normal" "mcmc" = (ob, Ok f) /\
  predict_model ex_ns keep_all ex_transform (docs_config trend) ob f ex_y (Some Xnone) hd3 = Ok m1 /\ predict_model ex_ns keep_all ex_transform (docs_config trend) ob f ex_y (Some Xd) hd3 = Ok m2 /\
  run one [] m1 = Ok (o1, tr1) /\ run one [] m2 = Ok (o2, tr2) /\ In no_web (f_rows Xnone) /\ In before_raise (f_rows Xd) /\ expected tr1 1 x1 /\ expected tr2 1 x2 /\ (x2 < x1)%R.
Proof.
  intros trend HT. destruct (plan_run trend HT) as (ob & f & HF & HR). destruct (HR Xnone) as (m1 & o1 & tr1 & M1 & R1); [simpl; auto|]. destruct (HR Xd) as (m2 & o2 & tr2 & M2 & R2); [simpl; auto|].
  destruct (plan_wf Xnone) as (W1 & C1 & _); [simpl; auto|]. destruct (plan_wf Xd) as (W2 & C2 & _); [simpl; auto|].
  destruct (docs_used trend ob f hill_web HF) as (ef & IE); [simpl; auto|].
  edestruct (C118_hill_zero_refuted ex_ns sorted_sets keep_all ex_fit_transform ex_transform ex_svi ex_nuts comp_latent _ _ _ _ _ _ HF eq_refl eq_refl docs_y_wf (total_clean trend "normal" "mcmc") (or_introl (docs_piecewise trend HT ob f HF))
    ltac:(intros Z [= <-]; exact docs_x_wf) docs_transformer _ _ _ _ _ _ _ _ _ _ _ _ _ _ M1 M2 eq_refl eq_refl eq_refl eq_refl (plan_transformed _ _ _ _ HF) (plan_transformed _ _ _ _ HF) C1 C2 W1 W2 eq_refl eq_refl docs_order docs_order _ _ _ _ _ R1 R2
    7%Z 1 1 no_web before_raise eq_refl eq_refl ltac:(simpl; auto) ltac:(simpl; auto) eq_refl eq_refl "sat" ltac:(discriminate) ltac:(apply in_map_iff; exists ("sat", ef); auto)) as [_ EX].
  { intros ef1 ef0 cols v x1 x2 IN CF _ V1 V2. exact (plan_started trend ob f ef1 ef0 cols v x1 x2 HF IN CF V1 V2). }
  destruct EX as (x1 & x2 & E1 & E2 & LT); [reflexivity|intros other ef1 cols x1 x2 NE IN V1 V2; exact (plan_columns_other trend ob f other ef1 cols x1 x2 HF NE IN V1 V2)|].
  exists ob, f, m1, o1, tr1, m2, o2, tr2, x1, x2. repeat (split; [assumption|]). split; [simpl; auto|]. split; [simpl; auto|]. auto.
Qed.
(** Two series, forecasts of the days 2 and 3: tv of the first series is 5 instead of 1 on day 2. *)
Example C118_panel_nonvacuous : copyable [] (f_cols ex_Xh) (bottom_series ex_Xh) /\ frame_wf ex_Xh /\ frame_wf ex_X2 /\ frame_wf ex_X3 /\ frame_wf ex_yh /\ (forall r, In r (f_rows ex_yh) -> ~ In "__total" (r_path r)) /\ clean_config two_config /\
  bottom_series ex_X2 = bottom_series ex_Xh /\ bottom_series ex_X3 = bottom_series ex_Xh /\ covers ex_X2 [2; 3]%Z /\ covers ex_X3 [2; 3]%Z /\ in_order [2; 3]%Z /\ List.length (series_ids ex_yh) = 2 /\
  nth_error (bottom_series ex_Xh) 0 = Some (r_path less_tv) /\ r_path more_tv = r_path less_tv /\ In less_tv (f_rows ex_X2) /\ In more_tv (f_rows ex_X3) /\
  (forall name ef0 cols v x1 x2, configured two_config name ef0 -> Forall2 (seen [] (bottom_series ex_X2) ex_X2 less_tv) cols x1 -> Forall2 (seen [] (bottom_series ex_X3) ex_X3 more_tv) cols x2 -> raises one name v ef0 x1 x2) /\
  exists ob f m1 m2 o1 tr1 o2 tr2, two_fit = (ob, Ok f) /\ o_transformer ob = None /\ scalar_piecewise (o_trend ob) /\ max_time (map snd (p_index (ft_prepared f))) = Ok 1%Z /\
  predict_model ex_ns keep_all ex_transform two_config ob f ex_yh (Some ex_X2) (Relative [1; 2]%Z) = Ok m1 /\ predict_model ex_ns keep_all ex_transform two_config ob f ex_yh (Some ex_X3) (Relative [1; 2]%Z) = Ok m2 /\
  run one [] m1 = Ok (o1, tr1) /\ run one [] m2 = Ok (o2, tr2).
Proof.
  split; [exact panel_copyable|]. split; [exact Xh_wf|]. split; [exact X2_wf|]. split; [exact X3_wf|]. split; [exact yh_wf|]. split; [exact yh_no_total|]. split; [exact two_clean|]. do 2 (split; [reflexivity|]).
  split; [apply X2_covers|]. split; [exact X3_covers|]. split; [repeat constructor|]. do 3 (split; [reflexivity|]). split; [simpl; auto|]. split; [simpl; auto|]. split; [exact panel_raised|exact cells_hierarchical].
Qed.
(** The transformer keeps the column web only; web of the first series is 9 instead of 5 on day 2. *)
Example C118_transformed_nonvacuous : given_training (Some ex_Xh) ex_yh ex_Xh /\ run_fit_transform ex_fit_transform (no_objects (Some false)) ex_Xh = (no_objects (Some false), Ok Xp0) /\ frame_wf Xp0 /\ copyable [] (f_cols Xp0) (series_ids Xp0) /\
  given_forecast (Some X_pick) ex_yh [2; 3]%Z X_pick /\ given_forecast (Some X_more) ex_yh [2; 3]%Z X_more /\ frame_wf Xp1 /\ frame_wf Xp2 /\ f_cols Xp1 = f_cols Xp0 /\ f_cols Xp2 = f_cols Xp0 /\ series_ids Xp1 = series_ids Xp0 /\ series_ids Xp2 = series_ids Xp0 /\
  covers Xp1 [2; 3]%Z /\ covers Xp2 [2; 3]%Z /\ in_order [2; 3]%Z /\ frame_wf ex_yh /\ (forall r, In r (f_rows ex_yh) -> ~ In "__total" (r_path r)) /\ clean_config (web_config false) /\ List.length (series_ids ex_yh) = 2 /\
  nth_error (series_ids Xp0) 0 = Some (r_path a_less) /\ r_path a_more = r_path a_less /\ In a_less (f_rows Xp1) /\ In a_more (f_rows Xp2) /\
  (forall name ef0 cols v x1 x2, configured (web_config false) name ef0 -> Forall2 (seen [] (series_ids Xp1) Xp1 a_less) cols x1 -> Forall2 (seen [] (series_ids Xp2) Xp2 a_more) cols x2 -> raises one name v ef0 x1 x2) /\
  exists ob f m1 m2 o1 o2 tr1 tr2, web_fit false = (ob, Ok f) /\ scalar_piecewise (o_trend ob) /\ max_time (map snd (p_index (ft_prepared f))) = Ok 1%Z /\ run_transform ex_transform ob X_pick = Ok Xp1 /\ run_transform ex_transform ob X_more = Ok Xp2 /\
  predict_model ex_ns keep_all ex_transform (web_config false) ob f ex_yh (Some X_pick) (Relative [1; 2]%Z) = Ok m1 /\ predict_model ex_ns keep_all ex_transform (web_config false) ob f ex_yh (Some X_more) (Relative [1; 2]%Z) = Ok m2 /\
  run one [] m1 = Ok (o1, tr1) /\ run one [] m2 = Ok (o2, tr2) /\ map fst (p_effects (ft_prepared f)) = ["web"].
Proof.
  split; [apply web_given|]. split; [reflexivity|]. split; [exact (proj1 pick_wf)|]. split; [exact pick_copyable|]. split; [apply web_given|]. split; [apply web_given|]. split; [exact (proj2 pick_wf)|]. split; [exact more_wf|]. do 4 (split; [reflexivity|]).
  split; [reflexivity|]. split; [reflexivity|]. split; [repeat constructor|]. split; [exact yh_wf|]. split; [exact yh_no_total|]. split; [exact (web_clean false)|]. split; [reflexivity|].
  do 2 (split; [reflexivity|]). split; [simpl; auto|]. split; [simpl; auto|]. split; [exact web_raised|].
  destruct (web_run false) as (ob & f & m1 & m2 & o1 & o2 & tr1 & tr2 & HF & T1 & T2 & SP & MT & NM & _ & M1 & M2 & R1 & R2 & _). exists ob, f, m1, m2, o1, o2, tr1, tr2. repeat (split; [assumption|]). exact NM.
Qed.
