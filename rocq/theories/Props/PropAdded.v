(** C122: adding an effect adds its component and changes nothing else. *)
From Coq Require Import Reals Lra String Bool ZArith List Sorted Permutation.
From Verif.Model Require Import Base Num XFloat Frame Arr Expand Aggregate Scale Prog Likelihood Effect Trend TrendProg Engine Forecaster.
From Verif.Spec Require Import RegexSpec FrameSpec ProgSpec ForecasterSpec AlignSpec SiteSpec ShapeSpec OverlapSpec ComponentSpec TrendSpec DocsSpec ResponseSpec ObservedSpec UpwardSpec AddedSpec.
From Verif.Facts Require Import EffectExamples ForecasterExamples EngineExamples HistoryExamples ComponentExamples CounterExamples OverlapExamples TotalExamples DocsExamples ResponseExamples CellExamples
  UpwardExamples SeasonExamples InsampleExamples PanelTotalExamples AddedForecaster AddedPanel AddedTransformed AddedExamples AddedPanelExamples TransformedExamples.
Import ListNotations.
Local Open Scope string_scope.

Section Any.
Variable ns_of : Z -> Z.
Variable order : list string -> list string.
Variable keep : path -> bool.
Context {TS : Type}.
Variable tr_fit_transform : TS -> frame R -> TS * res (frame R).
Variable tr_transform : TS -> frame R -> res (frame R).
Context {P : Type}.
Variable svi_run : Z -> nat -> nat -> prog arr -> res (list xr * P).
Variable nuts_run : Z -> nat -> nat -> nat -> prog arr -> res (nat -> nat -> env).
Variable latent_sites : prog arr -> list string.
Notation fit_forecaster := (fit_forecaster ns_of order keep tr_fit_transform svi_run nuts_run latent_sites).
Notation predict_model := (predict_model ns_of keep tr_transform).

(** * C122 *)
(** Two forecasters with the same training dates and the same kind of trend; their targets, exogenous data, effects, priors
    and posteriors may differ.  For draws which agree on the parameters of the trend both have the same trend at the date
    [t].  An effect they have in common, with the same parameters and inputs, has the same component in both.  If the second
    forecaster has all effects of the first one and the effects [extra], its level is that of the first one plus the
    components of [extra].  With no further effects ([extra = []]) the levels are equal: all that a forecast takes from the
    values of the training data is in the draw. *)
Theorem C122_forecast : forall c1 c2 ob1 ob2 y1 y2 X1 X2 ob1' ob2' (f1 f2 : fitted (P := P)) ds, fit_forecaster c1 ob1 y1 X1 = (ob1', Ok f1) -> fit_forecaster c2 ob2 y2 X2 = (ob2', Ok f2) ->
  c_hier c1 = false -> c_hier c2 = false -> f_levels y1 = 0 -> f_levels y2 = 0 -> frame_wf y1 -> frame_wf y2 -> clean_config c1 -> clean_config c2 ->
  map r_time (f_rows y1) = ds -> map r_time (f_rows y2) = ds -> ds <> [] -> increasing (map (fun t => day (ns_of t)) ds) -> same_trend (o_trend ob1') (o_trend ob2') ->
  (forall Z, X1 = Some Z \/ X2 = Some Z -> frame_wf Z) -> (forall s Z s' Z', frame_wf Z -> tr_fit_transform s Z = (s', Ok Z') -> frame_wf Z') ->
  forall z1 z2 N1 N2 fh1 fh2 m1 m2 cut1 cut2 ts1 ts2 U1 U2, predict_model c1 ob1' f1 z1 N1 fh1 = Ok m1 -> predict_model c2 ob2' f2 z2 N2 fh2 = Ok m2 ->
  max_time (map r_time (f_rows z1)) = Ok cut1 -> max_time (map r_time (f_rows z2)) = Ok cut2 -> to_absolute cut1 fh1 = ts1 -> to_absolute cut2 fh2 = ts2 ->
  run_transform tr_transform ob1' (supplied N1 ts1) = Ok U1 -> run_transform tr_transform ob2' (supplied N2 ts2) = Ok U2 -> covers U1 ts1 -> covers U2 ts2 -> frame_wf U1 -> frame_wf U2 -> f_levels U1 = 0 -> f_levels U2 = 0 ->
  in_order ts1 -> in_order ts2 ->
  forall e1 e2 o1 o2 tr1 tr2, run e1 [] m1 = Ok (o1, tr1) -> run e2 [] m2 = Ok (o2, tr2) -> same_trend_parameters e1 e2 ->
  forall j1 j2 t r1 r2, nth_error ts1 j1 = Some t -> nth_error ts2 j2 = Some t -> In r1 (f_rows U1) -> In r2 (f_rows U2) -> r_time r1 = t -> r_time r2 = t ->
  forall names1 names2, map fst (p_effects (ft_prepared f1)) = names1 -> map fst (p_effects (ft_prepared f2)) = names2 ->
  let both := common c1 c2 (p_fitted (ft_prepared f1)) (p_fitted (ft_prepared f2)) (values_at U1 r1) (values_at U2 r2) e1 e2 in
  exists trend s1 s2, component_at tr1 "trend" j1 trend /\ component_at tr2 "trend" j2 trend /\
    level tr1 names1 j1 s1 /\ level tr2 names2 j2 s2 /\ (c_likelihood c1 = "normal" -> expected tr1 j1 s1) /\ (c_likelihood c2 = "normal" -> expected tr2 j2 s2) /\
    (forall name, In name names1 -> In name names2 -> both name -> exists v, component_at tr1 name j1 v /\ component_at tr2 name j2 v) /\
    (forall extra, Permutation names2 (extra ++ names1) -> (forall name, In name names1 -> both name) ->
       exists vs, Forall2 (fun name v => component_at tr2 name j2 v) extra vs /\ s2 = (s1 + Rsum vs)%R).
Proof. exact (c122_forecast ns_of order keep tr_fit_transform tr_transform svi_run nuts_run latent_sites). Qed.

(** Panels (hierarchical class) without feature transformers, with the same bottom series and, for the row's series, the same
    first date of exogenous data: the same for the series [i].  A seasonality has its own coefficients for every series, which
    are numbered alike in both forecasters. *)
Theorem C122_panel (Order : forall l, Permutation (order l) l) : forall c1 c2 ob1 ob2 y1 y2 Z1 Z2 ob1' ob2' (f1 f2 : fitted (P := P)) ds iv rg lg, fit_forecaster c1 ob1 y1 (Some Z1) = (ob1', Ok f1) -> fit_forecaster c2 ob2 y2 (Some Z2) = (ob2', Ok f2) ->
  c_hier c1 = true -> c_hier c2 = true -> f_levels y1 <> 0 -> f_levels y2 <> 0 -> frame_wf y1 -> frame_wf y2 -> (forall r, In r (f_rows y1) \/ In r (f_rows y2) -> ~ In "__total" (r_path r)) -> clean_config c1 -> clean_config c2 ->
  balanced y1 -> balanced y2 -> List.length (series_ids y1) = List.length (series_ids y2) -> StronglySorted Z.lt ds -> (forall t, In t ds <-> In t (map r_time (f_rows y1))) -> (forall t, In t ds <-> In t (map r_time (f_rows y2))) ->
  increasing (map (fun t => day (ns_of t)) ds) -> piecewise_options (o_trend ob1') iv rg lg -> piecewise_options (o_trend ob2') iv rg lg -> (0 < iv)%R -> o_transformer ob1 = None -> o_transformer ob2 = None ->
  frame_wf Z1 -> frame_wf Z2 -> f_levels Z1 <> 0 -> f_levels Z2 <> 0 -> f_cols Z1 <> [] -> f_cols Z2 <> [] -> bottom_series Z1 = bottom_series Z2 ->
  forall shared1 shared2, (match c_shared c1 with None => [] | Some l => l end) = shared1 -> (match c_shared c2 with None => [] | Some l => l end) = shared2 ->
  copyable shared1 (f_cols Z1) (bottom_series Z1) -> copyable shared2 (f_cols Z2) (bottom_series Z2) ->
  forall z1 z2 X1 X2 fh1 fh2 m1 m2 cut1 cut2 ts1 ts2, predict_model c1 ob1' f1 z1 (Some X1) fh1 = Ok m1 -> predict_model c2 ob2' f2 z2 (Some X2) fh2 = Ok m2 ->
  max_time (map snd (p_index (ft_prepared f1))) = Ok cut1 -> max_time (map snd (p_index (ft_prepared f2))) = Ok cut2 -> to_absolute cut1 fh1 = ts1 -> to_absolute cut2 fh2 = ts2 ->
  frame_wf X1 -> frame_wf X2 -> f_levels X1 <> 0 -> f_levels X2 <> 0 -> f_cols X1 = f_cols Z1 -> f_cols X2 = f_cols Z2 -> bottom_series X1 = bottom_series Z1 -> bottom_series X2 = bottom_series Z2 -> covers X1 ts1 -> covers X2 ts2 -> in_order ts1 -> in_order ts2 ->
  forall e1 e2 o1 o2 tr1 tr2, run e1 [] m1 = Ok (o1, tr1) -> run e2 [] m2 = Ok (o2, tr2) -> same_trend_parameters e1 e2 ->
  forall i j1 j2 t t0 r1 r2 k1 k2, i < List.length (series_ids y1) -> nth_error ts1 j1 = Some t -> nth_error ts2 j2 = Some t -> In r1 (f_rows X1) -> In r2 (f_rows X2) -> r_time r1 = t -> r_time r2 = t ->
  nth_error (bottom_series X1) i = Some (r_path r1) -> r_path r2 = r_path r1 -> first_date (dates Z1 (r_path r1)) t0 -> first_date (dates Z2 (r_path r1)) t0 -> i * List.length ts1 + j1 = k1 -> i * List.length ts2 + j2 = k2 ->
  forall names1 names2, map fst (p_effects (ft_prepared f1)) = names1 -> map fst (p_effects (ft_prepared f2)) = names2 ->
  let both := common c1 c2 (p_fitted (ft_prepared f1)) (p_fitted (ft_prepared f2)) (Forall2 (seen shared1 (bottom_series X1) X1 r1)) (Forall2 (seen shared2 (bottom_series X2) X2 r2)) e1 e2 in
  exists trend s1 s2, component_at tr1 "trend" k1 trend /\ component_at tr2 "trend" k2 trend /\ level tr1 names1 k1 s1 /\ level tr2 names2 k2 s2 /\
    (List.length (series_ids y1) = 1 -> expected tr1 j1 s1 /\ expected tr2 j2 s2) /\ (List.length (series_ids y1) <> 1 -> expected_at tr1 i j1 s1 /\ expected_at tr2 i j2 s2) /\
    (forall name, In name names1 -> In name names2 -> both name -> exists v, component_at tr1 name k1 v /\ component_at tr2 name k2 v) /\
    (forall extra, Permutation names2 (extra ++ names1) -> (forall name, In name names1 -> both name) ->
       exists vs, Forall2 (fun name v => component_at tr2 name k2 v) extra vs /\ s2 = (s1 + Rsum vs)%R).
Proof. exact (c122_panel ns_of order Order keep tr_fit_transform tr_transform svi_run nuts_run latent_sites). Qed.
(** The same with a feature transformer of the forecaster (or without inputs): [Z1], [Z2] are what the transformers made of the training tables and [X1], [X2] what they make of the given ones. *)
Theorem C122_transformed (Order : forall l, Permutation (order l) l) : forall c1 c2 ob1 ob2 y1 y2 G1 G2 ob1' ob2' (f1 f2 : fitted (P := P)) ds iv rg lg, fit_forecaster c1 ob1 y1 G1 = (ob1', Ok f1) -> fit_forecaster c2 ob2 y2 G2 = (ob2', Ok f2) ->
  c_hier c1 = true -> c_hier c2 = true -> f_levels y1 <> 0 -> f_levels y2 <> 0 -> frame_wf y1 -> frame_wf y2 -> (forall r, In r (f_rows y1) \/ In r (f_rows y2) -> ~ In "__total" (r_path r)) -> clean_config c1 -> clean_config c2 ->
  balanced y1 -> balanced y2 -> List.length (series_ids y1) = List.length (series_ids y2) -> StronglySorted Z.lt ds -> (forall t, In t ds <-> In t (map r_time (f_rows y1))) -> (forall t, In t ds <-> In t (map r_time (f_rows y2))) ->
  increasing (map (fun t => day (ns_of t)) ds) -> piecewise_options (o_trend ob1') iv rg lg -> piecewise_options (o_trend ob2') iv rg lg -> (0 < iv)%R ->
  forall A1 A2 Z1 Z2 obt1 obt2, given_training G1 y1 A1 -> given_training G2 y2 A2 -> run_fit_transform tr_fit_transform ob1 A1 = (obt1, Ok Z1) -> run_fit_transform tr_fit_transform ob2 A2 = (obt2, Ok Z2) ->
  frame_wf Z1 -> frame_wf Z2 -> f_rows Z1 <> [] -> f_rows Z2 <> [] -> f_levels Z1 <> 0 -> f_levels Z2 <> 0 -> f_cols Z1 <> [] -> f_cols Z2 <> [] -> series_ids Z1 = series_ids Z2 ->
  forall shared1 shared2, (match c_shared c1 with None => [] | Some l => l end) = shared1 -> (match c_shared c2 with None => [] | Some l => l end) = shared2 ->
  copyable shared1 (f_cols Z1) (series_ids Z1) -> copyable shared2 (f_cols Z2) (series_ids Z2) ->
  forall z1 z2 Y1 Y2 fh1 fh2 m1 m2 cut1 cut2 ts1 ts2, predict_model c1 ob1' f1 z1 Y1 fh1 = Ok m1 -> predict_model c2 ob2' f2 z2 Y2 fh2 = Ok m2 ->
  max_time (map snd (p_index (ft_prepared f1))) = Ok cut1 -> max_time (map snd (p_index (ft_prepared f2))) = Ok cut2 -> to_absolute cut1 fh1 = ts1 -> to_absolute cut2 fh2 = ts2 ->
  forall V1 V2 X1 X2, given_forecast Y1 z1 ts1 V1 -> given_forecast Y2 z2 ts2 V2 -> run_transform tr_transform ob1' V1 = Ok X1 -> run_transform tr_transform ob2' V2 = Ok X2 ->
  frame_wf X1 -> frame_wf X2 -> f_levels X1 <> 0 -> f_levels X2 <> 0 -> f_cols X1 = f_cols Z1 -> f_cols X2 = f_cols Z2 -> series_ids X1 = series_ids Z1 -> series_ids X2 = series_ids Z2 -> covers X1 ts1 -> covers X2 ts2 -> in_order ts1 -> in_order ts2 ->
  forall e1 e2 o1 o2 tr1 tr2, run e1 [] m1 = Ok (o1, tr1) -> run e2 [] m2 = Ok (o2, tr2) -> same_trend_parameters e1 e2 ->
  forall i j1 j2 t t0 r1 r2 k1 k2, i < List.length (series_ids y1) -> nth_error ts1 j1 = Some t -> nth_error ts2 j2 = Some t -> In r1 (f_rows X1) -> In r2 (f_rows X2) -> r_time r1 = t -> r_time r2 = t ->
  nth_error (series_ids X1) i = Some (r_path r1) -> r_path r2 = r_path r1 -> first_date (dates Z1 (r_path r1)) t0 -> first_date (dates Z2 (r_path r1)) t0 -> i * List.length ts1 + j1 = k1 -> i * List.length ts2 + j2 = k2 ->
  forall names1 names2, map fst (p_effects (ft_prepared f1)) = names1 -> map fst (p_effects (ft_prepared f2)) = names2 ->
  let both := common c1 c2 (p_fitted (ft_prepared f1)) (p_fitted (ft_prepared f2)) (Forall2 (seen shared1 (series_ids X1) X1 r1)) (Forall2 (seen shared2 (series_ids X2) X2 r2)) e1 e2 in
  exists trend s1 s2, component_at tr1 "trend" k1 trend /\ component_at tr2 "trend" k2 trend /\ level tr1 names1 k1 s1 /\ level tr2 names2 k2 s2 /\
    (List.length (series_ids y1) = 1 -> expected tr1 j1 s1 /\ expected tr2 j2 s2) /\ (List.length (series_ids y1) <> 1 -> expected_at tr1 i j1 s1 /\ expected_at tr2 i j2 s2) /\
    (forall name, In name names1 -> In name names2 -> both name -> exists v, component_at tr1 name k1 v /\ component_at tr2 name k2 v) /\
    (forall extra, Permutation names2 (extra ++ names1) -> (forall name, In name names1 -> both name) ->
       exists vs, Forall2 (fun name v => component_at tr2 name k2 v) extra vs /\ s2 = (s1 + Rsum vs)%R).
Proof. exact (c122_transformed ns_of order Order keep tr_fit_transform tr_transform svi_run nuts_run latent_sites). Qed.
End Any.

Print Assumptions C122_forecast.
Print Assumptions C122_panel.
Print Assumptions C122_transformed.

(** A linear effect and a weekly seasonality, without and with a Hill effect on a second column; forecasts for the days 0, 7
    and 14, all parameters one; the date is day 7. *)
Example C122_nonvacuous : forall trend, In trend ["linear"; "linear_raw"; "flat"; "logistic"] -> exists ob1 f1 m1 o1 tr1 ob2 f2 m2 o2 tr2, plain_fit trend = (ob1, Ok f1) /\ total_fit trend "normal" "mcmc" = (ob2, Ok f2) /\
  frame_wf ex_y /\ clean_config (plain_config trend) /\ clean_config (docs_config trend) /\ increasing (map (fun t => DocsSpec.day (ex_ns t)) (map r_time (f_rows ex_y))) /\ same_trend (o_trend ob1) (o_trend ob2) /\
  (forall Z, Some Xu1 = Some Z \/ Some Xu = Some Z -> frame_wf Z) /\ (forall s Z s' Z', frame_wf Z -> ex_fit_transform s Z = (s', Ok Z') -> frame_wf Z') /\
  predict_model ex_ns keep_all ex_transform (plain_config trend) ob1 f1 ex_y (Some Xd1) hd3 = Ok m1 /\ predict_model ex_ns keep_all ex_transform (docs_config trend) ob2 f2 ex_y (Some Xd) hd3 = Ok m2 /\
  run_transform ex_transform ob1 (supplied (Some Xd1) [0; 7; 14]%Z) = Ok Xd1 /\ run_transform ex_transform ob2 (supplied (Some Xd) [0; 7; 14]%Z) = Ok Xd /\ covers Xd1 [0; 7; 14]%Z /\ covers Xd [0; 7; 14]%Z /\ frame_wf Xd1 /\ frame_wf Xd /\
  in_order [0; 7; 14]%Z /\ run one [] m1 = Ok (o1, tr1) /\ run one [] m2 = Ok (o2, tr2) /\ same_trend_parameters one one /\ In week1 (f_rows Xd1) /\ In this_week (f_rows Xd) /\
  Permutation (map fst (p_effects (ft_prepared f2))) (["sat"] ++ map fst (p_effects (ft_prepared f1))) /\
  (forall name, In name (map fst (p_effects (ft_prepared f1))) -> common (plain_config trend) (docs_config trend) (p_fitted (ft_prepared f1)) (p_fitted (ft_prepared f2)) (values_at Xd1 week1) (values_at Xd this_week) one one name).
Proof.
  intros trend HT. destruct (plain_run trend HT) as (ob1 & f1 & m1 & o1 & tr1 & F1 & M1 & R1 & T1). destruct (season_run trend HT) as (ob2 & f2 & F2 & HR). destruct (HR Xd) as (m2 & o2 & tr2 & M2 & R2); [simpl; auto|].
  destruct (plan_wf Xd) as (W & C & _); [simpl; auto|]. destruct plain_wf as (WU & W1 & C1). exists ob1, f1, m1, o1, tr1, ob2, f2, m2, o2, tr2.
  split; [exact F1|]. split; [exact F2|]. split; [exact docs_y_wf|]. split; [apply plain_clean|]. split; [apply total_clean|]. split; [exact docs_days|]. split; [exact (plain_trend _ _ _ _ _ HT F1 F2)|].
  split; [intros Z [[= <-]|[= <-]]; [exact WU|exact docs_x_wf]|]. split; [exact docs_transformer|]. split; [exact M1|]. split; [exact M2|]. split; [exact T1|]. split; [exact (plan_transformed _ _ _ _ F2)|].
  do 4 (split; [assumption|]). split; [exact docs_order|]. split; [exact R1|]. split; [exact R2|]. split; [intros n k _; reflexivity|]. split; [simpl; auto|]. split; [simpl; auto|].
  split; [|exact (plain_common _ _ _ _ _ F1 F2)]. rewrite (total_names _ _ _ F2). cbn [app]. constructor. symmetry. exact (plain_names _ _ _ F1).
Qed.
(** Two series; a linear effect with a column for every series and a multiplicative one with a shared column, without and
    with a weekly seasonality; the row is that of the second series on day 2. *)
Example C122_panel_nonvacuous : forall trend, In trend ["linear"; "linear_raw"; "logistic"] -> exists ob1 f1 m1 o1 tr1 ob2 f2 m2 o2 tr2, wide_fit trend false = (ob1, Ok f1) /\ wide_fit trend true = (ob2, Ok f2) /\
  frame_wf ex_yh /\ (forall r, In r (f_rows ex_yh) -> ~ In "__total" (r_path r)) /\ clean_config (wide_config trend false) /\ clean_config (wide_config trend true) /\ balanced ex_yh /\ StronglySorted Z.lt [0; 1]%Z /\
  (forall t, In t [0; 1]%Z <-> In t (map r_time (f_rows ex_yh))) /\ increasing (map (fun t => DocsSpec.day (ex_ns t)) [0; 1]%Z) /\ piecewise_options (o_trend ob1) 1 (4 / 5) (String.eqb trend "logistic") /\ piecewise_options (o_trend ob2) 1 (4 / 5) (String.eqb trend "logistic") /\
  frame_wf ex_Xh /\ copyable ["web"] (f_cols ex_Xh) (bottom_series ex_Xh) /\
  predict_model ex_ns keep_all ex_transform (wide_config trend false) ob1 f1 ex_yh (Some ex_X2) (Relative [1; 2]%Z) = Ok m1 /\ predict_model ex_ns keep_all ex_transform (wide_config trend true) ob2 f2 ex_yh (Some ex_X2) (Relative [1; 2]%Z) = Ok m2 /\
  max_time (map snd (p_index (ft_prepared f1))) = Ok 1%Z /\ max_time (map snd (p_index (ft_prepared f2))) = Ok 1%Z /\ frame_wf ex_X2 /\ bottom_series ex_X2 = bottom_series ex_Xh /\ covers ex_X2 [2; 3]%Z /\ in_order [2; 3]%Z /\
  run one [] m1 = Ok (o1, tr1) /\ run one [] m2 = Ok (o2, tr2) /\ same_trend_parameters one one /\ List.length (series_ids ex_yh) = 2 /\ In wide_row (f_rows ex_X2) /\ nth_error (bottom_series ex_X2) 1 = Some (r_path wide_row) /\ first_date (dates ex_Xh (r_path wide_row)) 0 /\
  Permutation (map fst (p_effects (ft_prepared f2))) (["season"] ++ map fst (p_effects (ft_prepared f1))) /\
  (forall name, In name (map fst (p_effects (ft_prepared f1))) -> common (wide_config trend false) (wide_config trend true) (p_fitted (ft_prepared f1)) (p_fitted (ft_prepared f2))
     (Forall2 (ResponseSpec.seen ["web"] (bottom_series ex_X2) ex_X2 wide_row)) (Forall2 (ResponseSpec.seen ["web"] (bottom_series ex_X2) ex_X2 wide_row)) one one name).
Proof.
  intros trend HT. destruct (wide_run trend false HT) as (ob1 & f1 & m1 & F1 & _ & K1 & M1 & R1 & P1). destruct (wide_run trend true HT) as (ob2 & f2 & m2 & F2 & _ & K2 & M2 & R2 & P2).
  destruct (R1 one) as (o1 & tr1 & RU1). destruct (R2 one) as (o2 & tr2 & RU2). exists ob1, f1, m1, o1, tr1, ob2, f2, m2, o2, tr2.
  split; [exact F1|]. split; [exact F2|]. split; [exact yh_wf|]. split; [exact yh_no_total|]. split; [apply wide_clean|]. split; [apply wide_clean|]. split; [exact yh_balanced|]. split; [repeat constructor|].
  split; [intros t; cbn; tauto|]. split; [exact docs_days2|]. split; [exact P1|]. split; [exact P2|]. split; [exact Xh_wf|]. split; [exact wide_copyable|]. split; [exact M1|]. split; [exact M2|]. split; [exact K1|]. split; [exact K2|].
  split; [exact X2_wf|]. split; [reflexivity|]. split; [apply X2_covers|]. split; [repeat constructor|]. split; [exact RU1|]. split; [exact RU2|]. split; [intros n k _; reflexivity|]. split; [reflexivity|]. split; [simpl; auto|].
  split; [reflexivity|]. split; [apply panel_first; simpl; auto|]. split; [|exact (wide_common _ _ _ _ _ F1 F2)]. rewrite (wide_used _ _ _ _ F2). unfold wide_names. cbn [app]. constructor. symmetry. exact (wide_used _ _ _ _ F1).
Qed.
(** The transformer keeps the column web only: an additive effect of web, without and with a second, multiplicative effect of web;
    the row is that of the second series on day 2. *)
Example C122_transformed_nonvacuous : exists ob1 f1 m1 o1 tr1 ob2 f2 m2 o2 tr2 trend s1 s2 v, web_fit false = (ob1, Ok f1) /\ web_fit true = (ob2, Ok f2) /\
  predict_model ex_ns keep_all ex_transform (web_config false) ob1 f1 ex_yh (Some X_pick) (Relative [1; 2]%Z) = Ok m1 /\ predict_model ex_ns keep_all ex_transform (web_config true) ob2 f2 ex_yh (Some X_pick) (Relative [1; 2]%Z) = Ok m2 /\
  run one [] m1 = Ok (o1, tr1) /\ run one [] m2 = Ok (o2, tr2) /\ component_at tr1 "trend" 2 trend /\ component_at tr2 "trend" 2 trend /\ expected_at tr1 1 0 s1 /\ expected_at tr2 1 0 s2 /\ component_at tr2 "extra" 2 v /\ s2 = (s1 + v)%R.
Proof.
  destruct (web_run false) as (ob1 & f1 & m1 & ? & o1 & ? & tr1 & ? & F1 & T1 & _ & _ & K1 & N1 & C1 & M1 & _ & R1 & _).
  destruct (web_run true) as (ob2 & f2 & m2 & ? & o2 & ? & tr2 & ? & F2 & T2 & _ & _ & K2 & N2 & C2 & M2 & _ & R2 & _).
  destruct (named_options ex_ns sorted_sets keep_all ex_fit_transform ex_svi ex_nuts two_latent _ _ _ _ _ _ "linear_raw" F1 eq_refl ltac:(simpl; auto)) as [P1 _].
  destruct (named_options ex_ns sorted_sets keep_all ex_fit_transform ex_svi ex_nuts two_latent _ _ _ _ _ _ "linear_raw" F2 eq_refl ltac:(simpl; auto)) as [P2 _].
  assert (DS : forall t, In t [0; 1]%Z <-> In t (map r_time (f_rows ex_yh))) by (intros t; cbn; tauto).
  assert (FD : first_date (dates Xp0 (r_path b_first)) 0) by (split; [simpl; auto|intros t Ht; simpl in Ht; intuition (subst; discriminate)]).
  destruct (C122_transformed ex_ns sorted_sets keep_all ex_fit_transform ex_transform ex_svi ex_nuts two_latent (fun l => Permutation_refl l) _ _ _ _ _ _ _ _ _ _ _ _ [0; 1]%Z _ _ _ F1 F2 eq_refl eq_refl ltac:(discriminate) ltac:(discriminate) yh_wf yh_wf
    ltac:(intros r [Hr|Hr]; exact (yh_no_total r Hr)) (web_clean false) (web_clean true) yh_balanced yh_balanced eq_refl ltac:(repeat constructor) DS DS docs_days2 P1 P2 ltac:(simpl; lra)
    _ _ _ _ _ _ (proj1 web_given) (proj1 web_given) eq_refl eq_refl (proj1 pick_wf) (proj1 pick_wf) ltac:(discriminate) ltac:(discriminate) ltac:(discriminate) ltac:(discriminate) ltac:(discriminate) ltac:(discriminate) eq_refl [] [] eq_refl eq_refl pick_copyable pick_copyable
    _ _ _ _ _ _ _ _ 1%Z 1%Z [2; 3]%Z [2; 3]%Z M1 M2 K1 K2 eq_refl eq_refl _ _ _ _ (proj1 (proj2 web_given)) (proj1 (proj2 web_given)) T1 T2 (proj2 pick_wf) (proj2 pick_wf) ltac:(discriminate) ltac:(discriminate) eq_refl eq_refl eq_refl eq_refl eq_refl eq_refl
    ltac:(repeat constructor) ltac:(repeat constructor) _ _ _ _ _ _ R1 R2 ltac:(intros n k _; reflexivity) 1 0 0 2%Z 0%Z b_first b_first 2 2 ltac:(vm_compute; auto) eq_refl eq_refl ltac:(simpl; auto) ltac:(simpl; auto) eq_refl eq_refl eq_refl eq_refl FD FD eq_refl eq_refl
    _ _ N1 N2) as (trend & s1 & s2 & TA & TB & _ & _ & _ & XE & _ & EX).
  destruct XE as [X1 X2]; [vm_compute; discriminate|]. destruct (EX ["extra"]) as (vs & FV & E); [simpl; apply perm_swap|intros name IN; exact (web_common f1 f2 C1 C2 name IN)|].
  inversion FV as [|? v ? ? CV NV]; subst. inversion NV; subst. exists ob1, f1, m1, o1, tr1, ob2, f2, m2, o2, tr2, trend, s1, (s1 + Rsum [v])%R, v. do 8 (split; [assumption|]). split; [exact X1|]. split; [exact X2|]. split; [exact CV|]. unfold Rsum. simpl. lra.
Qed.
