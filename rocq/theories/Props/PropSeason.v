(** C120: forecasts repeat with the season. *)
From Coq Require Import Reals Lra String Bool ZArith List Sorted Permutation.
From Verif.Model Require Import Base Num XFloat Frame Arr Expand Aggregate Scale Prog Likelihood Effect Trend TrendProg Engine Forecaster.
From Verif.Spec Require Import RegexSpec FrameSpec TrendSpec ProgSpec ForecasterSpec AlignSpec SiteSpec ShapeSpec OverlapSpec ComponentSpec ResponseSpec UpwardSpec SeasonSpec.
From Verif.Facts Require Import EffectExamples ForecasterExamples EngineExamples HistoryExamples ComponentExamples CounterExamples OverlapExamples TotalExamples DocsExamples ResponseExamples InsampleExamples CellExamples
  UpwardExamples SeasonForecaster SeasonPanel SeasonTransformed SeasonExamples TransformedExamples.
Import ListNotations.
Local Open Scope string_scope.

Section Any.
Variable ns_of : Z -> Z.
Variable order : list string -> list string.
Variable keep : path -> bool.
Context {TS : Type}.
Variable tr_fit_transform : TS -> frame R -> TS * res (frame R).
Variable tr_transform : TS -> frame R -> res (frame R).
Context {P : Type}.
Variable svi_run : Z -> nat -> nat -> prog arr -> res (list xr * P).
Variable nuts_run : Z -> nat -> nat -> nat -> prog arr -> res (nat -> nat -> env).
Variable latent_sites : prog arr -> list string.
Notation fit_forecaster := (fit_forecaster ns_of order keep tr_fit_transform svi_run nuts_run latent_sites).
Notation predict_model := (predict_model ns_of keep tr_transform).

(** * C120 *)
(** One fitted forecaster, one posterior draw [e], two forecasts (possibly the same one) at dates [p] steps apart.  An effect
    is unchanged if the values in its columns are the same on both dates, or if it is a seasonality all whose periods divide
    [p]: then its component relative to the trend is the same number [u] on both dates.  If this holds for all effects, the
    expected observations are the same whenever the trends are (as they always are for a flat trend), and with additive
    effects and the normal likelihood they differ exactly by the difference of the trends.  [U1] and [U2] are the exogenous
    data after the feature transformer. *)
Theorem C120_forecast : forall c ob ob' y X (f : fitted (P := P)), fit_forecaster c ob y X = (ob', Ok f) -> c_hier c = false -> f_levels y = 0 -> frame_wf y -> clean_config c ->
  scalar_piecewise (o_trend ob') \/ flat_trend (o_trend ob') -> (forall Z, X = Some Z -> frame_wf Z) -> (forall s Z s' Z', frame_wf Z -> tr_fit_transform s Z = (s', Ok Z') -> frame_wf Z') ->
  forall y1 y2 X1 X2 fh1 fh2 m1 m2 cut1 cut2 ts1 ts2 U1 U2, predict_model c ob' f y1 X1 fh1 = Ok m1 -> predict_model c ob' f y2 X2 fh2 = Ok m2 ->
  max_time (map r_time (f_rows y1)) = Ok cut1 -> max_time (map r_time (f_rows y2)) = Ok cut2 -> to_absolute cut1 fh1 = ts1 -> to_absolute cut2 fh2 = ts2 ->
  run_transform tr_transform ob' (supplied X1 ts1) = Ok U1 -> run_transform tr_transform ob' (supplied X2 ts2) = Ok U2 ->
  covers U1 ts1 -> covers U2 ts2 -> frame_wf U1 -> frame_wf U2 -> f_levels U1 = 0 -> f_levels U2 = 0 -> in_order ts1 -> in_order ts2 ->
  forall e o1 o2 tr1 tr2, run e [] m1 = Ok (o1, tr1) -> run e [] m2 = Ok (o2, tr2) ->
  forall p t1 t2 j1 j2 r1 r2, nth_error ts1 j1 = Some t1 -> nth_error ts2 j2 = Some t2 -> In r1 (f_rows U1) -> In r2 (f_rows U2) -> r_time r1 = t1 -> r_time r2 = t2 -> t2 = (t1 + p)%Z ->
  f_rows y <> [] -> (c_likelihood c = "gamma" -> 0 < e "noise_scale" 0%nat)%R ->
  forall unchanged : string -> Prop, (forall name, unchanged name <-> forall ef ef0 cols x1 x2, In (name, ef, cols) (p_fitted (ft_prepared f)) -> configured c name ef0 -> values_at U1 r1 cols x1 -> values_at U2 r2 cols x2 -> recurs p ef0 x1 x2) ->
  exists trend1 trend2, component_at tr1 "trend" j1 trend1 /\ component_at tr2 "trend" j2 trend2 /\ (flat_trend (o_trend ob') -> trend1 = trend2) /\
  (forall name, In name (map fst (p_effects (ft_prepared f))) -> unchanged name ->
    exists ef0 m u, configured c name ef0 /\ effect_mode ef0 m /\ component_at tr1 name j1 (modal m trend1 u) /\ component_at tr2 name j2 (modal m trend2 u)) /\
  ((forall name, In name (map fst (p_effects (ft_prepared f))) -> unchanged name) -> exists x1 x2, expected tr1 j1 x1 /\ expected tr2 j2 x2 /\ (trend1 = trend2 -> x1 = x2) /\
    (c_likelihood c = "normal" -> (forall name ef0, In name (map fst (p_effects (ft_prepared f))) -> configured c name ef0 -> effect_mode ef0 Additive) -> (x2 - x1 = trend2 - trend1)%R)).
Proof.
  intros c ob ob' y X f HF Hc L Wy HC TT WX WT y1 y2 X1 X2 fh1 fh2 m1 m2 cut1 cut2 ts1 ts2 U1 U2 M1 M2 K1 K2 H1 H2 T1 T2 C1 C2 W1 W2 L1 L2 O1 O2 e o1 o2 tr1 tr2 R1 R2 p t1 t2 j1 j2 r1 r2 J1 J2 I1 I2 D1 D2 PD NY NS unchanged UN.
  destruct (c120_forecast ns_of order keep tr_fit_transform tr_transform svi_run nuts_run latent_sites c ob ob' y X f HF Hc L Wy HC TT WX WT y1 y2 X1 X2 fh1 fh2 m1 m2 cut1 cut2 ts1 ts2 U1 U2 M1 M2 K1 K2 H1 H2 T1 T2 C1 C2 W1 W2 L1 L2 O1 O2 e o1 o2 tr1 tr2 R1 R2 p t1 t2 j1 j2 r1 r2 J1 J2 I1 I2 D1 D2 PD NY NS) as (trend1 & trend2 & TA & TB & FL & A & B).
  exists trend1, trend2. do 3 (split; [assumption|]). split; [intros name I U; exact (A name I (proj1 (UN name) U))|]. intros U. apply B. intros name I. exact (proj1 (UN name) (U name I)).
Qed.

(** Panels (hierarchical class): the same for every series [i], where what an effect of a series reads are the values in the
    rows of this series, and zero in the copies of the columns for other series. *)
Theorem C120_panel (Order : forall l, Permutation (order l) l) : forall c ob ob' y Z0 (f : fitted (P := P)), fit_forecaster c ob y (Some Z0) = (ob', Ok f) -> c_hier c = true -> f_levels y <> 0 -> frame_wf y ->
  (forall r, In r (f_rows y) -> ~ In "__total" (r_path r)) -> clean_config c -> scalar_piecewise (o_trend ob') -> o_transformer ob = None -> frame_wf Z0 -> f_levels Z0 <> 0 -> f_cols Z0 <> [] ->
  forall shared, (match c_shared c with None => [] | Some l => l end) = shared -> copyable shared (f_cols Z0) (bottom_series Z0) ->
  forall y1 y2 X1 X2 fh1 fh2 m1 m2 cutoff ts1 ts2, predict_model c ob' f y1 (Some X1) fh1 = Ok m1 -> predict_model c ob' f y2 (Some X2) fh2 = Ok m2 ->
  max_time (map snd (p_index (ft_prepared f))) = Ok cutoff -> to_absolute cutoff fh1 = ts1 -> to_absolute cutoff fh2 = ts2 ->
  frame_wf X1 -> frame_wf X2 -> f_levels X1 <> 0 -> f_levels X2 <> 0 -> f_cols X1 = f_cols Z0 -> f_cols X2 = f_cols Z0 ->
  bottom_series X1 = bottom_series Z0 -> bottom_series X2 = bottom_series Z0 -> covers X1 ts1 -> covers X2 ts2 -> in_order ts1 -> in_order ts2 ->
  forall e o1 o2 tr1 tr2, run e [] m1 = Ok (o1, tr1) -> run e [] m2 = Ok (o2, tr2) ->
  forall i p t1 t2 j1 j2 r1 r2, i < List.length (series_ids y) -> nth_error ts1 j1 = Some t1 -> nth_error ts2 j2 = Some t2 -> In r1 (f_rows X1) -> In r2 (f_rows X2) -> r_time r1 = t1 -> r_time r2 = t2 ->
  nth_error (bottom_series Z0) i = Some (r_path r1) -> nth_error (bottom_series Z0) i = Some (r_path r2) -> t2 = (t1 + p)%Z ->
  forall unchanged : string -> Prop, (forall name, unchanged name <-> forall ef ef0 cols x1 x2, In (name, ef, cols) (p_fitted (ft_prepared f)) -> configured c name ef0 ->
    Forall2 (seen shared (bottom_series X1) X1 r1) cols x1 -> Forall2 (seen shared (bottom_series X2) X2 r2) cols x2 -> recurs p ef0 x1 x2) ->
  forall k1 k2, i * List.length ts1 + j1 = k1 -> i * List.length ts2 + j2 = k2 ->
  exists trend1 trend2, component_at tr1 "trend" k1 trend1 /\ component_at tr2 "trend" k2 trend2 /\
  (forall name, In name (map fst (p_effects (ft_prepared f))) -> unchanged name ->
    exists ef0 m u, configured c name ef0 /\ effect_mode ef0 m /\ component_at tr1 name k1 (modal m trend1 u) /\ component_at tr2 name k2 (modal m trend2 u)) /\
  ((forall name, In name (map fst (p_effects (ft_prepared f))) -> unchanged name) ->
    exists x1 x2, (List.length (series_ids y) = 1 -> expected tr1 j1 x1 /\ expected tr2 j2 x2) /\ (List.length (series_ids y) <> 1 -> expected_at tr1 i j1 x1 /\ expected_at tr2 i j2 x2) /\ (trend1 = trend2 -> x1 = x2) /\
    ((forall name ef0, In name (map fst (p_effects (ft_prepared f))) -> configured c name ef0 -> effect_mode ef0 Additive) -> (x2 - x1 = trend2 - trend1)%R)).
Proof.
  intros c ob ob' y Z0 f HF Hc L Wy NT HC SP OT WZ LZ NZ shared SH CP y1 y2 X1 X2 fh1 fh2 m1 m2 cutoff ts1 ts2 M1 M2 KC H1 H2 W1 W2 L1 L2 Q1 Q2 B1 B2 C1 C2 O1 O2 e o1 o2 tr1 tr2 R1 R2 i p t1 t2 j1 j2 r1 r2 Hi J1 J2 I1 I2 D1 D2 P1 P2 PD unchanged UN k1 k2 <- <-.
  destruct (c120_panel ns_of order Order keep tr_fit_transform tr_transform svi_run nuts_run latent_sites c ob ob' y Z0 f HF Hc L Wy NT HC SP OT WZ LZ NZ shared SH CP y1 y2 X1 X2 fh1 fh2 m1 m2 cutoff ts1 ts2 M1 M2 KC H1 H2 W1 W2 L1 L2 Q1 Q2 B1 B2 C1 C2 O1 O2 e o1 o2 tr1 tr2 R1 R2 i p t1 t2 j1 j2 r1 r2 Hi J1 J2 I1 I2 D1 D2 P1 P2 PD) as (trend1 & trend2 & TA & TB & A & B).
  exists trend1, trend2. do 2 (split; [assumption|]). split; [intros name I U; exact (A name I (proj1 (UN name) U))|]. intros U. apply B. intros name I. exact (proj1 (UN name) (U name I)).
Qed.
(** The same with a feature transformer of the forecaster (or without inputs): [Zt] is what it made of the training table and [X1], [X2] what it makes of the given ones. *)
Theorem C120_transformed (Order : forall l, Permutation (order l) l) : forall c ob ob' y X0 (f : fitted (P := P)), fit_forecaster c ob y X0 = (ob', Ok f) -> c_hier c = true -> f_levels y <> 0 -> frame_wf y ->
  (forall r, In r (f_rows y) -> ~ In "__total" (r_path r)) -> clean_config c -> scalar_piecewise (o_trend ob') ->
  forall B0 Zt ob1, given_training X0 y B0 -> run_fit_transform tr_fit_transform ob B0 = (ob1, Ok Zt) -> frame_wf Zt -> f_levels Zt <> 0 -> f_rows Zt <> [] -> f_cols Zt <> [] ->
  forall shared, (match c_shared c with None => [] | Some l => l end) = shared -> copyable shared (f_cols Zt) (series_ids Zt) ->
  forall y1 y2 given1 given2 below1 below2 X1 X2 fh1 fh2 m1 m2 cutoff ts1 ts2, predict_model c ob' f y1 given1 fh1 = Ok m1 -> predict_model c ob' f y2 given2 fh2 = Ok m2 ->
  max_time (map snd (p_index (ft_prepared f))) = Ok cutoff -> to_absolute cutoff fh1 = ts1 -> to_absolute cutoff fh2 = ts2 ->
  given_forecast given1 y1 ts1 below1 -> given_forecast given2 y2 ts2 below2 -> run_transform tr_transform ob' below1 = Ok X1 -> run_transform tr_transform ob' below2 = Ok X2 ->
  frame_wf X1 -> frame_wf X2 -> f_levels X1 <> 0 -> f_levels X2 <> 0 -> f_cols X1 = f_cols Zt -> f_cols X2 = f_cols Zt ->
  series_ids X1 = series_ids Zt -> series_ids X2 = series_ids Zt -> covers X1 ts1 -> covers X2 ts2 -> in_order ts1 -> in_order ts2 ->
  forall e o1 o2 tr1 tr2, run e [] m1 = Ok (o1, tr1) -> run e [] m2 = Ok (o2, tr2) ->
  forall i p t1 t2 j1 j2 r1 r2, i < List.length (series_ids y) -> nth_error ts1 j1 = Some t1 -> nth_error ts2 j2 = Some t2 -> In r1 (f_rows X1) -> In r2 (f_rows X2) -> r_time r1 = t1 -> r_time r2 = t2 ->
  nth_error (series_ids Zt) i = Some (r_path r1) -> nth_error (series_ids Zt) i = Some (r_path r2) -> t2 = (t1 + p)%Z ->
  forall unchanged : string -> Prop, (forall name, unchanged name <-> forall ef ef0 cols x1 x2, In (name, ef, cols) (p_fitted (ft_prepared f)) -> configured c name ef0 ->
    Forall2 (seen shared (series_ids X1) X1 r1) cols x1 -> Forall2 (seen shared (series_ids X2) X2 r2) cols x2 -> recurs p ef0 x1 x2) ->
  forall k1 k2, i * List.length ts1 + j1 = k1 -> i * List.length ts2 + j2 = k2 ->
  exists trend1 trend2, component_at tr1 "trend" k1 trend1 /\ component_at tr2 "trend" k2 trend2 /\
  (forall name, In name (map fst (p_effects (ft_prepared f))) -> unchanged name ->
    exists ef0 m u, configured c name ef0 /\ effect_mode ef0 m /\ component_at tr1 name k1 (modal m trend1 u) /\ component_at tr2 name k2 (modal m trend2 u)) /\
  ((forall name, In name (map fst (p_effects (ft_prepared f))) -> unchanged name) ->
    exists x1 x2, (List.length (series_ids y) = 1 -> expected tr1 j1 x1 /\ expected tr2 j2 x2) /\ (List.length (series_ids y) <> 1 -> expected_at tr1 i j1 x1 /\ expected_at tr2 i j2 x2) /\ (trend1 = trend2 -> x1 = x2) /\
    ((forall name ef0, In name (map fst (p_effects (ft_prepared f))) -> configured c name ef0 -> effect_mode ef0 Additive) -> (x2 - x1 = trend2 - trend1)%R)).
Proof.
  intros c ob ob' y X0 f HF Hc L Wy NT HC SP B0 Zt ob1 GT RF WZ LZ NR NZ shared SH CP y1 y2 given1 given2 below1 below2 X1 X2 fh1 fh2 m1 m2 cutoff ts1 ts2 M1 M2 KC H1 H2 GA1 GA2 RX1 RX2 W1 W2 L1 L2 Q1 Q2 B1 B2 C1 C2 O1 O2 e o1 o2 tr1 tr2 R1 R2 i p t1 t2 j1 j2 r1 r2 Hi J1 J2 I1 I2 D1 D2 P1 P2 PD unchanged UN k1 k2 <- <-.
  destruct (c120_transformed ns_of order Order keep tr_fit_transform tr_transform svi_run nuts_run latent_sites c ob ob' y X0 f HF Hc L Wy NT HC SP B0 Zt ob1 GT RF WZ LZ NR NZ shared SH CP y1 y2 given1 given2 below1 below2 X1 X2 fh1 fh2 m1 m2 cutoff ts1 ts2 M1 M2 KC H1 H2 GA1 GA2 RX1 RX2 W1 W2 L1 L2 Q1 Q2 B1 B2 C1 C2 O1 O2 e o1 o2 tr1 tr2 R1 R2 i p t1 t2 j1 j2 r1 r2 Hi J1 J2 I1 I2 D1 D2 P1 P2 PD) as (trend1 & trend2 & TA & TB & A & B).
  exists trend1, trend2. do 2 (split; [assumption|]). split; [intros name I U; exact (A name I (proj1 (UN name) U))|]. intros U. apply B. intros name I. exact (proj1 (UN name) (U name I)).
Qed.
End Any.

Print Assumptions C120_forecast.
Print Assumptions C120_panel.
Print Assumptions C120_transformed.

(** A linear effect, a weekly seasonality and a Hill effect, forecasts for the days 0, 7 and 14 with two tables of exogenous
    data; day 14 of the second one is like day 7 of the first one.  All hypotheses hold with p = 7. *)
Example C120_nonvacuous : forall trend, In trend ["linear"; "linear_raw"; "flat"; "logistic"] -> exists ob f m1 o1 tr1 m2 o2 tr2, total_fit trend "normal" "mcmc" = (ob, Ok f) /\ frame_wf ex_y /\ clean_config (docs_config trend) /\
  (scalar_piecewise (o_trend ob) \/ flat_trend (o_trend ob)) /\ frame_wf Xu /\ (forall s Z s' Z', frame_wf Z -> ex_fit_transform s Z = (s', Ok Z') -> frame_wf Z') /\
  predict_model ex_ns keep_all ex_transform (docs_config trend) ob f ex_y (Some Xd) hd3 = Ok m1 /\ predict_model ex_ns keep_all ex_transform (docs_config trend) ob f ex_y (Some Xagain) hd3 = Ok m2 /\
  run_transform ex_transform ob (supplied (Some Xd) [0; 7; 14]%Z) = Ok Xd /\ run_transform ex_transform ob (supplied (Some Xagain) [0; 7; 14]%Z) = Ok Xagain /\
  frame_wf Xd /\ frame_wf Xagain /\ covers Xd [0; 7; 14]%Z /\ covers Xagain [0; 7; 14]%Z /\ in_order [0; 7; 14]%Z /\ run one [] m1 = Ok (o1, tr1) /\ run one [] m2 = Ok (o2, tr2) /\
  nth_error [0; 7; 14]%Z 1 = Some 7%Z /\ nth_error [0; 7; 14]%Z 2 = Some (7 + 7)%Z /\ In this_week (f_rows Xd) /\ In next_week (f_rows Xagain) /\
  (forall name ef0 cols x1 x2, configured (docs_config trend) name ef0 -> values_at Xd this_week cols x1 -> values_at Xagain next_week cols x2 -> recurs 7 ef0 x1 x2 /\ effect_mode ef0 Additive) /\
  (forall l, In l [linear_tv; season; hill_web] -> exists ef, In (l_name l, ef) (p_effects (ft_prepared f))).
Proof.
  intros trend HT. destruct (season_run trend HT) as (ob & f & HF & HR). destruct (HR Xd) as (m1 & o1 & tr1 & M1 & R1); [simpl; auto|]. destruct (HR Xagain) as (m2 & o2 & tr2 & M2 & R2); [simpl; auto|].
  destruct (plan_wf Xd) as (W1 & C1 & _); [simpl; auto|]. destruct again_wf as (W2 & C2). exists ob, f, m1, o1, tr1, m2, o2, tr2.
  split; [exact HF|]. split; [exact docs_y_wf|]. split; [apply total_clean|]. split; [exact (season_trend trend ob f HT HF)|]. split; [exact docs_x_wf|]. split; [exact docs_transformer|]. split; [exact M1|]. split; [exact M2|].
  split; [exact (plan_transformed _ _ _ _ HF)|]. split; [exact (plan_transformed _ _ _ _ HF)|]. do 4 (split; [assumption|]). split; [exact docs_order|]. split; [exact R1|]. split; [exact R2|]. do 2 (split; [reflexivity|]).
  split; [simpl; auto|]. split; [simpl; auto|]. split; [exact (week_recurs trend)|]. intros l Hl. exact (docs_used trend ob f l HF Hl).
Qed.
(** Two series, forecasts of the days 2 and 3: the second series has no advertising on either day. *)
Example C120_panel_nonvacuous : copyable [] (f_cols ex_Xh) (bottom_series ex_Xh) /\ frame_wf ex_Xh /\ frame_wf ex_X2 /\ frame_wf ex_X3 /\ frame_wf ex_yh /\ (forall r, In r (f_rows ex_yh) -> ~ In "__total" (r_path r)) /\ clean_config two_config /\
  bottom_series ex_X2 = bottom_series ex_Xh /\ bottom_series ex_X3 = bottom_series ex_Xh /\ covers ex_X2 [2; 3]%Z /\ covers ex_X3 [2; 3]%Z /\ in_order [2; 3]%Z /\ List.length (series_ids ex_yh) = 2 /\
  nth_error (bottom_series ex_Xh) 1 = Some (r_path quiet2) /\ r_path quiet3 = r_path quiet2 /\ In quiet2 (f_rows ex_X2) /\ In quiet3 (f_rows ex_X3) /\
  (forall name ef0 cols x1 x2, configured two_config name ef0 -> Forall2 (seen [] (bottom_series ex_X2) ex_X2 quiet2) cols x1 -> Forall2 (seen [] (bottom_series ex_X3) ex_X3 quiet3) cols x2 -> recurs 1 ef0 x1 x2 /\ effect_mode ef0 Additive) /\
  exists ob f m1 m2 o1 tr1 o2 tr2, two_fit = (ob, Ok f) /\ o_transformer ob = None /\ scalar_piecewise (o_trend ob) /\ max_time (map snd (p_index (ft_prepared f))) = Ok 1%Z /\
  predict_model ex_ns keep_all ex_transform two_config ob f ex_yh (Some ex_X2) (Relative [1; 2]%Z) = Ok m1 /\ predict_model ex_ns keep_all ex_transform two_config ob f ex_yh (Some ex_X3) (Relative [1; 2]%Z) = Ok m2 /\
  run one [] m1 = Ok (o1, tr1) /\ run one [] m2 = Ok (o2, tr2).
Proof.
  split; [exact panel_copyable|]. split; [exact Xh_wf|]. split; [exact X2_wf|]. split; [exact X3_wf|]. split; [exact yh_wf|]. split; [exact yh_no_total|]. split; [exact two_clean|]. do 2 (split; [reflexivity|]).
  split; [apply X2_covers|]. split; [exact X3_covers|]. split; [repeat constructor|]. do 3 (split; [reflexivity|]). split; [simpl; auto|]. split; [simpl; auto|]. split; [exact panel_recurs|exact cells_hierarchical].
Qed.
(** The transformer keeps the column web only; web of the second series is 7 on day 2 in one table and on day 3 in the other. *)
Example C120_transformed_nonvacuous : given_training (Some ex_Xh) ex_yh ex_Xh /\ run_fit_transform ex_fit_transform (no_objects (Some false)) ex_Xh = (no_objects (Some false), Ok Xp0) /\ frame_wf Xp0 /\ copyable [] (f_cols Xp0) (series_ids Xp0) /\
  given_forecast (Some X_pick) ex_yh [2; 3]%Z X_pick /\ given_forecast (Some X_more) ex_yh [2; 3]%Z X_more /\ frame_wf Xp1 /\ frame_wf Xp2 /\ f_cols Xp1 = f_cols Xp0 /\ f_cols Xp2 = f_cols Xp0 /\ series_ids Xp1 = series_ids Xp0 /\ series_ids Xp2 = series_ids Xp0 /\
  covers Xp1 [2; 3]%Z /\ covers Xp2 [2; 3]%Z /\ in_order [2; 3]%Z /\ frame_wf ex_yh /\ (forall r, In r (f_rows ex_yh) -> ~ In "__total" (r_path r)) /\ clean_config (web_config false) /\ List.length (series_ids ex_yh) = 2 /\
  nth_error (series_ids Xp0) 1 = Some (r_path b_first) /\ r_path b_next = r_path b_first /\ In b_first (f_rows Xp1) /\ In b_next (f_rows Xp2) /\
  (forall name ef0 cols x1 x2, configured (web_config false) name ef0 -> Forall2 (seen [] (series_ids Xp1) Xp1 b_first) cols x1 -> Forall2 (seen [] (series_ids Xp2) Xp2 b_next) cols x2 -> recurs 1 ef0 x1 x2 /\ effect_mode ef0 Additive) /\
  exists ob f m1 m2 o1 o2 tr1 tr2, web_fit false = (ob, Ok f) /\ scalar_piecewise (o_trend ob) /\ max_time (map snd (p_index (ft_prepared f))) = Ok 1%Z /\ run_transform ex_transform ob X_pick = Ok Xp1 /\ run_transform ex_transform ob X_more = Ok Xp2 /\
  predict_model ex_ns keep_all ex_transform (web_config false) ob f ex_yh (Some X_pick) (Relative [1; 2]%Z) = Ok m1 /\ predict_model ex_ns keep_all ex_transform (web_config false) ob f ex_yh (Some X_more) (Relative [1; 2]%Z) = Ok m2 /\
  run one [] m1 = Ok (o1, tr1) /\ run one [] m2 = Ok (o2, tr2) /\ map fst (p_effects (ft_prepared f)) = ["web"].
Proof.
  split; [apply web_given|]. split; [reflexivity|]. split; [exact (proj1 pick_wf)|]. split; [exact pick_copyable|]. split; [apply web_given|]. split; [apply web_given|]. split; [exact (proj2 pick_wf)|]. split; [exact more_wf|]. do 4 (split; [reflexivity|]).
  split; [reflexivity|]. split; [reflexivity|]. split; [repeat constructor|]. split; [exact yh_wf|]. split; [exact yh_no_total|]. split; [exact (web_clean false)|]. split; [reflexivity|].
  do 2 (split; [reflexivity|]). split; [simpl; auto|]. split; [simpl; auto|]. split; [exact web_recurs|].
  destruct (web_run false) as (ob & f & m1 & m2 & o1 & o2 & tr1 & tr2 & HF & T1 & T2 & SP & MT & NM & _ & M1 & M2 & R1 & R2 & _). exists ob, f, m1, m2, o1, o2, tr1, tr2. repeat (split; [assumption|]). exact NM.
Qed.
