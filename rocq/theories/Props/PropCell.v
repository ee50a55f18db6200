(** C116: the forecast of a series at a date reads only the exogenous values of that series and date. *)
From Coq Require Import Reals Lra String Bool ZArith List.
From Verif.Model Require Import Base Num XFloat Frame Arr Expand Aggregate Scale Prog Likelihood Effect Trend TrendProg Engine Forecaster.
From Verif.Spec Require Import FrameSpec ProgSpec ForecasterSpec AlignSpec ShapeSpec ResponseSpec OverlapSpec CellSpec.
From Verif.Facts Require Import EffectExamples ForecasterExamples EngineExamples HistoryExamples AlignExamples ComponentExamples CounterExamples OverlapExamples CellForecaster CellExamples ResponseExamples TransformedExamples CellTransformed.
Import ListNotations.
Local Open Scope string_scope.

Section Any.
Variable ns_of : Z -> Z.
Variable order : list string -> list string.
Variable keep : path -> bool.
Context {TS : Type}.
Variable tr_fit_transform : TS -> frame R -> TS * res (frame R).
Variable tr_transform : TS -> frame R -> res (frame R).
Context {P : Type}.
Variable svi_run : Z -> nat -> nat -> prog arr -> res (list xr * P).
Variable nuts_run : Z -> nat -> nat -> nat -> prog arr -> res (nat -> nat -> env).
Variable latent_sites : prog arr -> list string.
Notation fit_forecaster := (fit_forecaster ns_of order keep tr_fit_transform svi_run nuts_run latent_sites).
Notation predict_model := (predict_model ns_of keep tr_transform).

(** * C116 *)
(** Two forecasts of one fitted forecaster with exogenous data [X1] and [X2], which have the same columns and may differ in
    values and dates, for horizons with dates [ts1] and [ts2]; any values [e] of the parameters.  The sites are the same in
    the same order, the parameters have the same priors and values, and at every date that both horizons have and at which
    both frames hold the same values the components and the distributions of the observations are the same.  Any effects
    of the library - saturation curves, seasonality and lifts included - and any likelihood; piecewise and flat trends.
    With a feature transformer, the values are those after the transformation. *)
Theorem C116_univariate : forall ts1 ts2, ts1 <> [] -> ts2 <> [] -> in_order ts1 -> in_order ts2 ->
  forall c ob y X0 ob' (f : fitted (P := P)), fit_forecaster c ob y X0 = (ob', Ok f) -> c_hier c = false -> f_levels y = 0 ->
  scalar_piecewise (o_trend ob') \/ flat_trend (o_trend ob') ->
  forall y2 cutoff fh1 fh2, max_time (map r_time (f_rows y2)) = Ok cutoff -> to_absolute cutoff fh1 = ts1 -> to_absolute cutoff fh2 = ts2 ->
  forall X1 X2 Xt1 Xt2, match o_transformer ob' with None => Ok X1 | Some tr => tr_transform tr X1 end = Ok Xt1 ->
  match o_transformer ob' with None => Ok X2 | Some tr => tr_transform tr X2 end = Ok Xt2 ->
  f_levels Xt1 = 0 -> same_frame Xt1 Xt2 -> covers Xt1 ts1 -> covers Xt2 ts2 -> frame_wf Xt1 -> frame_wf Xt2 ->
  forall e m1 m2 o1 tr1 o2 tr2, predict_model c ob' f y2 (Some X1) fh1 = Ok m1 -> predict_model c ob' f y2 (Some X2) fh2 = Ok m2 ->
  run e [] m1 = Ok (o1, tr1) -> run e [] m2 = Ok (o2, tr2) -> same_cells 1 ts1 ts2 (unchanged [[]] Xt1 Xt2) tr1 tr2.
Proof. exact (c116_univariate ns_of order keep tr_fit_transform tr_transform svi_run nuts_run latent_sites). Qed.

(** Panels in the hierarchical class, piecewise trends, no feature transformer: what a series is expected to be at a date
    does not depend on the exogenous data of the other series, the other dates, or the totals.  Series are numbered in the
    order of the exogenous data. *)
Theorem C116_hierarchical : forall ts1 ts2, ts1 <> [] -> ts2 <> [] -> in_order ts1 -> in_order ts2 ->
  forall c ob y X0 ob' (f : fitted (P := P)), fit_forecaster c ob y X0 = (ob', Ok f) -> c_hier c = true -> f_levels y <> 0 -> frame_wf y ->
  (forall r, In r (f_rows y) -> ~ In "__total" (r_path r)) -> scalar_piecewise (o_trend ob') -> o_transformer ob = None ->
  (forall Z, X0 = Some Z -> f_levels Z <> 0) ->
  forall y2 cutoff fh1 fh2, max_time (map snd (p_index (ft_prepared f))) = Ok cutoff -> to_absolute cutoff fh1 = ts1 -> to_absolute cutoff fh2 = ts2 ->
  forall X1 X2, no_columns X1 = false -> same_frame X1 X2 -> covers X1 ts1 -> covers X2 ts2 -> frame_wf X1 -> frame_wf X2 ->
  forall e m1 m2 o1 tr1 o2 tr2, predict_model c ob' f y2 (Some X1) fh1 = Ok m1 -> predict_model c ob' f y2 (Some X2) fh2 = Ok m2 ->
  run e [] m1 = Ok (o1, tr1) -> run e [] m2 = Ok (o2, tr2) -> same_cells (List.length (series_ids y)) ts1 ts2 (unchanged (bottom_of X1) X1 X2) tr1 tr2.
Proof. exact (c116_hierarchical ns_of order keep tr_fit_transform tr_transform svi_run nuts_run latent_sites). Qed.

(** The same with a feature transformer which returns columns, and forecasts with or without exogenous data: what a series is
    expected to be at a date depends on the values after the transformation ([Xt1], [Xt2]) of that series and date only. *)
Theorem C116_transformed : forall ts1 ts2, ts1 <> [] -> ts2 <> [] -> in_order ts1 -> in_order ts2 ->
  forall c ob y X0 ob' (f : fitted (P := P)), fit_forecaster c ob y X0 = (ob', Ok f) -> c_hier c = true -> f_levels y <> 0 -> frame_wf y ->
  (forall r, In r (f_rows y) -> ~ In "__total" (r_path r)) -> scalar_piecewise (o_trend ob') ->
  forall B0 ob1 Zt, given_training X0 y B0 -> run_fit_transform tr_fit_transform ob B0 = (ob1, Ok Zt) -> f_levels Zt <> 0 -> f_cols Zt <> [] ->
  forall y2 cutoff fh1 fh2, max_time (map snd (p_index (ft_prepared f))) = Ok cutoff -> to_absolute cutoff fh1 = ts1 -> to_absolute cutoff fh2 = ts2 ->
  forall X1 X2 B1 B2 Xt1 Xt2, given_forecast X1 y2 ts1 B1 -> given_forecast X2 y2 ts2 B2 -> run_transform tr_transform ob' B1 = Ok Xt1 -> run_transform tr_transform ob' B2 = Ok Xt2 ->
  f_levels Xt1 <> 0 -> same_frame Xt1 Xt2 -> covers Xt1 ts1 -> covers Xt2 ts2 -> frame_wf Xt1 -> frame_wf Xt2 ->
  forall e m1 m2 o1 tr1 o2 tr2, predict_model c ob' f y2 X1 fh1 = Ok m1 -> predict_model c ob' f y2 X2 fh2 = Ok m2 ->
  run e [] m1 = Ok (o1, tr1) -> run e [] m2 = Ok (o2, tr2) -> same_cells (List.length (series_ids y)) ts1 ts2 (unchanged (series_ids Xt1) Xt1 Xt2) tr1 tr2.
Proof. exact (c116_transformed ns_of order keep tr_fit_transform tr_transform svi_run nuts_run latent_sites). Qed.
End Any.

Print Assumptions C116_transformed.
Print Assumptions C116_univariate.
Print Assumptions C116_hierarchical.

(** after data ending on day 7: days 8, 9 with one frame, days 9, 11 with another, equal on day 9 only, under three
    likelihoods; day 9 is expected to be 23 in both, day 11 to be 44 with one frame and 87 with the other *)
Example C116_nonvacuous : in_order [8; 9]%Z /\ in_order [9; 11]%Z /\ covers Xo [8; 9]%Z /\ covers Xq [9; 11]%Z /\ frame_wf Xo /\ frame_wf Xq /\ same_frame Xo Xq /\
  unchanged [[]] Xo Xq 0 9 /\ ~ unchanged [[]] Xo Xq 0 11 /\
  max_time (map r_time (f_rows ex_y)) = Ok 7%Z /\ to_absolute 7 hs1 = [8; 9]%Z /\ to_absolute 7 hs2 = [9; 11]%Z /\
  (forall likelihood, In likelihood ["normal"; "gamma"; "negbinomial"] ->
   exists ob f m1 m2 o1 tr1 o2 tr2, comp_fit likelihood = (ob, Ok f) /\ o_transformer ob = None /\ flat_trend (o_trend ob) /\
    predict_model ex_ns keep_all ex_transform (comp_config likelihood) ob f ex_y (Some Xo) hs1 = Ok m1 /\
    predict_model ex_ns keep_all ex_transform (comp_config likelihood) ob f ex_y (Some Xq) hs2 = Ok m2 /\
    run one [] m1 = Ok (o1, tr1) /\ run one [] m2 = Ok (o2, tr2) /\ at_steps likelihood (Some Xo) hs1 = Some tr1 /\ at_steps likelihood (Some Xq) hs2 = Some tr2) /\
  mean_at (at_steps "normal" (Some Xo) hs1) 1 = Some 23%R /\ mean_at (at_steps "normal" (Some Xq) hs2) 0 = Some 23%R /\
  mean_at (at_steps "normal" (Some Xo) hs2) 1 = Some 44%R /\ mean_at (at_steps "normal" (Some Xq) hs2) 1 = Some 87%R.
Proof.
  split; [exact order_1|]. split; [exact order_2|]. split; [apply Xo_covers|]. split; [exact Xq_covers|]. split; [exact Xo_wf|]. split; [exact Xq_wf|]. split; [exact Xq_frame|].
  split; [exact Xq_day9|]. split; [exact Xq_day11|]. do 3 (split; [reflexivity|]). split; [exact cells_univariate|exact cells_values].
Qed.
(** two series with a piecewise trend and copied columns: the first series changes on the first day, the others are left *)
Example C116_nonvacuous_hierarchical : covers ex_X2 [2; 3]%Z /\ covers ex_X3 [2; 3]%Z /\ frame_wf ex_X2 /\ frame_wf ex_X3 /\ same_frame ex_X2 ex_X3 /\ no_columns ex_X2 = false /\
  frame_wf ex_yh /\ (forall r, In r (f_rows ex_yh) -> ~ In "__total" (r_path r)) /\
  unchanged (bottom_of ex_X2) ex_X2 ex_X3 0 3 /\ unchanged (bottom_of ex_X2) ex_X2 ex_X3 1 2 /\ unchanged (bottom_of ex_X2) ex_X2 ex_X3 1 3 /\
  ~ unchanged (bottom_of ex_X2) ex_X2 ex_X3 0 2 /\
  exists ob f m1 m2 o1 tr1 o2 tr2, two_fit = (ob, Ok f) /\ o_transformer ob = None /\ scalar_piecewise (o_trend ob) /\
  max_time (map snd (p_index (ft_prepared f))) = Ok 1%Z /\
  predict_model ex_ns keep_all ex_transform two_config ob f ex_yh (Some ex_X2) (Relative [1; 2]%Z) = Ok m1 /\
  predict_model ex_ns keep_all ex_transform two_config ob f ex_yh (Some ex_X3) (Relative [1; 2]%Z) = Ok m2 /\
  run one [] m1 = Ok (o1, tr1) /\ run one [] m2 = Ok (o2, tr2).
Proof.
  split; [apply X2_covers|]. split; [exact X3_covers|]. split; [exact X2_wf|]. split; [exact X3_wf|]. split; [exact X3_frame|]. split; [reflexivity|]. split; [exact yh_wf|]. split; [exact yh_no_total|].
  destruct X3_cells as (A & B & C & D). do 4 (split; [assumption|]). exact cells_hierarchical.
Qed.
(** a transformer that keeps the column web only: the two data sets differ in tv too, web changes for the first series on day 2
    and for the second on day 3 *)
Example C116_transformed_nonvacuous : given_training (Some ex_Xh) ex_yh ex_Xh /\ run_fit_transform ex_fit_transform (no_objects (Some false)) ex_Xh = (no_objects (Some false), Ok Xp0) /\ f_levels Xp0 <> 0 /\ f_cols Xp0 <> [] /\
  given_forecast (Some X_pick) ex_yh [2; 3]%Z X_pick /\ given_forecast (Some X_more) ex_yh [2; 3]%Z X_more /\ same_frame Xp1 Xp2 /\ covers Xp1 [2; 3]%Z /\ covers Xp2 [2; 3]%Z /\ frame_wf Xp1 /\ frame_wf Xp2 /\
  unchanged (series_ids Xp1) Xp1 Xp2 0 3 /\ unchanged (series_ids Xp1) Xp1 Xp2 1 2 /\ ~ unchanged (series_ids Xp1) Xp1 Xp2 0 2 /\ ~ unchanged (series_ids Xp1) Xp1 Xp2 1 3 /\
  exists ob f m1 m2 o1 o2 tr1 tr2, web_fit false = (ob, Ok f) /\ run_transform ex_transform ob X_pick = Ok Xp1 /\ run_transform ex_transform ob X_more = Ok Xp2 /\ scalar_piecewise (o_trend ob) /\
  max_time (map snd (p_index (ft_prepared f))) = Ok 1%Z /\
  predict_model ex_ns keep_all ex_transform (web_config false) ob f ex_yh (Some X_pick) (Relative [1; 2]%Z) = Ok m1 /\ predict_model ex_ns keep_all ex_transform (web_config false) ob f ex_yh (Some X_more) (Relative [1; 2]%Z) = Ok m2 /\
  run one [] m1 = Ok (o1, tr1) /\ run one [] m2 = Ok (o2, tr2).
Proof.
  destruct web_given as (G0 & G1 & G2). split; [exact G0|]. split; [reflexivity|]. split; [discriminate|]. split; [discriminate|]. split; [exact G1|]. split; [exact G2|]. split; [repeat split|]. do 2 (split; [reflexivity|]). split; [exact (proj2 pick_wf)|]. split; [exact more_wf|].
  split; [exists ["a"]; split; reflexivity|]. split; [exists ["b"]; split; reflexivity|].
  split; [intros (p & E & V); cbn in E; injection E as <-; cbn in V; injection V as V; lra|]. split; [intros (p & E & V); cbn in E; injection E as <-; cbn in V; injection V as V; lra|].
  destruct (web_run false) as (ob & f & m1 & m2 & o1 & o2 & tr1 & tr2 & HF & T1 & T2 & SP & MT & _ & _ & P1 & P2 & R1 & R2 & _). exists ob, f, m1, m2, o1, o2, tr1, tr2. repeat (split; [assumption|]). assumption.
Qed.
