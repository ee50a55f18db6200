(** C102: the forecast of a date does not depend on the other dates of the horizon. *)
From Coq Require Import Reals String Bool ZArith List.
From Verif.Model Require Import Base Num XFloat Frame Arr Expand Aggregate Scale Prog Likelihood Effect Trend TrendProg Engine Forecaster.
From Verif.Spec Require Import FrameSpec ProgSpec ForecasterSpec AlignSpec ShapeSpec ResponseSpec OverlapSpec.
From Verif.Facts Require Import EffectExamples ForecasterExamples EngineExamples HistoryExamples AlignExamples ComponentExamples CounterExamples OverlapForecaster OverlapTransformed OverlapExamples ResponseExamples TransformedExamples OverlapTransformedExamples.
Import ListNotations.
Local Open Scope string_scope.

Section Any.
Variable ns_of : Z -> Z.
Variable order : list string -> list string.
Variable keep : path -> bool.
Context {TS : Type}.
Variable tr_fit_transform : TS -> frame R -> TS * res (frame R).
Variable tr_transform : TS -> frame R -> res (frame R).
Context {P : Type}.
Variable svi_run : Z -> nat -> nat -> prog arr -> res (list xr * P).
Variable nuts_run : Z -> nat -> nat -> nat -> prog arr -> res (nat -> nat -> env).
Variable latent_sites : prog arr -> list string.
Notation fit_forecaster := (fit_forecaster ns_of order keep tr_fit_transform svi_run nuts_run latent_sites).
Notation predict_model := (predict_model ns_of keep tr_transform).

(** * C102 *)
(** Two forecasts of one fitted forecaster for horizons with dates [ts1] and [ts2], same exogenous data, any values [e] of
    the parameters: the sites are the same in the same order, the parameters have the same priors and values, and at the
    dates that both horizons have the components are the same, and the observations have the same distribution - wherever
    the dates are in the horizons and whatever the other dates are.  Any effects of the library, any likelihood, piecewise
    and flat trends; the feature transformer may be any. *)
Theorem C102_univariate : forall ts1 ts2, ts1 <> [] -> ts2 <> [] -> in_order ts1 -> in_order ts2 ->
  forall c ob y X0 ob' (f : fitted (P := P)), fit_forecaster c ob y X0 = (ob', Ok f) -> c_hier c = false -> f_levels y = 0 ->
  scalar_piecewise (o_trend ob') \/ flat_trend (o_trend ob') ->
  forall y2 cutoff fh1 fh2, max_time (map r_time (f_rows y2)) = Ok cutoff -> to_absolute cutoff fh1 = ts1 -> to_absolute cutoff fh2 = ts2 ->
  forall X Xt, match o_transformer ob' with None => Ok X | Some tr => tr_transform tr X end = Ok Xt ->
  covers Xt ts1 -> covers Xt ts2 -> frame_wf Xt -> f_levels Xt = 0 ->
  forall e m1 m2 o1 tr1 o2 tr2, predict_model c ob' f y2 (Some X) fh1 = Ok m1 -> predict_model c ob' f y2 (Some X) fh2 = Ok m2 ->
  run e [] m1 = Ok (o1, tr1) -> run e [] m2 = Ok (o2, tr2) -> same_overlap 1 ts1 ts2 tr1 tr2.
Proof. exact (c102_univariate ns_of order keep tr_fit_transform tr_transform svi_run nuts_run latent_sites). Qed.

(** without exogenous data *)
Theorem C102_univariate_none : forall ts1 ts2, ts1 <> [] -> ts2 <> [] -> in_order ts1 -> in_order ts2 ->
  forall c ob y X0 ob' (f : fitted (P := P)), fit_forecaster c ob y X0 = (ob', Ok f) -> c_hier c = false -> f_levels y = 0 ->
  scalar_piecewise (o_trend ob') \/ flat_trend (o_trend ob') ->
  forall y2 cutoff fh1 fh2, max_time (map r_time (f_rows y2)) = Ok cutoff -> to_absolute cutoff fh1 = ts1 -> to_absolute cutoff fh2 = ts2 ->
  o_transformer ob' = None ->
  forall e m1 m2 o1 tr1 o2 tr2, predict_model c ob' f y2 None fh1 = Ok m1 -> predict_model c ob' f y2 None fh2 = Ok m2 ->
  run e [] m1 = Ok (o1, tr1) -> run e [] m2 = Ok (o2, tr2) -> same_overlap 1 ts1 ts2 tr1 tr2.
Proof. exact (c102_univariate_none ns_of order keep tr_fit_transform tr_transform svi_run nuts_run latent_sites). Qed.

(** Panels in the hierarchical class, piecewise trends, no feature transformer: for every series. *)
Theorem C102_hierarchical : forall ts1 ts2, ts1 <> [] -> ts2 <> [] -> in_order ts1 -> in_order ts2 ->
  forall c ob y X0 ob' (f : fitted (P := P)), fit_forecaster c ob y X0 = (ob', Ok f) -> c_hier c = true -> f_levels y <> 0 -> frame_wf y ->
  (forall r, In r (f_rows y) -> ~ In "__total" (r_path r)) -> scalar_piecewise (o_trend ob') -> o_transformer ob = None ->
  (forall Z, X0 = Some Z -> f_levels Z <> 0) ->
  forall y2 cutoff fh1 fh2, max_time (map snd (p_index (ft_prepared f))) = Ok cutoff -> to_absolute cutoff fh1 = ts1 -> to_absolute cutoff fh2 = ts2 ->
  forall X, no_columns X = false -> covers X ts1 -> covers X ts2 -> frame_wf X ->
  forall e m1 m2 o1 tr1 o2 tr2, predict_model c ob' f y2 (Some X) fh1 = Ok m1 -> predict_model c ob' f y2 (Some X) fh2 = Ok m2 ->
  run e [] m1 = Ok (o1, tr1) -> run e [] m2 = Ok (o2, tr2) -> same_overlap (List.length (series_ids y)) ts1 ts2 tr1 tr2.
Proof. exact (c102_hierarchical ns_of order keep tr_fit_transform tr_transform svi_run nuts_run latent_sites). Qed.

(** without exogenous data, or with a frame without columns *)
Theorem C102_hierarchical_none : forall ts1 ts2, ts1 <> [] -> ts2 <> [] -> in_order ts1 -> in_order ts2 ->
  forall c ob y X0 ob' (f : fitted (P := P)), fit_forecaster c ob y X0 = (ob', Ok f) -> c_hier c = true -> f_levels y <> 0 -> frame_wf y ->
  (forall r, In r (f_rows y) -> ~ In "__total" (r_path r)) -> scalar_piecewise (o_trend ob') -> o_transformer ob = None ->
  (forall Z, X0 = Some Z -> f_levels Z <> 0) ->
  forall y2 cutoff fh1 fh2, max_time (map snd (p_index (ft_prepared f))) = Ok cutoff -> to_absolute cutoff fh1 = ts1 -> to_absolute cutoff fh2 = ts2 ->
  forall X, match X with None => True | Some X => no_columns X = true end ->
  f_levels y2 <> 0 -> f_rows y2 <> [] -> frame_wf y2 -> (forall r, In r (f_rows y2) -> ~ In "__total" (r_path r)) ->
  forall e m1 m2 o1 tr1 o2 tr2, predict_model c ob' f y2 X fh1 = Ok m1 -> predict_model c ob' f y2 X fh2 = Ok m2 ->
  run e [] m1 = Ok (o1, tr1) -> run e [] m2 = Ok (o2, tr2) -> same_overlap (List.length (series_ids y)) ts1 ts2 tr1 tr2.
Proof. exact (c102_hierarchical_none ns_of order keep tr_fit_transform tr_transform svi_run nuts_run latent_sites). Qed.

(** The same with a feature transformer and exogenous columns in the forecast ([B] are the rows of the series in [X]): [Xt] is
    what the transformer returns for the forecast; if it returned no columns in fit, it is not asked again and the effects are
    given [B]. *)
Theorem C102_transformed : forall ts1 ts2, ts1 <> [] -> ts2 <> [] -> in_order ts1 -> in_order ts2 ->
  forall c ob y X0 ob' (f : fitted (P := P)), fit_forecaster c ob y X0 = (ob', Ok f) -> c_hier c = true -> f_levels y <> 0 -> frame_wf y ->
  (forall r, In r (f_rows y) -> ~ In "__total" (r_path r)) -> scalar_piecewise (o_trend ob') ->
  forall B0 ob1 Zt, given_training X0 y B0 -> run_fit_transform tr_fit_transform ob B0 = (ob1, Ok Zt) -> f_levels Zt <> 0 ->
  forall y2 cutoff fh1 fh2, max_time (map snd (p_index (ft_prepared f))) = Ok cutoff -> to_absolute cutoff fh1 = ts1 -> to_absolute cutoff fh2 = ts2 ->
  forall X B Xt, with_columns X B -> (f_cols Zt <> [] -> run_transform tr_transform ob' B = Ok Xt) -> (f_cols Zt = [] -> Xt = B) ->
  covers Xt ts1 -> covers Xt ts2 -> frame_wf Xt ->
  forall e m1 m2 o1 tr1 o2 tr2, predict_model c ob' f y2 X fh1 = Ok m1 -> predict_model c ob' f y2 X fh2 = Ok m2 ->
  run e [] m1 = Ok (o1, tr1) -> run e [] m2 = Ok (o2, tr2) -> same_overlap (List.length (series_ids y)) ts1 ts2 tr1 tr2.
Proof. exact (c102_transformed ns_of order keep tr_fit_transform tr_transform svi_run nuts_run latent_sites). Qed.
End Any.

Print Assumptions C102_univariate.
Print Assumptions C102_univariate_none.
Print Assumptions C102_hierarchical.
Print Assumptions C102_hierarchical_none.
Print Assumptions C102_transformed.

(** days 8, 9 and days 9, 11 after data ending on day 7, under three likelihoods: day 9 is second in one horizon, first in
    the other, and is expected to be 23 in both; the other days are expected to be 12 and 44 *)
Example C102_nonvacuous : in_order [8; 9]%Z /\ in_order [9; 11]%Z /\ covers Xo [8; 9]%Z /\ covers Xo [9; 11]%Z /\ frame_wf Xo /\
  max_time (map r_time (f_rows ex_y)) = Ok 7%Z /\ to_absolute 7 hs1 = [8; 9]%Z /\ to_absolute 7 hs2 = [9; 11]%Z /\
  (forall likelihood, In likelihood ["normal"; "gamma"; "negbinomial"] ->
   exists ob f m1 m2 o1 tr1 o2 tr2, comp_fit likelihood = (ob, Ok f) /\ o_transformer ob = None /\ flat_trend (o_trend ob) /\
    predict_model ex_ns keep_all ex_transform (comp_config likelihood) ob f ex_y (Some Xo) hs1 = Ok m1 /\
    predict_model ex_ns keep_all ex_transform (comp_config likelihood) ob f ex_y (Some Xo) hs2 = Ok m2 /\
    run one [] m1 = Ok (o1, tr1) /\ run one [] m2 = Ok (o2, tr2) /\ at_steps likelihood (Some Xo) hs1 = Some tr1 /\ at_steps likelihood (Some Xo) hs2 = Some tr2) /\
  mean_at (at_steps "normal" (Some Xo) hs1) 1 = Some 23%R /\ mean_at (at_steps "normal" (Some Xo) hs2) 0 = Some 23%R /\
  mean_at (at_steps "normal" (Some Xo) hs1) 0 = Some 12%R /\ mean_at (at_steps "normal" (Some Xo) hs2) 1 = Some 44%R.
Proof. split; [exact order_1|]. split; [exact order_2|]. split; [apply Xo_covers|]. split; [apply Xo_covers|]. split; [exact Xo_wf|]. do 3 (split; [reflexivity|]). split; [exact steps_univariate|exact steps_values]. Qed.
(** two series with a piecewise trend and copied columns: two days, and the second alone *)
Example C102_nonvacuous_hierarchical : covers ex_X2 [2; 3]%Z /\ covers ex_X2 [3]%Z /\ frame_wf ex_X2 /\ no_columns ex_X2 = false /\ frame_wf ex_yh /\
  (forall r, In r (f_rows ex_yh) -> ~ In "__total" (r_path r)) /\
  exists ob f m1 m2 o1 tr1 o2 tr2, two_fit = (ob, Ok f) /\ o_transformer ob = None /\ scalar_piecewise (o_trend ob) /\
  max_time (map snd (p_index (ft_prepared f))) = Ok 1%Z /\
  predict_model ex_ns keep_all ex_transform two_config ob f ex_yh (Some ex_X2) (Relative [1; 2]%Z) = Ok m1 /\
  predict_model ex_ns keep_all ex_transform two_config ob f ex_yh (Some ex_X2) (Relative [2]%Z) = Ok m2 /\
  run one [] m1 = Ok (o1, tr1) /\ run one [] m2 = Ok (o2, tr2).
Proof. split; [apply X2_covers|]. split; [apply X2_covers|]. split; [exact X2_wf|]. split; [reflexivity|]. split; [exact yh_wf|]. split; [exact yh_no_total|exact steps_hierarchical]. Qed.
(** without exogenous data: days 8, 9 and days 9, 11; two series, days 2, 3 and days 3, 6 *)
Example C102_nonvacuous_none : exists ob f m1 m2 o1 tr1 o2 tr2, none_fit = (ob, Ok f) /\ o_transformer ob = None /\ flat_trend (o_trend ob) /\
    predict_model ex_ns keep_all ex_transform none_config ob f ex_y None hs1 = Ok m1 /\
    predict_model ex_ns keep_all ex_transform none_config ob f ex_y None hs2 = Ok m2 /\
    run one [] m1 = Ok (o1, tr1) /\ run one [] m2 = Ok (o2, tr2).
Proof. exact none_univariate. Qed.
Example C102_nonvacuous_hierarchical_none : exists ob f m1 m2 o1 tr1 o2 tr2, bare_fit = (ob, Ok f) /\ o_transformer ob = None /\ scalar_piecewise (o_trend ob) /\
  max_time (map snd (p_index (ft_prepared f))) = Ok 1%Z /\
  predict_model ex_ns keep_all ex_transform bare_config ob f ex_yh None (Relative [1; 2]%Z) = Ok m1 /\
  predict_model ex_ns keep_all ex_transform bare_config ob f ex_yh None (Relative [2; 5]%Z) = Ok m2 /\
  run one [] m1 = Ok (o1, tr1) /\ run one [] m2 = Ok (o2, tr2).
Proof. exact none_hierarchical. Qed.
(** a transformer that keeps the column web only: days 2, 3 and day 3 alone *)
Example C102_transformed_nonvacuous : given_training (Some ex_Xh) ex_yh ex_Xh /\ run_fit_transform ex_fit_transform (no_objects (Some false)) ex_Xh = (no_objects (Some false), Ok Xp0) /\ f_levels Xp0 <> 0 /\ f_cols Xp0 <> [] /\
  with_columns (Some X_pick) X_pick /\ covers Xp1 [2; 3]%Z /\ covers Xp1 [3]%Z /\ frame_wf Xp1 /\
  exists ob f m1 m2 o1 o2 tr1 tr2, web_fit false = (ob, Ok f) /\ run_transform ex_transform ob X_pick = Ok Xp1 /\ scalar_piecewise (o_trend ob) /\
  max_time (map snd (p_index (ft_prepared f))) = Ok 1%Z /\
  predict_model ex_ns keep_all ex_transform (web_config false) ob f ex_yh (Some X_pick) (Relative [1; 2]%Z) = Ok m1 /\ predict_model ex_ns keep_all ex_transform (web_config false) ob f ex_yh (Some X_pick) (Relative [2]%Z) = Ok m2 /\
  run one [] m1 = Ok (o1, tr1) /\ run one [] m2 = Ok (o2, tr2).
Proof.
  split; [exact (proj1 web_given)|]. split; [reflexivity|]. split; [discriminate|]. split; [discriminate|]. split; [eexists; split; [reflexivity|]; split; [discriminate|reflexivity]|]. do 2 (split; [reflexivity|]). split; [exact (proj2 pick_wf)|exact web_steps].
Qed.
