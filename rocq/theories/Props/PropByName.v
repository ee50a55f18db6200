(** C119: the columns of the exogenous data are found by name. *)
From Coq Require Import Reals String Bool ZArith List Permutation.
From Verif.Model Require Import Base Num XFloat Regex Frame Arr Expand Aggregate Scale Prog Likelihood Effect Trend TrendProg Engine Forecaster.
From Verif.Spec Require Import FrameSpec EffectSpec ForecasterSpec ByNameSpec.
From Verif.Facts Require Import FrameFacts ExpandFacts EffectFourier EffectExamples ForecasterExamples EngineExamples HistoryExamples ComponentExamples CounterExamples OverlapExamples TotalExamples DocsExamples ResponseExamples
  ByNameFacts ByNameForecaster ByNameFit ByNameKnown ByNameExamples.
Import ListNotations.
Local Open Scope string_scope.

Section Any.
Variable ns_of : Z -> Z.
Variable order : list string -> list string.
Variable keep : path -> bool.
Context {TS : Type}.
Variable tr_fit_transform : TS -> frame R -> TS * res (frame R).
Variable tr_transform : TS -> frame R -> res (frame R).
Context {P : Type}.
Variable svi_run : Z -> nat -> nat -> prog arr -> res (list xr * P).
Variable nuts_run : Z -> nat -> nat -> nat -> prog arr -> res (nat -> nat -> env).
Variable latent_sites : prog arr -> list string.
Variable guide_draw : P -> Z -> nat -> prog arr -> env.
Variable complete_draw : env -> Z -> nat -> prog arr -> env.
Notation fit_forecaster := (fit_forecaster ns_of order keep tr_fit_transform svi_run nuts_run latent_sites).
Notation predictive_samples_dict := (predictive_samples_dict ns_of keep tr_transform guide_draw complete_draw).
Notation forecast_samples := (forecast_samples ns_of keep tr_transform guide_draw complete_draw).
Notation forecast_point := (forecast_point ns_of keep tr_transform guide_draw complete_draw).
Notation forecast_quantiles := (forecast_quantiles ns_of keep tr_transform guide_draw complete_draw).
Notation forecast_all_sites := (forecast_all_sites ns_of keep tr_transform guide_draw complete_draw).
Notation forecast_all_sites_samples := (forecast_all_sites_samples ns_of keep tr_transform guide_draw complete_draw).

(** * C119 *)
(** Two sets of exogenous data with the same rows and the same values in the columns [M] give the same forecasts (or the same
    exception), whatever the order of the columns and whatever else the data contain, provided [M] includes every column
    which the fitted forecaster knows: those of the trend, those of the effects and those which exist once for every series.
    A feature transformer must find its columns by name as well.  (With the hierarchical class data without any column are
    replaced, multivariate.py:323-326, so both or none must have a column.) *)
Theorem C119_forecast : forall c ob (f : fitted (P := P)) y X1 X2 fh (M : string -> Prop),
  (forall n, known_column ob f n -> M n) -> (forall tr, o_transformer ob = Some tr -> by_name tr_transform M (known_column ob f) tr) ->
  frame_wf X1 -> frame_wf X2 -> same_columns M X1 X2 -> (c_hier c = true -> no_columns X1 = no_columns X2) ->
  forecast_samples c ob f y (Some X1) fh = forecast_samples c ob f y (Some X2) fh /\
  forecast_point c ob f y (Some X1) fh = forecast_point c ob f y (Some X2) fh /\
  (forall alpha, forecast_quantiles c ob f y (Some X1) fh alpha = forecast_quantiles c ob f y (Some X2) fh alpha) /\
  forecast_all_sites c ob f y (Some X1) fh = forecast_all_sites c ob f y (Some X2) fh /\
  forecast_all_sites_samples c ob f y (Some X1) fh = forecast_all_sites_samples c ob f y (Some X2) fh.
Proof. exact (by_name_forecasts ns_of keep tr_transform guide_draw complete_draw). Qed.

(** The columns which a fitted forecaster knows are those of the training data, and for a panel their copies. *)
Theorem C119_known_univariate : forall c (ob : objects (TS := TS)) y X ob' (f : fitted (P := P)), fit_forecaster c ob y (Some X) = (ob', Ok f) -> c_hier c = false -> o_transformer ob = None -> plain (o_trend ob) ->
  o_transformer ob' = None /\ forall n, known_column ob' f n -> In n (f_cols X).
Proof. exact (known_univariate ns_of order keep tr_fit_transform svi_run nuts_run latent_sites). Qed.
Theorem C119_known_hierarchical (Order : forall l, Permutation (order l) l) : forall c (ob : objects (TS := TS)) y X ob' (f : fitted (P := P)), fit_forecaster c ob y (Some X) = (ob', Ok f) -> c_hier c = true -> o_transformer ob = None -> plain (o_trend ob) ->
  o_transformer ob' = None /\ forall n, known_column ob' f n -> In n (f_cols X) \/ exists col i, In col (f_cols X) /\ n = get_col_name col i.
Proof. exact (known_hierarchical ns_of order keep tr_fit_transform svi_run nuts_run latent_sites Order). Qed.

(** Full statement: exogenous data with the same columns in another order give the same training and the same forecasts.
    This fails when the order of the columns of one effect changes, see below.  It holds (univariate class, a trend model
    of the library, no feature transformer) when every listed effect selects the same columns in the same order: training
    ends in the same way, with the same posterior, and so do all forecasts.  The default effect needs no hypothesis. *)
Theorem C119_training_partial : forall c (ob : objects (TS := TS)) y X1 X2 ob1 ob2 r1 r2, fit_forecaster c ob y (Some X1) = (ob1, r1) -> fit_forecaster c ob y (Some X2) = (ob2, r2) ->
  c_hier c = false -> o_transformer ob = None -> plain (o_trend ob) -> frame_wf X1 -> frame_wf X2 -> same_columns (fun _ => True) X1 X2 -> same_matches c X1 X2 ->
  r1 = r2 /\ same_trend (o_trend ob1) (o_trend ob2) /\ o_transformer ob1 = None /\ o_transformer ob2 = None.
Proof. exact (by_name_fit ns_of order keep tr_fit_transform svi_run nuts_run latent_sites). Qed.
Theorem C119_refit_partial : forall c (ob : objects (TS := TS)) y X1 X2 ob1 ob2 (f1 f2 : fitted (P := P)), fit_forecaster c ob y (Some X1) = (ob1, Ok f1) -> fit_forecaster c ob y (Some X2) = (ob2, Ok f2) ->
  c_hier c = false -> o_transformer ob = None -> plain (o_trend ob) -> frame_wf X1 -> frame_wf X2 -> same_columns (fun _ => True) X1 X2 -> same_matches c X1 X2 ->
  f1 = f2 /\
  forall y2 Z1 Z2 fh, frame_wf Z1 -> frame_wf Z2 -> same_columns (fun _ => True) Z1 Z2 ->
    predictive_samples_dict c ob1 f1 y2 (Some Z1) fh = predictive_samples_dict c ob2 f2 y2 (Some Z2) fh.
Proof. exact (by_name_refit ns_of order keep tr_fit_transform tr_transform svi_run nuts_run latent_sites guide_draw complete_draw). Qed.
End Any.

(** The numbers of the coefficients of an effect follow the order of the columns: two trainings with the same data, in which
    only the order of the columns differs, have models which give the same parameters different meanings. *)
Theorem C119_order_refuted : exists c ob y X1 X2 e ob1 p1 m1 ob2 p2 m2, same_columns (fun _ => True) X1 X2 /\
  fit_data ex_ns sorted_sets keep_all ex_fit_transform c ob (SFloat 2) y (Some X1) = (ob1, Ok (p1, m1)) /\
  fit_data ex_ns sorted_sets keep_all ex_fit_transform c ob (SFloat 2) y (Some X2) = (ob2, Ok (p2, m2)) /\
  ForecasterExamples.value_of e m1 "ads" 0 = Some 1%R /\ ForecasterExamples.value_of e m2 "ads" 0 = Some 10%R.
Proof.
  exists (flat_config false [both_columns]), (no_objects None), ex_y, Xu, Xu_other, first_only. destruct numbering_differs as (S1 & S2 & V1 & V2). unfold fit_ex, succeeds, program in *.
  destruct (fit_data _ _ _ _ _ _ _ _ (Some Xu)) as [ob1 [[p1 m1]|]]; [|discriminate]. destruct (fit_data _ _ _ _ _ _ _ _ (Some Xu_other)) as [ob2 [[p2 m2]|]]; [|discriminate].
  exists ob1, p1, m1, ob2, p2, m2. split; [apply swapped; now left|]. auto.
Qed.

Print Assumptions C119_forecast.
Print Assumptions C119_known_univariate.
Print Assumptions C119_known_hierarchical.
Print Assumptions C119_training_partial.
Print Assumptions C119_refit_partial.
Print Assumptions C119_order_refuted.

(** Non-vacuity: a fitted forecaster with a linear effect, a seasonality and a saturation, trained on the columns tv and web;
    the forecast is made from the columns price, web and tv. *)
Example C119_univariate_nonvacuous : forall trend, In trend ["linear"; "linear_raw"; "logistic"] ->
  exists ob f m o tr, total_fit trend "normal" "mcmc" = (ob, Ok f) /\ predict_model ex_ns keep_all ex_transform (docs_config trend) ob f ex_y (Some Xd) hd3 = Ok m /\ run one [] m = Ok (o, tr) /\
    (forall n, known_column ob f n -> In n (f_cols Xu)) /\ (forall t, o_transformer ob = Some t -> by_name ex_transform (fun n => In n (f_cols Xu)) (known_column ob f) t) /\
    frame_wf Xd /\ frame_wf Xd_other /\ same_columns (fun n => In n (f_cols Xu)) Xd Xd_other /\ f_cols Xd <> f_cols Xd_other.
Proof.
  intros trend HT. destruct (docs_example trend HT) as (ob & f & m & o & tr & HF & HP & HR). exists ob, f, m, o, tr. split; [exact HF|]. split; [exact HP|]. split; [exact HR|].
  destruct (C119_known_univariate _ _ _ _ _ _ _ _ _ _ _ _ _ HF eq_refl eq_refl I) as [TN K]. split; [exact K|]. split; [intros t E; congruence|]. split; [exact docs_wf|]. split; [exact other_wf|]. split; [exact other_same|]. discriminate.
Qed.
(** a panel, trained on the columns tv and web of two series *)
Example C119_hierarchical_nonvacuous : exists ob f m o tr, two_fit = (ob, Ok f) /\ predict_model ex_ns keep_all ex_transform two_config ob f ex_yh (Some ex_X2) (Relative [1; 2]%Z) = Ok m /\ run one [] m = Ok (o, tr) /\
  (forall n, known_column ob f n -> In n (f_cols ex_Xh) \/ exists col i, In col (f_cols ex_Xh) /\ n = get_col_name col i) /\ o_transformer ob = None /\ frame_wf ex_X2 /\ frame_wf X2_other /\
  same_columns (fun n => In n (f_cols ex_Xh) \/ exists col i, In col (f_cols ex_Xh) /\ n = get_col_name col i) ex_X2 X2_other /\ no_columns ex_X2 = no_columns X2_other /\ f_cols ex_X2 <> f_cols X2_other.
Proof.
  destruct steps_hierarchical as (ob & f & m1 & m2 & o1 & tr1 & o2 & tr2 & HF & TN & _ & _ & HP & _ & HR & _). exists ob, f, m1, o1, tr1. split; [exact HF|]. split; [exact HP|]. split; [exact HR|].
  destruct (C119_known_hierarchical _ _ _ _ _ _ _ (fun l => Permutation_refl l) _ _ _ _ _ _ HF eq_refl eq_refl I) as [_ K]. split; [exact K|]. split; [exact TN|]. split; [exact X2_wf|]. split; [exact X2_other_wf|]. split; [exact X2_other_same|]. split; [reflexivity|]. discriminate.
Qed.
(** training with the columns in another order *)
Example C119_training_nonvacuous : forall trend, In trend ["linear"; "linear_raw"; "logistic"] ->
  exists ob ob2 f, total_fit trend "normal" "mcmc" = (ob, Ok f) /\
    fit_forecaster ex_ns sorted_sets keep_all ex_fit_transform ex_svi ex_nuts comp_latent (docs_config trend) (no_objects None) ex_y (Some Xu_other) = (ob2, Ok f) /\
    same_columns (fun _ => True) Xu Xu_other /\ same_matches (docs_config trend) Xu Xu_other /\ frame_wf Xu /\ frame_wf Xu_other /\ f_cols Xu <> f_cols Xu_other /\ same_columns (fun _ => True) Xd Xd_swap /\ frame_wf Xd_swap.
Proof.
  intros trend HT. destruct (docs_example trend HT) as (ob & f & m & o & tr & HF & _). pose proof swap_wf as [W1 W2].
  destruct (fit_forecaster ex_ns sorted_sets keep_all ex_fit_transform ex_svi ex_nuts comp_latent (docs_config trend) (no_objects None) ex_y (Some Xu_other)) as [ob2 r2] eqn:HF2.
  assert (SX : same_columns (fun _ => True) Xu Xu_other) by (apply swapped; now left).
  destruct (C119_training_partial _ _ _ _ _ _ _ _ _ _ _ _ _ _ _ _ HF HF2 eq_refl eq_refl I docs_x_wf W1 SX (swap_matches trend)) as [<- _].
  exists ob, ob2, f. split; [exact HF|]. split; [reflexivity|]. split; [exact SX|]. split; [exact (swap_matches trend)|]. split; [exact docs_x_wf|]. split; [exact W1|]. split; [discriminate|]. split; [apply swapped; now right|exact W2].
Qed.
(** a feature transformer which selects a column by name *)
Example C119_transformer_nonvacuous : forall k, by_name ex_transform (fun n => In n ["tv"; "web"]) (fun n => In n ["tv"; "web"]) k.
Proof.
  intros k A B WA WB S. destruct k; cbn [ex_transform]; [auto|]. pose proof (same_ag _ _ _ WA WB S) as AG. rewrite (ag_select _ A B ["web"] (fun n (H : In n ["web"]) => or_intror H) AG).
  destruct (select_columns 0%R B ["web"]) as [U|] eqn:E; [|reflexivity].
  assert (W : frame_wf U). { unfold select_columns in E. destruct (mapM _ _) as [ps|] eqn:EM in E; [|discriminate]. cbn [bind] in E. injection E as <-. intros r Hr. cbn [f_rows] in Hr. apply in_map_iff in Hr as (r0 & <- & Hr). destruct (WB r0 Hr) as [_ L]. split; [|exact L]. cbn. apply BaseFacts.mapM_length in EM. unfold select_vals. rewrite map_length. now rewrite EM. }
  split; [exact W|]. split; [exact W|]. split; [reflexivity|]. split; [tauto|]. induction (f_rows U); constructor; auto.
Qed.
