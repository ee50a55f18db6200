(** Property C74: shapes of the observations and of their location.  All theorems hold for every
    transformer (the section variables). *)
From Coq Require Import Reals String Bool ZArith List.
From Verif.Model Require Import Base Num Frame Arr Scale Prog Effect Trend TrendProg Forecaster.
From Verif.Spec Require Import FrameSpec ScaleSpec ProgSpec ForecasterSpec AlignSpec ShapeSpec.
From Verif.Facts Require Import EffectExamples ForecasterExamples HistoryExamples AlignExamples ShapeFacts PanelRuns.
Import ListNotations.
Local Open Scope string_scope.

Section Any.
Variable ns_of : Z -> Z.
Variable order : list string -> list string.
Variable keep : path -> bool.
Context {TS : Type}.
Variable tr_fit_transform : TS -> frame R -> TS * res (frame R).
Notation fit_data := (fit_data ns_of order keep tr_fit_transform).

(** Full statement: in every run of the model of a fit, the observed values and their distribution have
    the same shape, [dates; 1] for one series and [dates; series] for a panel. *)

(** one series: every likelihood, any effects; piecewise trends, or the flat trend without transformer *)
Theorem C74_univariate_partial : forall c ob s y X ob' p m, fit_data c ob s y X = (ob', Ok (p, m)) -> c_hier c = false ->
  f_levels y = 0 -> one_column y -> NoDup (map r_time (f_rows y)) ->
  (scalar_piecewise (o_trend ob') \/
   flat_trend (o_trend ob') /\ o_transformer ob = None /\ match X with None => True | Some X => NoDup (labels X) end) ->
  forall e o tr, run e [] m = Ok (o, tr) -> observed_as [List.length (f_rows y); 1] tr.
Proof. exact (c74_univariate ns_of order keep tr_fit_transform). Qed.

(** a panel with one row for every series and date, and a piecewise trend *)
Theorem C74_hierarchical_partial : forall c ob s y X ob' p m, fit_data c ob s y X = (ob', Ok (p, m)) -> c_hier c = true ->
  f_levels y <> 0 -> frame_wf y -> (forall r, In r (f_rows y) -> ~ In "__total" (r_path r)) -> balanced y ->
  scalar_piecewise (o_trend ob') ->
  forall e o tr, run e [] m = Ok (o, tr) -> observed_as [List.length (time_ids y); List.length (series_ids y)] tr.
Proof. exact (c74_hierarchical ns_of order keep tr_fit_transform). Qed.

(** With the flat trend and several series the shapes differ in every run of every fit: the trend has one
    entry for each row of X, all series in a single dimension (effects/trend/flat.py:56-57). *)
Theorem C74_flat_refuted : forall c ob s y X ob' p m, fit_data c ob s y X = (ob', Ok (p, m)) -> c_hier c = true ->
  f_levels y <> 0 -> frame_wf y -> (forall r, In r (f_rows y) -> ~ In "__total" (r_path r)) ->
  1 < List.length (series_ids y) -> flat_trend (o_trend ob') ->
  forall e o tr, run e [] m = Ok (o, tr) -> observed_wrong tr.
Proof. exact (c74_flat ns_of order keep tr_fit_transform). Qed.
End Any.
Print Assumptions C74_univariate_partial.
Print Assumptions C74_hierarchical_partial.
Print Assumptions C74_flat_refuted.

Example C74_nonvacuous_univariate : exists ob p m o tr, fit_ex [linear_tv] None (Some Xu) = (ob, Ok (p, m)) /\
  run ones [] m = Ok (o, tr) /\ flat_trend (o_trend ob).
Proof. exact uni_flat. Qed.
Example C74_nonvacuous_hierarchical : balanced ex_yh /\ exists ob p m o tr, fit_pw sorted_sets (Some ex_Xh) = (ob, Ok (p, m)) /\
  run ones [] m = Ok (o, tr) /\ scalar_piecewise (o_trend ob).
Proof. exact (conj ex_balanced pw_shapes). Qed.
Example C74_nonvacuous_flat : List.length (series_ids ex_yh) = 2 /\ exists ob p m o tr, fit_exh sorted_sets (Some ex_Xh) = (ob, Ok (p, m)) /\
  run ones [] m = Ok (o, tr) /\ flat_trend (o_trend ob).
Proof. split; [reflexivity|]. exact exh_flat. Qed.
