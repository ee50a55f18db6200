(** Property C05: change of units of the target.  All theorems hold for every transformer and inference
    engine (the section variables) and every history. *)
From Coq Require Import Reals String Bool ZArith List Lra.
From Verif.Model Require Import Base Num XFloat Frame Arr Aggregate Scale Predict Prog Effect TrendProg Engine Forecaster History.
From Verif.Spec Require Import FrameSpec ForecasterSpec HistorySpec UnitsSpec.
From Verif.Facts Require Import EffectExamples ForecasterExamples EngineExamples HistoryExamples UnitsHistory UnitsExamples AlignExamples PanelRuns.
Import ListNotations.
Local Open Scope string_scope.

Section Any.
Variable ns_of : Z -> Z.
Variable order : list string -> list string.
Variable keep : path -> bool.
Context {TS : Type}.
Variable tr_fit_transform : TS -> frame R -> TS * res (frame R).
Variable tr_transform : TS -> frame R -> res (frame R).
Context {P : Type}.
Variable svi_run : Z -> nat -> nat -> prog arr -> res (list xr * P).
Variable nuts_run : Z -> nat -> nat -> nat -> prog arr -> res (nat -> nat -> env).
Variable latent_sites : prog arr -> list string.
Variable guide_draw : P -> Z -> nat -> prog arr -> env.
Variable complete_draw : env -> Z -> nat -> prog arr -> env.
Notation step := (step ns_of order keep tr_fit_transform tr_transform svi_run nuts_run latent_sites guide_draw complete_draw).
Notation calls := (calls ns_of order keep tr_fit_transform tr_transform svi_run nuts_run latent_sites guide_draw complete_draw).

(** Full statement: without the condition that no series of a panel is zero throughout, which is
    necessary (see the refutation below).  Lift experiments are rescaled along with a single series (a
    panel does not admit them). *)
Theorem C05_history_partial : forall k, (0 < k)%R -> forall c c', c_scale c = None -> discrete c = false -> forall ob cs cl,
  (c_hier c = true -> c_trend c = TrendObject -> lift_free_trend (o_trend ob)) ->
  (forall before a after, (cs ++ [cl])%list = (before ++ a :: after)%list -> refits a ->
     comparable k c c' (st_y (fst (step c (calls c (new_state ob) before) a)))) ->
  snd (step c' (calls c' (new_state ob) (map (rescale_call k) cs)) (rescale_call k cl)) =
  rescale_result k (snd (step c (calls c (new_state ob) cs) cl)).
Proof. exact (c05 ns_of order keep tr_fit_transform tr_transform svi_run nuts_run latent_sites guide_draw complete_draw). Qed.

(** fit, then predict; no lift experiments *)
Theorem C05_forecast_partial : forall k, (0 < k)%R -> forall c, c_scale c = None -> discrete c = false -> lift_free_config c -> forall ob y X m X' fh,
  (c_hier c = true -> c_trend c = TrendObject -> lift_free_trend (o_trend ob)) -> no_zero_series y ->
  snd (step c (calls c (new_state ob) [Fit (rescale_frame k y) X]) (Predict m X' fh)) =
  rescale_result k (snd (step c (calls c (new_state ob) [Fit y X]) (Predict m X' fh))).
Proof. exact (c05_forecast ns_of order keep tr_fit_transform tr_transform svi_run nuts_run latent_sites guide_draw complete_draw). Qed.
End Any.
Print Assumptions C05_history_partial.
Print Assumptions C05_forecast_partial.

(** A series that is zero throughout has scale 1 in any units; sample 1 of its forecast is 1 in both. *)
Theorem C05_zero_series_refuted :
  value_in (fit_and_predict pw_config zero_b) ["b"] 2 1 = Some 1%R /\
  value_in (fit_and_predict pw_config (rescale_frame 2 zero_b)) ["b"] 2 1 = Some 1%R.
Proof. exact pw_zero_b. Qed.
Print Assumptions C05_zero_series_refuted.

Example C05_nonvacuous : comparable 3 pw_config pw_config ex_yh /\
  value_in (fit_and_predict pw_config ex_yh) ["a"] 2 1 = Some 2%R /\ value_in (fit_and_predict pw_config (rescale_frame 3 ex_yh)) ["a"] 2 1 = Some 6%R.
Proof. exact (conj pw_comparable pw_units_a). Qed.
Example C05_nonvacuous_lift : comparable 3 (lift_config 5) (lift_config (3 * 5)) ex_y.
Proof. exact ex_comparable_lift. Qed.
