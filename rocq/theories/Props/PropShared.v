(** Property C65: objects passed by reference.  Full statement: fitting a forecaster does not change the
    effect, trend and transformer objects passed as parameters, and forecasters sharing such objects do
    not influence each other.  True for effects, which are cloned; false for trend objects and feature
    transformers, which are fitted in place. *)
From Coq Require Import Reals String Bool ZArith List.
From Verif.Model Require Import Base Num XFloat Frame Arr Aggregate Scale Predict Prog Effect TrendProg Engine Forecaster History Shared.
From Verif.Spec Require Import FrameSpec EffectSpec ForecasterSpec HistorySpec SharedSpec.
From Verif.Facts Require Import EffectExamples ForecasterExamples EngineExamples HistoryExamples SharedFacts SharedExamples.
Import ListNotations.
Local Open Scope string_scope.

(** Effects: no object that existed before is changed, the fitted effects are new objects, and the
    outcome is that of the model without references (Forecaster.v). *)
Theorem C65_effects : forall order h d default lrs ls X s h' r, Forall2 (listed_as h) lrs ls ->
  match d, default with None, None => True | Some a, Some e => points_to h a e | _, _ => False end ->
  fit_effects_ref order h d lrs X s = (h', r) ->
  unchanged h h' /\
  match r, fit_effects order default ls X s with
  | Err e1, Err e2 => e1 = e2
  | Ok frs, Ok fs => Forall2 (fitted_as h') frs fs /\ Forall (fun fr => List.length h <= snd (fst fr)) frs
  | _, _ => False
  end.
Proof. exact c65_effects. Qed.

Section Any.
Variable ns_of : Z -> Z.
Variable order : list string -> list string.
Variable keep : path -> bool.
Context {TS : Type}.
Variable tr_fit_transform : TS -> frame R -> TS * res (frame R).
Variable tr_transform : TS -> frame R -> res (frame R).
Context {P : Type}.
Variable svi_run : Z -> nat -> nat -> prog arr -> res (list xr * P).
Variable nuts_run : Z -> nat -> nat -> nat -> prog arr -> res (nat -> nat -> env).
Variable latent_sites : prog arr -> list string.
Variable guide_draw : P -> Z -> nat -> prog arr -> env.
Variable complete_draw : env -> Z -> nat -> prog arr -> env.
Notation step := (step ns_of order keep tr_fit_transform tr_transform svi_run nuts_run latent_sites guide_draw complete_draw).
Notation calls := (calls ns_of order keep tr_fit_transform tr_transform svi_run nuts_run latent_sites guide_draw complete_draw).
Notation world_step := (world_step ns_of order keep tr_fit_transform tr_transform svi_run nuts_run latent_sites guide_draw complete_draw).
Notation world_calls := (world_calls ns_of order keep tr_fit_transform tr_transform svi_run nuts_run latent_sites guide_draw complete_draw).

(** Forecasters: whatever is called on the others, a forecaster answers as if it were the only one,
    provided that nobody else has its trend object or its transformer. *)
Theorem C65_isolation_partial : forall (w : world (TS := TS) (P := P)) i cs cl, alone w i ->
  snd (world_step (world_calls w cs) i cl) =
  snd (step (m_config (w_members w i)) (calls (m_config (w_members w i)) (view w (w_members w i)) (calls_to i cs)) cl).
Proof. exact (c65 ns_of order keep tr_fit_transform tr_transform svi_run nuts_run latent_sites guide_draw complete_draw). Qed.
End Any.

(** The object given as trend is changed by a fit. *)
Theorem C65_trend_object_refuted : exists w i y X,
  w_trends (fst (memo_world_step w i (Fit y X))) 0 <> w_trends w 0.
Proof. exact (ex_intro _ separate (ex_intro _ 0 (ex_intro _ ex_y (ex_intro _ (Some X_tv) ex_trend_changed)))). Qed.

(** Two forecasters sharing a FlatTrend object: after fitting the second one on other columns, the first
    one cannot predict any more. *)
Theorem C65_shared_trend_refuted : exists w i cs cl,
  m_transformer (w_members w i) = None /\
  err_of (snd (memo_world_step (memo_world_calls w cs) i cl)) = Some KeyError /\
  ok_of (snd (memo_step (m_config (w_members w i)) (memo_calls (m_config (w_members w i)) (view w (w_members w i)) (calls_to i cs)) cl)) = true.
Proof.
  exists shared_trend, 0, two_fits, then_predict. split; [reflexivity|]. split; [exact ex_trend_shared|exact ex_trend_alone].
Qed.

(** The same with a transformer that checks the columns it was fitted on. *)
Theorem C65_shared_transformer_refuted : exists w i cs cl,
  m_trend (w_members w i) = None /\
  err_of (snd (memo_world_step (memo_world_calls w cs) i cl)) = Some ValueError /\
  ok_of (snd (memo_step (m_config (w_members w i)) (memo_calls (m_config (w_members w i)) (view w (w_members w i)) (calls_to i cs)) cl)) = true.
Proof.
  exists shared_transformer, 0, two_fits, then_predict. split; [reflexivity|]. split; [exact ex_transformer_shared|exact ex_transformer_alone].
Qed.

Print Assumptions C65_effects.
Print Assumptions C65_isolation_partial.
Print Assumptions C65_trend_object_refuted.
Print Assumptions C65_shared_trend_refuted.
Print Assumptions C65_shared_transformer_refuted.

(** One object listed twice becomes two fitted objects, and stays as it was. *)
Example C65_effects_meets : Forall2 (listed_as one_linear) listed_twice
    [("a", Linear Additive (DUser 0) base_init, Some "tv"); ("b", Linear Additive (DUser 0) base_init, Some "web")] /\
  let '(h', r) := fit_effects_ref sorted_sets one_linear None listed_twice (Some Xu) 1 in
  cols_of_cells h' = [Some []; Some ["tv"]; Some ["web"]] /\ r = Ok [("a", 1, ["tv"]); ("b", 2, ["web"])].
Proof. split; [repeat constructor|exact ex_heap]. Qed.

(** Forecasters with objects of their own; the prediction after both fits succeeds. *)
Example C65_isolation_meets : alone separate 0 /\ ok_of (snd (memo_world_step (memo_world_calls separate two_fits) 0 then_predict)) = true.
Proof. exact (conj ex_separate_alone ex_separate). Qed.
