(** Properties C61, C62, C73: sequences of fit, update and predict calls on one forecaster.  All theorems
    hold for every transformer and inference engine (the section variables) and every history. *)
From Coq Require Import Reals String Bool ZArith List.
From Verif.Model Require Import Base Num XFloat Frame Arr Aggregate Scale Predict Prog Effect TrendProg Engine Forecaster History.
From Verif.Spec Require Import FrameSpec EffectSpec ForecasterSpec HistorySpec.
From Verif.Facts Require Import EffectExamples ForecasterExamples EngineExamples HistoryFacts HistoryTimes HistoryRefit MergeFacts HistoryExamples AlignExamples PanelRuns.
Import ListNotations.
Local Open Scope string_scope.

Section Any.
Variable ns_of : Z -> Z.
Variable order : list string -> list string.
Variable keep : path -> bool.
Context {TS : Type}.
Variable tr_fit_transform : TS -> frame R -> TS * res (frame R).
Variable tr_transform : TS -> frame R -> res (frame R).
Context {P : Type}.
Variable svi_run : Z -> nat -> nat -> prog arr -> res (list xr * P).
Variable nuts_run : Z -> nat -> nat -> nat -> prog arr -> res (nat -> nat -> env).
Variable latent_sites : prog arr -> list string.
Variable guide_draw : P -> Z -> nat -> prog arr -> env.
Variable complete_draw : env -> Z -> nat -> prog arr -> env.
Notation step := (step ns_of order keep tr_fit_transform tr_transform svi_run nuts_run latent_sites guide_draw complete_draw).
Notation calls := (calls ns_of order keep tr_fit_transform tr_transform svi_run nuts_run latent_sites guide_draw complete_draw).
Notation labelled_at_evaluation := (labelled_at_evaluation ns_of order keep tr_fit_transform tr_transform svi_run nuts_run latent_sites guide_draw complete_draw).

(** * C61 Full statement: [labelled_at_evaluation c (calls c s cs) m X fh] for every history [cs].  True
    for Prophetverse and for absolute horizons; HierarchicalProphet counts relative horizons from the end
    of the data of the last fit but labels them from the end of the stored target. *)
Theorem C61_univariate : forall c s cs m X fh, c_hier c = false -> labelled_at_evaluation c (calls c s cs) m X fh.
Proof. exact (c61_univariate ns_of order keep tr_fit_transform tr_transform svi_run nuts_run latent_sites guide_draw complete_draw). Qed.

Theorem C61_absolute : forall c s cs m X ts, labelled_at_evaluation c (calls c s cs) m X (Absolute ts).
Proof. exact (c61_absolute ns_of order keep tr_fit_transform tr_transform svi_run nuts_run latent_sites guide_draw complete_draw). Qed.

Theorem C61_hierarchical_partial : forall c s before cl after m X fh, refits cl -> Forall is_predict after ->
  snd (step c (calls c s before) cl) = Ok ODone -> bottom_complete (st_y (fst (step c (calls c s before) cl))) ->
  labelled_at_evaluation c (calls c s (before ++ cl :: after)) m X fh.
Proof. exact (c61_hierarchical ns_of order keep tr_fit_transform tr_transform svi_run nuts_run latent_sites guide_draw complete_draw). Qed.

(** * C62 *)
Theorem C62_result : forall c s cs cl, Forall is_predict cs -> snd (step c (calls c s cs) cl) = snd (step c s cl).
Proof. exact (c62 ns_of order keep tr_fit_transform tr_transform svi_run nuts_run latent_sites guide_draw complete_draw). Qed.

(** predictions can be removed from any place of a history *)
Theorem C62_anywhere : forall c s before cs after cl, Forall is_predict cs ->
  snd (step c (calls c s (before ++ cs ++ after)) cl) = snd (step c (calls c s (before ++ after)) cl).
Proof. exact (c62_anywhere ns_of order keep tr_fit_transform tr_transform svi_run nuts_run latent_sites guide_draw complete_draw). Qed.

Theorem C62_data : forall c s cs, Forall is_predict cs ->
  st_y (calls c s cs) = st_y s /\ st_X (calls c s cs) = st_X s /\ st_objects (calls c s cs) = st_objects s.
Proof. exact (c62_data ns_of order keep tr_fit_transform tr_transform svi_run nuts_run latent_sites guide_draw complete_draw). Qed.

(** * C73: fitting after any history is like fitting a new forecaster; [update] with [update_params] is
    like fitting a new forecaster on all data.  Transformers forget when fitted (sktime's contract). *)
Theorem C73_fit : (forall s X X', tr_fit_transform (fst (tr_fit_transform s X)) X' = tr_fit_transform s X') ->
  forall c ob cs y X, (c_trend c = TrendObject -> plain_trend (o_trend ob)) ->
  snd (step c (calls c (new_state ob) cs) (Fit y X)) = snd (step c (new_state ob) (Fit y X)) /\
  (snd (step c (new_state ob) (Fit y X)) = Ok ODone ->
   fst (step c (calls c (new_state ob) cs) (Fit y X)) = fst (step c (new_state ob) (Fit y X))).
Proof. exact (c73 ns_of order keep tr_fit_transform tr_transform svi_run nuts_run latent_sites guide_draw complete_draw). Qed.

Theorem C73_update : (forall s X X', tr_fit_transform (fst (tr_fit_transform s X)) X' = tr_fit_transform s X') ->
  forall c ob cs y X y' X', (c_trend c = TrendObject -> plain_trend (o_trend ob)) ->
  let s := calls c (new_state ob) cs in st_fitted s <> None ->
  NoDup (labels y) -> NoDup (labels (st_y s)) -> merged y (st_y s) y' -> merged_exogenous X (st_X s) X' ->
  snd (step c s (Update y X true)) = snd (step c (new_state ob) (Fit y' X')) /\
  (snd (step c (new_state ob) (Fit y' X')) = Ok ODone -> fst (step c s (Update y X true)) = fst (step c (new_state ob) (Fit y' X'))).
Proof.
  intros TF c ob cs y X y' X'.
  exact (c73_merged ns_of order keep tr_fit_transform tr_transform svi_run nuts_run latent_sites guide_draw complete_draw c ob cs y X y' X' TF).
Qed.

(** Without [update_params] the data are stored and nothing else changes; data of another form are
    rejected and change nothing. *)
Theorem C73_stored : forall c s f y X y' X', st_fitted s = Some f -> NoDup (labels y) -> NoDup (labels (st_y s)) ->
  merged y (st_y s) y' -> merged_exogenous X (st_X s) X' ->
  step c s (Update y X false) = (mkState (st_objects s) y' X' (Some f), Ok ODone).
Proof. exact (c73_stored ns_of order keep tr_fit_transform tr_transform svi_run nuts_run latent_sites guide_draw complete_draw). Qed.
Theorem C73_mismatch : forall c s f y X u, st_fitted s = Some f -> f_levels y <> f_levels (st_y s) \/ f_cols y <> f_cols (st_y s) ->
  exists e, step c s (Update y X u) = (s, Err e).
Proof. exact (c73_mismatch ns_of order keep tr_fit_transform tr_transform svi_run nuts_run latent_sites guide_draw complete_draw). Qed.
End Any.
Print Assumptions C61_univariate.
Print Assumptions C61_absolute.
Print Assumptions C61_hierarchical_partial.
Print Assumptions C62_result.
Print Assumptions C62_anywhere.
Print Assumptions C62_data.
Print Assumptions C73_fit.
Print Assumptions C73_update.
Print Assumptions C73_stored.
Print Assumptions C73_mismatch.

(** HierarchicalProphet fitted on times 0 and 1, updated with time 2 without refitting: the forecast one
    step ahead is labelled 3, but the effect has the value at time 2 (1 instead of 7). *)
Theorem C61_stale_refuted :
  times_of (snd (ex_step pw_config pw_stale (Predict Samples (Some ex_X2) (Relative [1%Z])))) = Some [3; 3; 3]%Z /\
  value_of ones (model_after pw_stale (Some ex_X2) (Relative [1%Z])) "all" 0 = Some 1%R /\
  value_of ones (model_after pw_stale (Some ex_X2) (Absolute [3%Z])) "all" 0 = Some 7%R.
Proof. exact (conj pw_stale_labels pw_stale_values). Qed.
Print Assumptions C61_stale_refuted.

Example C61_nonvacuous : refits (Fit ex_yh (Some ex_Xh)) /\
  snd (ex_step pw_config (new_state (no_objects None)) (Fit ex_yh (Some ex_Xh))) = Ok ODone /\ bottom_complete ex_yh /\
  times_of (snd (ex_step uni_config uni_refitted (Predict Samples None (Relative [1%Z])))) = Some [10]%Z.
Proof. split; [left; eauto|]. exact (conj pw_fit_ok (conj ex_bottom uni_refitted_labels)). Qed.

(** predictions do change the attribute [new_columns_], which no method reads *)
Example C62_nonvacuous : Forall is_predict some_predictions /\
  times_of (snd (ex_step pw_config (ex_calls pw_config pw_stale some_predictions) (Predict Samples (Some ex_X2) (Relative [1%Z])))) = Some [3; 3; 3]%Z /\
  option_map (@List.length _) (expander_of (ex_calls pw_config pw_stale some_predictions)) = Some 6 /\
  option_map (@List.length _) (expander_of pw_stale) = Some 4.
Proof. split; [repeat constructor; unfold is_predict; eauto|]. exact (conj pw_still_works pw_expander_changes). Qed.

Example C73_nonvacuous : (forall s X X', memo_fit (fst (memo_fit s X)) X' = memo_fit s X') /\
  (c_trend pw_config = TrendObject -> plain_trend (TFlat 1 base_init None)) /\
  snd (ex_step pw_config (new_state (no_objects None)) (Fit ex_yh (Some ex_Xh))) = Ok ODone /\ st_fitted pw_stale <> None.
Proof. split; [exact memo_forgets|]. split; [discriminate|]. exact (conj pw_fit_ok pw_stale_fitted). Qed.

(** new values replace old ones *)
Example C73_merged_nonvacuous :
  merged (mkFrame 0 ["y"] [mkRow [] 2%Z [6%R]; mkRow [] 1%Z [5%R]]) (mkFrame 0 ["y"] [mkRow [] 0%Z [1%R]; mkRow [] 1%Z [2%R]])
         (mkFrame 0 ["y"] [mkRow [] 0%Z [1%R]; mkRow [] 1%Z [5%R]; mkRow [] 2%Z [6%R]]).
Proof. apply MergeFacts.combine_first_merged; [| |reflexivity]; cbn; repeat constructor; cbn; intuition discriminate. Qed.
