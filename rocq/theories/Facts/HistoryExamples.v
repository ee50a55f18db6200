(** Concrete histories. *)
From Coq Require Import Reals String Bool ZArith List Lra.
From Verif.Model Require Import Base Num XFloat Regex Frame Arr Expand Aggregate Scale Predict Prog Likelihood Trend Effect
  TrendProg Engine Forecaster History.
From Verif.Spec Require Import FrameSpec ForecasterSpec HistorySpec.
From Verif.Facts Require Import NumFacts EffectExamples ForecasterExamples EngineExamples.
Import ListNotations.
Local Open Scope string_scope.

Definition hier_config : config :=
  mkConfig true (TrendName "flat") 25 (4 / 5) (1 / 1000) (1 / 10) (1 / 5) (11 / 10) (Some [("all", Linear Additive (DUser 0) base_init, Some ".*")])
    None (1 / 20) "normal" None None 1 "mcmc" None 10 0 3 5 2.
Definition ex_step := step ex_ns sorted_sets keep_all ex_fit_transform ex_transform ex_svi ex_nuts ex_latent ex_guide ex_complete.
Definition ex_calls := calls ex_ns sorted_sets keep_all ex_fit_transform ex_transform ex_svi ex_nuts ex_latent ex_guide ex_complete.

(** one more observation of each series, and exogenous data for the two days after the first fit *)
Definition ex_y2 : frame R := mkFrame 1 ["y"] [mkRow ["a"] 2 [5]; mkRow ["b"] 2 [6]]%R.
Definition ex_X2 : frame R := mkFrame 1 ["tv"; "web"]
  [mkRow ["a"] 2 [1; 0]; mkRow ["a"] 3 [7; 0]; mkRow ["b"] 2 [0; 0]; mkRow ["b"] 3 [0; 0]]%R.
Definition ones (n : string) (i : nat) : R := 1%R.

Definition stale := ex_calls hier_config (new_state (no_objects None)) [Fit ex_yh (Some ex_Xh); Update ex_y2 None false].
Definition refitted := ex_calls hier_config (new_state (no_objects None)) [Fit ex_yh None; Update ex_y2 None true].

Definition times_of (r : res output) : option (list Z) := match r with Ok o => Some (out_times o) | Err _ => None end.
Definition model_in (st : state (TS := bool) (P := unit)) (X : option (frame R)) (fh : horizon) : prog arr :=
  match st_fitted st with
  | Some f => match predict_model ex_ns keep_all ex_transform hier_config (st_objects st) f (st_y st) X fh with Ok m => m | Err e => Raise e end
  | None => Raise ValueError
  end.

Lemma ex_stale_labels : times_of (snd (ex_step hier_config stale (Predict Samples (Some ex_X2) (Relative [1%Z])))) = Some [3; 3; 3]%Z.
Proof. vm_compute. reflexivity. Qed.
Lemma ex_stale_value : value_of ones (model_in stale (Some ex_X2) (Relative [1%Z])) "all" 0 = Some 1%R.
Proof. compute_real. Qed.
Lemma ex_absolute_value : value_of ones (model_in stale (Some ex_X2) (Absolute [3%Z])) "all" 0 = Some 7%R.
Proof. compute_real. Qed.
Lemma ex_refitted_labels : times_of (snd (ex_step hier_config refitted (Predict Samples None (Relative [1%Z])))) = Some [3; 3; 3]%Z.
Proof. vm_compute. reflexivity. Qed.

(** predictions before: other horizons, other series, failing calls *)
Definition some_predictions : list call :=
  [Predict Samples (Some ex_X2) (Relative [1; 2]%Z); Predict Point None (Relative [5%Z]); Predict (Quantiles [2%R]) (Some ex_X2) (Absolute [2%Z]);
   Predict AllSites (Some (mkFrame 1 ["tv"; "web"] [mkRow ["c"] 2 [1; 0]%R; mkRow ["a"] 2 [1; 0]%R; mkRow ["b"] 2 [1; 0]%R])) (Absolute [2%Z])].
Definition expander_of (s : state (TS := bool) (P := unit)) : option (dict string) :=
  match st_fitted s with Some f => option_map ex_new (p_expander (ft_prepared f)) | None => None end.

Lemma ex_still_works : times_of (snd (ex_step hier_config (ex_calls hier_config stale some_predictions) (Predict Samples (Some ex_X2) (Relative [1%Z])))) = Some [3; 3; 3]%Z.
Proof. vm_compute. reflexivity. Qed.

Lemma ex_bottom : bottom_complete ex_yh.
Proof. intros r H. exists r. split; [assumption|]. simpl in H. repeat destruct H as [<-|H]; try contradiction; auto. Qed.

Lemma ex_fit_done : snd (ex_step hier_config (ex_calls hier_config (new_state (no_objects None)) []) (Fit ex_yh (Some ex_Xh))) = Ok ODone.
Proof. vm_compute. reflexivity. Qed.

(** a transformer that remembers what it was fitted on: its state is the list of columns *)
Definition memo_fit (s : option (list string)) (X : frame R) : option (list string) * res (frame R) := (Some (f_cols X), Ok X).
Lemma memo_forgets s X X' : memo_fit (fst (memo_fit s X)) X' = memo_fit s X'.
Proof. reflexivity. Qed.

(** the attribute [new_columns_] of the expander does change *)
Lemma ex_expander_changes : option_map (@List.length _) (expander_of (ex_calls hier_config stale some_predictions)) = Some 6 /\
  option_map (@List.length _) (expander_of stale) = Some 4.
Proof. vm_compute. auto. Qed.

Lemma ex_fit_done_new : snd (ex_step hier_config (new_state (no_objects None)) (Fit ex_yh (Some ex_Xh))) = Ok ODone.
Proof. vm_compute. reflexivity. Qed.
Lemma ex_stale_fitted : st_fitted stale <> None.
Proof. vm_compute. discriminate. Qed.
