(** Exogenous data with their columns in another order. *)
From Coq Require Import Reals Lra ZArith String Bool List Lia Permutation.
From Verif.Model Require Import Base Num XFloat Regex Frame Expand Arr Aggregate Scale Prog Likelihood Effect Trend TrendProg Engine Forecaster Predict.
From Verif.Spec Require Import FrameSpec EffectSpec ForecasterSpec ByNameSpec.
From Verif.Facts Require Import BaseFacts FrameFacts EffectExamples ForecasterExamples EngineExamples HistoryExamples ComponentExamples CounterExamples OverlapExamples TotalExamples DocsExamples ByNameFacts ByNameForecaster ByNameFit.
Import ListNotations.
Local Open Scope string_scope.

(** the frame [Xd] with its columns in another order and a further column *)
Definition Xd_other : frame R := mkFrame 0 ["price"; "web"; "tv"] [mkRow [] 0 [5; 10; 1]; mkRow [] 7 [6; 20; 2]; mkRow [] 14 [5; 30; 3]]%R.
Lemma other_wf : frame_wf Xd_other.
Proof. intros r Hr. cbn in Hr. repeat (destruct Hr as [<-|Hr]; [split; reflexivity|]). destruct Hr. Qed.
Lemma other_same : same_columns (fun n => In n (f_cols Xu)) Xd Xd_other.
Proof.
  split; [reflexivity|]. split.
  - intros n H. cbn in H |- *. tauto.
  - repeat constructor; intros n H; cbn in H; (destruct H as [<-|[<-|[]]]; reflexivity).
Qed.
(** the training data [Xu] with its columns in another order *)
Definition Xu_other : frame R := mkFrame 0 ["web"; "tv"] [mkRow [] 0 [10; 1]; mkRow [] 1 [20; 2]; mkRow [] 7 [30; 3]]%R.
Definition Xd_swap : frame R := mkFrame 0 ["web"; "tv"] [mkRow [] 0 [10; 1]; mkRow [] 7 [20; 2]; mkRow [] 14 [30; 3]]%R.
Lemma swap_wf : frame_wf Xu_other /\ frame_wf Xd_swap.
Proof. split; intros r Hr; cbn in Hr; repeat (destruct Hr as [<-|Hr]; [split; reflexivity|]); destruct Hr. Qed.
Lemma swapped (a b : frame R) : (a, b) = (Xu, Xu_other) \/ (a, b) = (Xd, Xd_swap) -> same_columns (fun _ => True) a b.
Proof.
  assert (V : forall n u w : string, forall (x y : R), String.eqb u w = false -> FrameSpec.value_of [u; w] [x; y] n = FrameSpec.value_of [w; u] [y; x] n).
  { intros n u w x y NE. unfold FrameSpec.value_of. cbn. destruct (String.eqb_spec n u), (String.eqb_spec n w); subst; try reflexivity. now rewrite String.eqb_refl in NE. }
  intros [[= -> ->]|[= -> ->]]; (split; [reflexivity|split; [intros n _; cbn; tauto|]]); repeat constructor; intros n _; cbn [r_vals f_cols Xu Xu_other Xd Xd_swap]; now apply V.
Qed.
Lemma swap_matches trend : same_matches (docs_config trend) Xu Xu_other.
Proof. intros l Hl. cbn in Hl. destruct Hl as [<-|[<-|[<-|[]]]]; vm_compute; reflexivity. Qed.

(** the panel *)
Definition X2_other : frame R := mkFrame 1 ["price"; "web"; "tv"] (map (fun r => mkRow (r_path r) (r_time r) (match r_vals r with [a; b] => [7; b; a]%R | l => l end)) (f_rows ex_X2)).
Lemma X2_other_wf : frame_wf X2_other.
Proof. intros r Hr. cbn in Hr. repeat (destruct Hr as [<-|Hr]; [split; reflexivity|]). destruct Hr. Qed.
Lemma X2_other_same : same_columns (fun n => In n (f_cols ex_Xh) \/ exists col i, In col (f_cols ex_Xh) /\ n = get_col_name col i) ex_X2 X2_other.
Proof.
  assert (S : forall n, In n (f_cols ex_Xh) \/ (exists col i, In col (f_cols ex_Xh) /\ n = get_col_name col i) -> n <> "price").
  { intros n [H|(col & i & H & ->)]; cbn in H; (destruct H as [<-|[<-|[]]]; discriminate). }
  split; [reflexivity|]. split.
  - intros n H. apply S in H. cbn. split; [tauto|]. intros [E|E]; [congruence|tauto].
  - repeat constructor; intros n H; apply S in H; unfold FrameSpec.value_of; cbn; (destruct (String.eqb_spec n "price"); [congruence|]); destruct (String.eqb_spec n "tv"), (String.eqb_spec n "web"); subst; try reflexivity; discriminate.
Qed.

(** * the numbering of the coefficients follows the order of the columns *)
Definition both_columns : listed := ("ads", Linear Additive (DUser 0) base_init, Some ".*").
Definition first_only (n : string) (i : nat) : R := match i with 0 => 1 | _ => 0 end.
Lemma numbering_differs : succeeds (fit_ex [both_columns] None (Some Xu)) = true /\ succeeds (fit_ex [both_columns] None (Some Xu_other)) = true /\
  ForecasterExamples.value_of first_only (program (fit_ex [both_columns] None (Some Xu))) "ads" 0 = Some 1%R /\
  ForecasterExamples.value_of first_only (program (fit_ex [both_columns] None (Some Xu_other))) "ads" 0 = Some 10%R.
Proof. split; [vm_compute; reflexivity|]. split; [vm_compute; reflexivity|]. split; compute_real. Qed.
