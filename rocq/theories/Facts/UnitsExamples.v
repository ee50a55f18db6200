(** Concrete changes of units. *)
From Coq Require Import Reals String Bool ZArith List Lra.
From Verif.Model Require Import Base Num XFloat Regex Frame Arr Expand Aggregate Scale Predict Prog Likelihood Trend Effect
  TrendProg Engine Forecaster History.
From Verif.Spec Require Import FrameSpec ForecasterSpec HistorySpec UnitsSpec.
From Verif.Facts Require Import NumFacts EffectExamples ForecasterExamples EngineExamples HistoryExamples.
Import ListNotations.
Local Open Scope string_scope.

(** value of a forecast at a label, in a column *)
Definition value_in (r : res output) (p : path) (t : Z) (j : nat) : option R :=
  match r with
  | Ok (OFrame f) => option_map (fun r => nth j (r_vals r) 0%R) (find_row f p t)
  | _ => None
  end.
Definition fit_and_predict (c : config) (y : frame R) : res output :=
  snd (ex_step c (ex_calls c (new_state (no_objects None)) [Fit y None]) (Predict Samples None (Relative [1%Z]))).

(** series b is zero throughout *)
Definition zero_b : frame R := mkFrame 1 ["y"] [mkRow ["a"] 0 [1]; mkRow ["a"] 1 [2]; mkRow ["b"] 0 [0]; mkRow ["b"] 1 [0]]%R.

Lemma replace01_zero x : x = 0%R -> replace01 x = 1%R.
Proof. intros ->. unfold replace01. rewrite Reqb_refl. reflexivity. Qed.
Lemma replace01_nonzero x : x <> 0%R -> replace01 x = x.
Proof. intros H. unfold replace01. apply Reqb_false in H. rewrite H. reflexivity. Qed.

Ltac expose := match goal with |- ?l = Some _ => let v := eval lazy -[IZR Rplus Rmult Rdiv Rminus Ropp Rinv replace01 INR Rmax Rabs] in l in
  replace l with v by (vm_cast_no_check (eq_refl v)); apply (f_equal (@Some R)) end.
Lemma ex_zero_b : value_in (fit_and_predict hier_config zero_b) ["b"] 2 1 = Some 1%R /\
  value_in (fit_and_predict hier_config (rescale_frame 2 zero_b)) ["b"] 2 1 = Some 1%R.
Proof.
  split; expose.
  - rewrite replace01_zero; [simpl; lra|]. rewrite Rabs_R0. apply Rmax_left. lra.
  - rewrite replace01_zero; [simpl; lra|]. rewrite Rmult_0_r, Rabs_R0. apply Rmax_left. lra.
Qed.

Lemma ex_units_a : value_in (fit_and_predict hier_config ex_yh) ["a"] 2 1 = Some 2%R /\
  value_in (fit_and_predict hier_config (rescale_frame 3 ex_yh)) ["a"] 2 1 = Some 6%R.
Proof.
  split; expose.
  - rewrite !Rabs_pos_eq by lra. rewrite Rmax_right by lra. rewrite replace01_nonzero by lra. simpl. lra.
  - rewrite !Rabs_pos_eq by lra. rewrite Rmax_right by lra. rewrite replace01_nonzero by lra. simpl. lra.
Qed.

Lemma ex_comparable : comparable 3 hier_config hier_config ex_yh.
Proof.
  split.
  - intros _ p H. simpl in H. destruct H as [<-|[<-|[<-|[<-|[]]]]].
    + exists (mkRow ["a"] 0 [1%R]), 1%R. simpl. repeat split; auto; lra.
    + exists (mkRow ["a"] 0 [1%R]), 1%R. simpl. repeat split; auto; lra.
    + exists (mkRow ["b"] 0 [3%R]), 3%R. simpl. repeat split; auto; lra.
    + exists (mkRow ["b"] 0 [3%R]), 3%R. simpl. repeat split; auto; lra.
  - reflexivity.
Qed.

(** a single series with a lift experiment, whose results change units with the target *)
Definition lift_config (v : R) : config :=
  mkConfig false (TrendName "flat") 25 (4 / 5) (1 / 1000) (1 / 10) (1 / 5) (11 / 10)
    (Some [("tv", Lift (Linear Additive (DUser 0) base_init) [(3%Z, Some v)] 1 base_init None, Some "tv")]) None (1 / 20) "normal" None None 1
    "mcmc" None 10 0 3 5 2.
Lemma ex_comparable_lift : comparable 3 (lift_config 5) (lift_config (3 * 5)) ex_y.
Proof. split; [intros H; destruct (H eq_refl)|]. reflexivity. Qed.

