(** The same series and dates with different exogenous data: concrete forecasts. *)
From Coq Require Import Reals String Bool ZArith List Lra Lia Sorted.
From Verif.Model Require Import Base Num XFloat Regex Frame Arr Expand Aggregate Scale Predict Prog Likelihood Trend Effect
  TrendProg Engine Forecaster.
From Verif.Spec Require Import FrameSpec ScaleSpec ProgSpec PredictSpec ForecasterSpec AlignSpec ShapeSpec SiteSpec ComponentSpec CounterSpec OverlapSpec CellSpec.
From Verif.Facts Require Import NumFacts EffectExamples ForecasterExamples EngineExamples HistoryExamples AlignExamples ComponentExamples CounterExamples OverlapExamples.
Import ListNotations.
Local Open Scope string_scope.

(** * one series: other values on all days but day 9, and other days in the horizon *)
Definition Xq : frame R := mkFrame 0 ["tv"; "web"] [mkRow [] 8 [4; 70]; mkRow [] 9 [2; 20]; mkRow [] 11 [6; 80]]%R.
Lemma Xq_covers : covers Xq [9; 11]%Z.
Proof. reflexivity. Qed.
Lemma Xq_wf : frame_wf Xq.
Proof. intros r Hr. cbn in Hr. repeat (destruct Hr as [<-|Hr]; [split; reflexivity|]). destruct Hr. Qed.
Lemma Xq_frame : same_frame Xo Xq.
Proof. repeat split. Qed.
Lemma Xq_day9 : unchanged (series_of Xo) Xo Xq 0 9.
Proof. exists []. split; reflexivity. Qed.
Lemma cells_univariate likelihood : In likelihood ["normal"; "gamma"; "negbinomial"] ->
  exists ob f m1 m2 o1 tr1 o2 tr2, comp_fit likelihood = (ob, Ok f) /\ o_transformer ob = None /\ flat_trend (o_trend ob) /\
    predict_model ex_ns keep_all ex_transform (comp_config likelihood) ob f ex_y (Some Xo) hs1 = Ok m1 /\
    predict_model ex_ns keep_all ex_transform (comp_config likelihood) ob f ex_y (Some Xq) hs2 = Ok m2 /\
    run one [] m1 = Ok (o1, tr1) /\ run one [] m2 = Ok (o2, tr2) /\ at_steps likelihood (Some Xo) hs1 = Some tr1 /\ at_steps likelihood (Some Xq) hs2 = Some tr2.
Proof.
  intros H.
  assert (S1 : is_some (at_steps likelihood (Some Xo) hs1) = true) by (simpl in H; destruct H as [<-|[<-|[<-|[]]]]; vm_compute; reflexivity).
  assert (S2 : is_some (at_steps likelihood (Some Xq) hs2) = true) by (simpl in H; destruct H as [<-|[<-|[<-|[]]]]; vm_compute; reflexivity).
  assert (S3 : shape_ok likelihood) by (simpl in H; destruct H as [<-|[<-|[<-|[]]]]; vm_compute; repeat split).
  rewrite comp_fit_eq. unfold at_steps in S1, S2 |- *. unfold shape_ok in S3. destruct (comp_fit2 likelihood) as [ob [f|]]; [|discriminate].
  destruct S3 as (O & FT & SC & FC & PE).
  destruct (predict_model _ _ _ _ ob f ex_y (Some Xo) hs1) as [m1|] eqn:E1; [|discriminate]. destruct (run one [] m1) as [[o1 tr1]|] eqn:R1; [|discriminate].
  destruct (predict_model _ _ _ _ ob f ex_y (Some Xq) hs2) as [m2|] eqn:E2; [|discriminate]. destruct (run one [] m2) as [[o2 tr2]|] eqn:R2; [|discriminate].
  exists ob, f, m1, m2, o1, tr1, o2, tr2. repeat (split; [assumption || reflexivity|]). reflexivity.
Qed.
Lemma cells_values : mean_at (at_steps "normal" (Some Xo) hs1) 1 = Some 23%R /\ mean_at (at_steps "normal" (Some Xq) hs2) 0 = Some 23%R /\
  mean_at (at_steps "normal" (Some Xo) hs2) 1 = Some 44%R /\ mean_at (at_steps "normal" (Some Xq) hs2) 1 = Some 87%R.
Proof. repeat split; compute_real. Qed.

(** * two series: the first series on the first day changes, the three other cells do not *)
Lemma X3_covers : covers ex_X3 [2; 3]%Z.
Proof. reflexivity. Qed.
Lemma X3_wf : frame_wf ex_X3.
Proof. intros r Hr. cbn in Hr. repeat (destruct Hr as [<-|Hr]; [split; reflexivity|]). destruct Hr. Qed.
Lemma X3_frame : same_frame ex_X2 ex_X3.
Proof. repeat split. Qed.
Lemma X3_cells : unchanged (bottom_of ex_X2) ex_X2 ex_X3 0 3 /\ unchanged (bottom_of ex_X2) ex_X2 ex_X3 1 2 /\ unchanged (bottom_of ex_X2) ex_X2 ex_X3 1 3 /\
  ~ unchanged (bottom_of ex_X2) ex_X2 ex_X3 0 2.
Proof.
  split; [exists ["a"]; split; reflexivity|]. split; [exists ["b"]; split; reflexivity|]. split; [exists ["b"]; split; reflexivity|].
  intros (p & E & V). cbn in E. injection E as <-. cbn in V. injection V as V. lra.
Qed.
Lemma Xq_day11 : ~ unchanged [[]] Xo Xq 0 11.
Proof. intros (p & E & V). cbn in E. injection E as <-. cbn in V. injection V as V. lra. Qed.
Lemma cells_hierarchical : exists ob f m1 m2 o1 tr1 o2 tr2, two_fit = (ob, Ok f) /\ o_transformer ob = None /\ scalar_piecewise (o_trend ob) /\
  max_time (map snd (p_index (ft_prepared f))) = Ok 1%Z /\
  predict_model ex_ns keep_all ex_transform two_config ob f ex_yh (Some ex_X2) (Relative [1; 2]%Z) = Ok m1 /\
  predict_model ex_ns keep_all ex_transform two_config ob f ex_yh (Some ex_X3) (Relative [1; 2]%Z) = Ok m2 /\
  run one [] m1 = Ok (o1, tr1) /\ run one [] m2 = Ok (o2, tr2).
Proof.
  destruct scenario_hierarchical as (ob & f & m1 & m2 & o1 & tr1 & o2 & tr2 & HF & OT & SP & P1 & P2 & R1 & R2 & _).
  destruct steps_hierarchical as (ob' & f' & _ & _ & _ & _ & _ & _ & HF' & _ & _ & HM & _). rewrite HF in HF'. injection HF' as <- <-.
  exists ob, f, m1, m2, o1, tr1, o2, tr2. auto 10.
Qed.
