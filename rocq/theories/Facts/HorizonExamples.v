(** Concrete exogenous data that differ outside the horizon. *)
From Coq Require Import Reals String Bool ZArith List.
From Verif.Model Require Import Base Num XFloat Regex Frame Arr Expand Aggregate Scale Predict Prog Likelihood Trend Effect
  TrendProg Engine Forecaster History.
From Verif.Spec Require Import FrameSpec EffectSpec ForecasterSpec HorizonSpec.
From Verif.Facts Require Import FrameFacts EffectExamples ForecasterExamples EngineExamples HistoryExamples AlignExamples HorizonFacts.
Import ListNotations.
Local Open Scope string_scope.

Lemma same_rows_filter times (X X' : frame R) : same_rows_at times X X' -> filter_fh times X = filter_fh times X'.
Proof. intros (L & C & F). unfold filter_fh, filter_rows. now rewrite L, C, F. Qed.

(** one series: the same two days, with a past, a later day, one more column and another order of columns *)
Definition Xf_long : frame R := mkFrame 0 ["radio"; "web"; "tv"]
  [mkRow [] 7 [4; 4; 4]; mkRow [] 8 [5; 10; 1]; mkRow [] 9 [6; 20; 2]; mkRow [] 10 [7; 7; 7]]%R.
Lemma ex_seen : seen (f_cols Xu) (to_absolute 7 (Relative [1; 2]%Z)) Xf = Some [([], 8%Z, [Some 1; Some 10]); ([], 9%Z, [Some 2; Some 20])]%R /\
  seen (f_cols Xu) (to_absolute 7 (Relative [1; 2]%Z)) Xf_long = Some [([], 8%Z, [Some 1; Some 10]); ([], 9%Z, [Some 2; Some 20])]%R.
Proof. split; reflexivity. Qed.
Lemma ex_seen_run : exists ob f, run_fit "mcmc" (Some Xu) = (ob, Ok f).
Proof.
  assert (H : succeeds (run_fit "mcmc" (Some Xu)) = true) by (unfold run_fit, fit_forecaster; cbn [c_scale run_config]; rewrite ex_scale; vm_compute; reflexivity).
  unfold succeeds in H. destruct (run_fit "mcmc" (Some Xu)) as [ob [f|]]; [now exists ob, f|discriminate].
Qed.

(** a panel: other values on a day after the horizon *)
Definition ex_X2_later : frame R := mkFrame 1 ["tv"; "web"]
  [mkRow ["a"] 2 [1; 0]; mkRow ["b"] 2 [0; 0]; mkRow ["b"] 5 [9; 9]]%R.
Lemma ex_later : same_rows_at [2%Z] ex_X2 ex_X2_later /\ series_ids ex_X2 = series_ids ex_X2_later /\ ex_X2 <> ex_X2_later.
Proof. repeat split. intros E. now apply (f_equal (fun X => List.length (f_rows X))) in E. Qed.
