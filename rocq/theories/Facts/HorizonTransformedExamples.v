(** Feature transformers, and exogenous data that differ outside the horizon. *)
From Coq Require Import Reals String Bool ZArith List Lra.
From Verif.Model Require Import Base Num XFloat Regex Frame Arr Expand Aggregate Scale Predict Prog Likelihood Trend Effect TrendProg Engine Forecaster History.
From Verif.Spec Require Import FrameSpec ForecasterSpec AlignSpec HorizonSpec ResponseSpec.
From Verif.Facts Require Import FrameFacts ForecasterInv EffectExamples ForecasterExamples EngineExamples HistoryExamples AlignExamples HorizonExamples ResponseExamples TableTransformedExamples.
Import ListNotations.
Local Open Scope string_scope.

(** * one series *)
Definition tidy (k : bool) (X : frame R) : res (frame R) := select_columns 0%R X ["tv"; "web"].
Definition tidy_fit := fit_forecaster ex_ns sorted_sets keep_all (fun k X => (k, tidy k X)) ex_svi ex_nuts ex_latent (run_config "mcmc") (no_objects (Some true)) ex_y (Some Xu).
Definition Xf_tidy : frame R := mkFrame 0 ["tv"; "web"] [mkRow [] 7 [4; 4]; mkRow [] 8 [1; 10]; mkRow [] 9 [2; 20]; mkRow [] 10 [7; 7]]%R.
Lemma tidy_runs : exists ob f f' out, tidy_fit = (ob, Ok f) /\ max_time (map r_time (f_rows ex_y)) = Ok 7%Z /\ run_transform tidy ob Xf = Ok Xf /\ run_transform tidy ob Xf_long = Ok Xf_tidy /\
  same_rows_at (to_absolute 7 (Relative [1; 2]%Z)) Xf Xf_tidy /\ Xf <> Xf_tidy /\
  forecast_samples ex_ns keep_all tidy ex_guide ex_complete (run_config "mcmc") ob f ex_y (Some Xf_long) (Relative [1; 2]%Z) = (f', Ok out) /\ map r_time (f_rows out) = [8; 9]%Z.
Proof.
  assert (RUN : match tidy_fit with
    | (ob, Ok f) => run_transform tidy ob Xf = Ok Xf /\ run_transform tidy ob Xf_long = Ok Xf_tidy /\
        match forecast_samples ex_ns keep_all tidy ex_guide ex_complete (run_config "mcmc") ob f ex_y (Some Xf_long) (Relative [1; 2]%Z) with (_, Ok out) => map r_time (f_rows out) = [8; 9]%Z | _ => False end
    | _ => False end).
  { unfold tidy_fit, fit_forecaster. cbn [c_scale run_config]. rewrite ex_scale. vm_compute. repeat split. }
  destruct tidy_fit as [ob [f|]]; [|contradiction]. destruct RUN as (R1 & R2 & R3).
  destruct (forecast_samples _ _ _ _ _ _ _ _ _ _ _) as [f' [out|]] eqn:E; [|contradiction]. exists ob, f, f', out.
  do 4 (split; [assumption || reflexivity|]). split; [repeat split|]. split; [discriminate|]. split; [exact E|exact R3].
Qed.

(** * a panel *)
Definition X_other : frame R := mkFrame 1 ["tv"; "web"] [mkRow ["a"] 2 [3; 5]; mkRow ["a"] 3 [9; 6]; mkRow ["a"] 4 [9; 9]; mkRow ["b"] 2 [1; 7]; mkRow ["b"] 3 [2; 8]]%R.
Definition Xp_other : frame R := mkFrame 1 ["web"] [mkRow ["a"] 2 [5]; mkRow ["a"] 3 [6]; mkRow ["a"] 4 [9]; mkRow ["b"] 2 [7]; mkRow ["b"] 3 [8]]%R.
Lemma other_runs : given_training (Some ex_Xh) ex_yh ex_Xh /\ run_fit_transform ex_fit_transform (no_objects (Some false)) ex_Xh = (no_objects (Some false), Ok Xp0) /\ f_cols Xp0 <> [] /\
  with_columns (Some X_pick) X_pick /\ with_columns (Some X_other) X_other /\ (forall t, In t [2; 3]%Z -> (In t (map r_time (f_rows X_pick)) <-> In t (map r_time (f_rows X_other)))) /\
  same_rows_at [2; 3]%Z Xp1 Xp_other /\ series_ids Xp1 = series_ids Xp_other /\ Xp1 <> Xp_other /\
  exists ob f f' out, pick_fit = (ob, Ok f) /\ picked_forecast ob f = (f', Ok out) /\ run_transform ex_transform ob X_pick = Ok Xp1 /\ run_transform ex_transform ob X_other = Ok Xp_other /\
  max_time (map snd (p_index (ft_prepared f))) = Ok 1%Z.
Proof.
  split; [left; eexists; split; [reflexivity|]; split; [discriminate|reflexivity]|]. split; [reflexivity|]. split; [discriminate|].
  do 2 (split; [eexists; split; [reflexivity|]; split; [discriminate|reflexivity]|]).
  split; [intros t [<-|[<-|[]]]; cbn; tauto|]. split; [repeat split|]. split; [reflexivity|]. split; [discriminate|].
  destruct picked_runs as (ob & f & f' & out & u & HF & FO & TR & _ & _ & MT & _). exists ob, f, f', out. do 3 (split; [assumption|]). split; [|exact MT].
  unfold run_transform in *. destruct (o_transformer ob) as [k|]; [|discriminate]. destruct k; [discriminate|reflexivity].
Qed.
