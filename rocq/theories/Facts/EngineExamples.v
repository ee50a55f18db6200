(** A complete run: fit and forecast with a sampler. *)
From Coq Require Import Reals String Bool ZArith List Lra.
From Verif.Model Require Import Base Num XFloat Regex Frame Arr Expand Aggregate Scale Predict Prog Likelihood Trend Effect
  TrendProg Engine Forecaster.
From Verif.Spec Require Import FrameSpec ForecasterSpec.
From Verif.Facts Require Import NumFacts EffectExamples ForecasterExamples.
Import ListNotations.
Local Open Scope string_scope.

Definition run_config (method : string) : config :=
  mkConfig false (TrendName "flat") 25 (4 / 5) (1 / 1000) (1 / 10) (1 / 5) (11 / 10) (Some [linear_tv]) None (1 / 20) "normal" (Some (SFloat 2)) None 1
    method None 10 0 3 5 2.
Definition ex_svi (k : Z) (o n : nat) (m : prog arr) : res (list xr * unit) := Ok ([XF 1], tt).
Definition ex_nuts (k : Z) (w n c : nat) (m : prog arr) : res (nat -> nat -> env) := Ok (fun _ _ _ _ => 1%R).
Definition ex_latent (m : prog arr) : list string := ["noise_scale"; "tv/coefs"; "exogenous_variables_effect/coefs"].
Definition ex_guide (u : unit) (k : Z) (i : nat) (m : prog arr) : env := fun _ _ => INR i.
Definition ex_complete (e : env) (k : Z) (i : nat) (m : prog arr) : env := fun n j => if String.eqb n "obs" then INR i else e n j.

Definition run_fit (method : string) (X : option (frame R)) :=
  fit_forecaster ex_ns sorted_sets keep_all ex_fit_transform ex_svi ex_nuts ex_latent (run_config method) (no_objects None) ex_y X.
Definition run_samples (method : string) (X X' : option (frame R)) (fh : horizon) : res (frame R) :=
  match run_fit method X with
  | (ob, Ok f) => snd (forecast_samples ex_ns keep_all ex_transform ex_guide ex_complete (run_config method) ob f ex_y X' fh)
  | (_, Err e) => Err e
  end.

Lemma ex_scale : set_y_scales (Some (SFloat 2)) ex_y = Ok (SFloat 2).
Proof. unfold set_y_scales. cbn [bind]. assert (Reqb 2 0 = false) as ->; [|reflexivity]. unfold Reqb. destruct (Req_EM_T 2 0); [lra|reflexivity]. Qed.

Definition Xf : frame R := mkFrame 0 ["tv"; "web"] [mkRow [] 8 [1; 10]; mkRow [] 9 [2; 20]]%R.

(** six samples (three from each of two chains) at the two steps after the end of the data *)
Lemma ex_run : match run_samples "mcmc" (Some Xu) (Some Xf) (Relative [1; 2]%Z) with
  | Ok out => f_cols out = ["0"; "1"; "2"; "3"; "4"; "5"] /\ map r_time (f_rows out) = [8; 9]%Z
  | Err _ => False end.
Proof.
  unfold run_samples, run_fit, fit_forecaster. cbn [c_scale run_config]. rewrite ex_scale. vm_compute. split; reflexivity.
Qed.
