(** Property C37, for forecasters.  Listing the effects of a forecaster in another order changes neither whether it can
    be fitted, nor its model, nor its forecasts: for all values of the latent sites, the programs return the same and
    record the same sites. *)
From Coq Require Import Reals String Ascii Bool ZArith List Permutation.
From Verif.Model Require Import Base Num XFloat Regex Frame Arr Prog Likelihood Effect TrendProg Engine Forecaster.
From Verif.Spec Require Import ProgSpec ForecasterSpec RelistSpec.
From Verif.Facts Require Import EffectExamples ForecasterExamples EngineExamples RelistFacts.
Import ListNotations.
Local Open Scope string_scope.

Section Any.
Variable ns_of : Z -> Z.
Variable order : list string -> list string.
Variable keep : path -> bool.
Context {TS P : Type}.
Variable tr_fit_transform : TS -> frame R -> TS * res (frame R).
Variable tr_transform : TS -> frame R -> res (frame R).
Variable svi_run : Z -> nat -> nat -> prog arr -> res (list xr * P).
Variable nuts_run : Z -> nat -> nat -> nat -> prog arr -> res (nat -> nat -> env).
Variable latent_sites : prog arr -> list string.
Notation fit_data := (fit_data ns_of order keep tr_fit_transform).
Notation fit_forecaster := (fit_forecaster ns_of order keep tr_fit_transform svi_run nuts_run latent_sites).
Notation predict_model := (predict_model ns_of keep tr_transform).

(** the model that is fitted *)
Theorem C37_fit : forall c effects ob s y X ob' p m, Permutation (effects_of c) effects -> NoDup (map l_name effects) ->
  (forall l, In l effects -> no_slash (l_name l) = true /\ l_name l <> "trend" /\ l_name l <> "exogenous_variables_effect") ->
  fit_data c ob s y X = (ob', Ok (p, m)) ->
  exists p' m', fit_data (with_effects c effects) ob s y X = (ob', Ok (p', m')) /\ same_runs m m' /\ same_runs m' m.
Proof. exact (c37_fit_both ns_of order keep tr_fit_transform). Qed.

(** the model that forecasts *)
Theorem C37_predict : forall c effects ob y X ob1 ob2 (f f' : fitted (P := P)), Permutation (effects_of c) effects -> NoDup (map l_name effects) ->
  (forall l, In l effects -> no_slash (l_name l) = true /\ l_name l <> "trend" /\ l_name l <> "exogenous_variables_effect") ->
  fit_forecaster c ob y X = (ob1, Ok f) -> fit_forecaster (with_effects c effects) ob y X = (ob2, Ok f') ->
  ob2 = ob1 /\ ft_scale f' = ft_scale f /\
  forall ob3 y3 X3 fh m, predict_model c ob3 f y3 X3 fh = Ok m ->
    exists m', predict_model (with_effects c effects) ob3 f' y3 X3 fh = Ok m' /\ same_runs m m' /\ same_runs m' m.
Proof. exact (c37_predict_both ns_of order keep tr_fit_transform tr_transform svi_run nuts_run latent_sites). Qed.
End Any.
Print Assumptions C37_fit.
Print Assumptions C37_predict.

(** two linear effects, listed in both orders *)
Example C37_fit_nonvacuous : succeeds (fit_ex (twice "a" "b") None (Some Xu)) = true /\
  with_effects (flat_config false (twice "a" "b")) (rev (twice "a" "b")) = flat_config false (rev (twice "a" "b")) /\
  succeeds (fit_ex (rev (twice "a" "b")) None (Some Xu)) = true /\ NoDup (map l_name (rev (twice "a" "b"))) /\
  (forall l, In l (rev (twice "a" "b")) -> no_slash (l_name l) = true /\ l_name l <> "trend" /\ l_name l <> "exogenous_variables_effect") /\
  sites_of (fun _ _ => 1%R) (program (fit_ex (twice "a" "b") None (Some Xu))) =
    ["trend_flat_coefficient"; "trend"; "a/features_plate"; "a/coefs"; "a"; "b/features_plate"; "b/coefs"; "b"; "noise_scale"; "data"; "obs"] /\
  sites_of (fun _ _ => 1%R) (program (fit_ex (rev (twice "a" "b")) None (Some Xu))) =
    ["trend_flat_coefficient"; "trend"; "b/features_plate"; "b/coefs"; "b"; "a/features_plate"; "a/coefs"; "a"; "noise_scale"; "data"; "obs"].
Proof.
  split; [vm_compute; reflexivity|]. split; [reflexivity|]. split; [vm_compute; reflexivity|]. split; [|split; [|split; vm_compute; reflexivity]].
  - repeat constructor; cbn; intuition discriminate.
  - intros l [<-|[<-|[]]]; repeat split; discriminate.
Qed.
(** effects with the same name: the order decides which one remains *)
Example C37_names_needed :
  value_of (fun _ _ => 1%R) (program (fit_ex (twice "a" "a") None (Some Xu))) "a" 0 <>
  value_of (fun _ _ => 1%R) (program (fit_ex (rev (twice "a" "a")) None (Some Xu))) "a" 0.
Proof.
  assert (A : value_of (fun _ _ => 1%R) (program (fit_ex (twice "a" "a") None (Some Xu))) "a" 0 = Some 10%R) by compute_real.
  assert (B : value_of (fun _ _ => 1%R) (program (fit_ex (rev (twice "a" "a")) None (Some Xu))) "a" 0 = Some 1%R) by compute_real.
  rewrite A, B. intros [= E]. revert E. apply Rgt_not_eq. now apply IZR_lt.
Qed.
