(** Property C108.  Full statement: leaving columns to the default effect is the same as listing it last, under the name
    exogenous_variables_effect, with a pattern that matches exactly these columns: fits succeed or fail alike and give the
    same model and forecasts.
    It fails when the columns of X are not in alphabetical order (C108_order_refuted): the default effect receives its
    columns sorted, so coefficients drawn in the same order belong to other columns.
    Proved for alphabetical columns (C108_fit_partial, C108_effects_partial). *)
From Coq Require Import Reals String Ascii Bool ZArith List Permutation Sorting.Sorted.
From Verif.Model Require Import Base Num XFloat Regex Frame Arr Prog Likelihood Effect TrendProg Engine Forecaster.
From Verif.Spec Require Import ProgSpec ForecasterSpec RelistSpec DefaultSpec.
From Verif.Facts Require Import EffectExamples ForecasterExamples EngineExamples CopyFacts DefaultFacts DefaultExamples.
Import ListNotations.
Local Open Scope string_scope.

(** all that is fitted, including the error if it fails; [default'] is then without use *)
Theorem C108_effects_partial : forall order default default' effects (X : frame R) s p, alphabetical (f_cols X) -> remaining p effects (f_cols X) ->
  fit_effects order default' (effects ++ [("exogenous_variables_effect", default_of default, Some p)])%list (Some X) s =
  fit_effects order default effects (Some X) s.
Proof. exact default_listed. Qed.

Section Any.
Variable ns_of : Z -> Z.
Variable order : list string -> list string.
Variable keep : path -> bool.
Context {TS P : Type}.
Variable tr_fit_transform : TS -> frame R -> TS * res (frame R).
Variable tr_transform : TS -> frame R -> res (frame R).
Variable svi_run : Z -> nat -> nat -> prog arr -> res (list xr * P).
Variable nuts_run : Z -> nat -> nat -> nat -> prog arr -> res (nat -> nat -> env).
Variable latent_sites : prog arr -> list string.
Notation fit_forecaster := (fit_forecaster ns_of order keep tr_fit_transform svi_run nuts_run latent_sites).
Notation predict_model := (predict_model ns_of keep tr_transform).

Theorem C108_fit_partial : forall c p ob y X, c_hier c = false -> o_transformer ob = None ->
  alphabetical (f_cols X) -> remaining p (effects_of c) (f_cols X) ->
  fit_forecaster (listed_default c p) ob y (Some X) = fit_forecaster c ob y (Some X).
Proof. exact (c108_fit ns_of order keep tr_fit_transform svi_run nuts_run latent_sites). Qed.

(** forecasts of the same fit, without conditions *)
Theorem C108_predict : forall c p ob (f : fitted (P := P)) y X fh, predict_model (listed_default c p) ob f y X fh = predict_model c ob f y X fh.
Proof. exact (c108_predict ns_of keep tr_transform). Qed.
End Any.

(** columns web and tv, in this order, with coefficients 0 and 1: the default effect is web at every date, the listed one tv *)
Theorem C108_order_refuted : remaining ".*" [] (f_cols Xw) /\ listed_default (flat_config false []) ".*" = flat_config false [("exogenous_variables_effect", default_linear, Some ".*")] /\
  value_of by_position (program (fit_ex [] None (Some Xw))) "exogenous_variables_effect" 0 = Some 10%R /\
  value_of by_position (program (fit_ex [("exogenous_variables_effect", default_linear, Some ".*")] None (Some Xw))) "exogenous_variables_effect" 0 = Some 1%R.
Proof.
  split; [|split; [reflexivity|split; compute_real]]. split.
  - intros c [<-|[<-|[]]]; (split; [intros _ l []|intros _; apply matched_col; vm_compute; reflexivity]).
  - exists "web". split; [now left|]. apply matched_col. vm_compute. reflexivity.
Qed.

Print Assumptions C108_effects_partial.
Print Assumptions C108_fit_partial.
Print Assumptions C108_predict.
Print Assumptions C108_order_refuted.

(** an effect for tv, and web left to the default effect *)
Example C108_nonvacuous : alphabetical (f_cols Xu) /\ remaining "web" [linear_tv] (f_cols Xu) /\ succeeds (fit_ex [linear_tv] None (Some Xu)) = true /\
  listed_default (flat_config false [linear_tv]) "web" = flat_config false [linear_tv; ("exogenous_variables_effect", default_linear, Some "web")] /\
  succeeds (fit_ex [linear_tv; ("exogenous_variables_effect", default_linear, Some "web")] None (Some Xu)) = true.
Proof.
  assert (A : matched (Some "web") "web") by (apply matched_col; vm_compute; reflexivity).
  split; [|split; [|split; [vm_compute; reflexivity|split; [reflexivity|vm_compute; reflexivity]]]].
  - repeat constructor; discriminate.
  - split; [|exists "web"; split; [right; now left|exact A]]. intros c [<-|[<-|[]]]; split.
    + intros M. apply matched_col in M. vm_compute in M. discriminate.
    + intros N. elim (N linear_tv); [now left|]. apply matched_col. vm_compute. reflexivity.
    + intros _ l [<-|[]] M. apply matched_col in M. vm_compute in M. discriminate.
    + intros _. exact A.
Qed.
