(** C114: patterns matter only through the columns they select. *)
From Coq Require Import Reals String Bool ZArith List Permutation.
From Verif.Model Require Import Base Num XFloat Regex Frame Arr Prog Likelihood Effect TrendProg Aggregate Scale Engine Predict Forecaster.
From Verif.Spec Require Import RegexSpec FrameSpec ForecasterSpec ResponseSpec CopySpec RelistSpec IdleSpec SelectSpec.
From Verif.Facts Require Import EffectExamples ForecasterExamples EngineExamples AlignExamples ComponentExamples CounterExamples ResponseExamples CopyFacts CopyExamples SelectFacts SelectExamples.
Import ListNotations.
Local Open Scope string_scope.

Section Any.
Variable ns_of : Z -> Z.
Variable order : list string -> list string.
Variable keep : path -> bool.
Context {TS P : Type}.
Variable tr_fit_transform : TS -> frame R -> TS * res (frame R).
Variable tr_transform : TS -> frame R -> res (frame R).
Variable svi_run : Z -> nat -> nat -> prog arr -> res (list xr * P).
Variable nuts_run : Z -> nat -> nat -> nat -> prog arr -> res (nat -> nat -> env).
Variable latent_sites : prog arr -> list string.
Variable guide_draw : P -> Z -> nat -> prog arr -> env.
Variable complete_draw : env -> Z -> nat -> prog arr -> env.
Notation fit_forecaster := (fit_forecaster ns_of order keep tr_fit_transform svi_run nuts_run latent_sites).
Notation same_forecasts := (same_forecasts ns_of keep tr_transform guide_draw complete_draw).

(** Both classes, with or without a feature transformer: other patterns that agree on the columns in use give the same
    fitted forecaster, with the same posterior, and the same forecasts with every method. *)
Theorem C114_used : forall c es ob y X ob' (f : fitted (P := P)), fit_forecaster c ob y X = (ob', Ok f) -> Forall2 (same_selection (used f)) (effects_of c) es ->
  fit_forecaster (with_effects c es) ob y X = (ob', Ok f) /\ same_forecasts c (with_effects c es) f f.
Proof. exact (c114_used ns_of order keep tr_fit_transform tr_transform svi_run nuts_run latent_sites guide_draw complete_draw). Qed.

(** the univariate forecaster: the columns are those of X *)
Theorem C114_univariate : forall c es ob y X ob' (f : fitted (P := P)), fit_forecaster c ob y (Some X) = (ob', Ok f) -> c_hier c = false -> o_transformer ob = None ->
  Forall2 (same_selection (fun d => In d (f_cols X))) (effects_of c) es ->
  fit_forecaster (with_effects c es) ob y (Some X) = (ob', Ok f) /\ same_forecasts c (with_effects c es) f f.
Proof. exact (c114_univariate ns_of order keep tr_fit_transform tr_transform svi_run nuts_run latent_sites guide_draw complete_draw). Qed.

(** the hierarchical forecaster: the columns are the shared ones and the copies of the others *)
Theorem C114_hierarchical : (forall l, Permutation (order l) l) -> forall c es ob y X ob' (f : fitted (P := P)), fit_forecaster c ob y (Some X) = (ob', Ok f) -> c_hier c = true -> o_transformer ob = None ->
  frame_wf X -> f_levels X <> 0 -> f_cols X <> [] -> copyable (shared_features c) (f_cols X) (bottom_series X) ->
  Forall2 (same_selection (offered (shared_features c) (f_cols X) (bottom_series X))) (effects_of c) es ->
  fit_forecaster (with_effects c es) ob y (Some X) = (ob', Ok f) /\ same_forecasts c (with_effects c es) f f.
Proof. exact (fun Order => c114_panel ns_of order Order keep tr_fit_transform tr_transform svi_run nuts_run latent_sites guide_draw complete_draw). Qed.

(** Prefixes given to [starts_with]: their order and repetitions do not matter, nor does a prefix that begins with
    another one. *)
Theorem C114_prefixes : forall c l1 l2 n e ps qs ob y X ob' (f : fitted (P := P)), effects_of c = (l1 ++ (n, e, Some (starts_with ps)) :: l2)%list -> fit_forecaster c ob y X = (ob', Ok f) ->
  ps <> [] -> qs <> [] -> Forall literal ps -> Forall literal qs ->
  (forall p, In p ps -> exists q, In q qs /\ starts_with_str q p) -> (forall q, In q qs -> exists p, In p ps /\ starts_with_str p q) ->
  let c' := with_effects c (l1 ++ (n, e, Some (starts_with qs)) :: l2) in
  fit_forecaster c' ob y X = (ob', Ok f) /\ same_forecasts c c' f f.
Proof.
  intros c l1 l2 n e ps qs ob y X ob' f EC H NP NQ LP LQ PQ QP.
  exact (c114_replace ns_of order keep tr_fit_transform tr_transform svi_run nuts_run latent_sites guide_draw complete_draw _ _ _ _ _ _ _ _ _ _ EC H (prefixes_same _ _ _ _ NP NQ LP LQ PQ QP)).
Qed.
End Any.

Print Assumptions C114_used.
Print Assumptions C114_univariate.
Print Assumptions C114_hierarchical.
Print Assumptions C114_prefixes.

(** "t" instead of "tv", for columns tv and web *)
Example C114_nonvacuous : (exists ob f, run_fit "mcmc" (Some Xu) = (ob, Ok f)) /\ Forall2 (same_selection (fun d => In d (f_cols Xu))) (effects_of (run_config "mcmc")) [by_t].
Proof.
  split; [|exact by_t_same]. pose proof ex_run as K. unfold run_samples in K. destruct (run_fit "mcmc" (Some Xu)) as [ob [f|]]; [eauto|contradiction].
Qed.
(** three other patterns in a panel *)
Example C114_nonvacuous_panel : exists ob f, copy_fit = (ob, Ok f) /\ frame_wf ex_Xh /\ f_levels ex_Xh <> 0 /\ copyable (shared_features copy_config) (f_cols ex_Xh) (bottom_series ex_Xh) /\
  map l_regex (effects_of copy_config) = [Some (exact "tv"); Some ".*_b"; Some (starts_with ["t"])] /\ map l_regex other_patterns = [Some "^$"; Some (exact "tv_dup_b"); Some (starts_with ["tv_dup"; "radio"])] /\
  Forall2 (same_selection (offered (shared_features copy_config) (f_cols ex_Xh) (bottom_series ex_Xh))) (effects_of copy_config) other_patterns.
Proof.
  destruct copy_example as (ob & f & H & _). exists ob, f. split; [exact H|]. split; [exact Xh_wf|]. split; [discriminate|]. split; [exact copy_copyable|]. split; [reflexivity|]. split; [reflexivity|exact other_same].
Qed.
(** "tvs" is not needed beside "tv" *)
Example C114_nonvacuous_prefixes : (forall p, In p ["tvs"; "radio"; "tv"] -> exists q, In q ["tv"; "radio"] /\ starts_with_str q p) /\ (forall q, In q ["tv"; "radio"] -> exists p, In p ["tvs"; "radio"; "tv"] /\ starts_with_str p q).
Proof.
  split; [intros p [<-|[<-|[<-|[]]]]|intros q [<-|[<-|[]]]].
  - exists "tv". split; [now left|now exists "s"].
  - exists "radio". split; [right; now left|now exists ""].
  - exists "tv". split; [now left|now exists ""].
  - exists "tv". split; [right; right; now left|now exists ""].
  - exists "radio". split; [right; now left|now exists ""].
Qed.
