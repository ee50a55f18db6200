(** Property C107.  Fitting the effects warns, in the order in which they are listed, once for every effect whose
    pattern matches a column which an effect listed before it matches, naming those columns, and once for every effect
    whose pattern matches no column; there are no other warnings, and warnings do not change what is fitted. *)
From Coq Require Import Reals String Ascii Bool ZArith List Permutation.
From Verif.Model Require Import Base Num XFloat Regex Frame Arr Prog Likelihood Effect TrendProg Engine Forecaster Warn.
From Verif.Spec Require Import RegexSpec FrameSpec ProgSpec ForecasterSpec ResponseSpec CopySpec WarnSpec.
From Verif.Facts Require Import EffectExamples ForecasterExamples EngineExamples ResponseExamples CopyExamples WarnFacts WarnExamples.
Import ListNotations.
Local Open Scope string_scope.

Section Effects.
Variable order : list string -> list string.
Notation fit_effects_warn := (fit_effects_warn order).

(** the function without warnings computes the same *)
Theorem C107_same : forall default effects X s, snd (fit_effects_warn default effects X s) = fit_effects order default effects X s.
Proof. exact (warn_result order). Qed.

(** the warnings of a fit that succeeds *)
Theorem C107_order : forall default effects (X : frame R) s ws fitted,
  fit_effects_warn default effects (Some X) s = (ws, Ok fitted) -> warns_in_order X effects ws.
Proof. exact (warn_order order). Qed.

(** of a fit that fails: those of the effects before the one that fails, or of all when it is the default effect *)
Theorem C107_failed : forall default effects (X : frame R) s ws e, fit_effects_warn default effects (Some X) s = (ws, Err e) ->
  exists n, warns_in_order X (firstn n effects) ws /\
    (n = List.length effects \/ exists l, nth_error effects n = Some l /\ fit_one order (Some X) s l = Err e).
Proof. exact (warn_failed order). Qed.

(** no warning exactly if every pattern matches a column and no two match the same *)
Theorem C107_silent : forall default effects (X : frame R) s ws fitted, fit_effects_warn default effects (Some X) s = (ws, Ok fitted) ->
  ws = [] <-> (forall l, In l effects -> exists c, In c (f_cols X) /\ matched (l_regex l) c) /\
    (forall j k l l' c, nth_error effects j = Some l -> nth_error effects k = Some l' ->
       In c (f_cols X) -> matched (l_regex l) c -> matched (l_regex l') c -> j = k).
Proof. exact (warn_silent order). Qed.

(** effects which need no columns, such as seasonalities, are listed with pattern None or no_input_columns: their
    warning cannot be avoided *)
Theorem C107_without_columns : forall default effects (X : frame R) s ws fitted n e rx,
  fit_effects_warn default effects (Some X) s = (ws, Ok fitted) -> In (n, e, rx) effects ->
  rx = None \/ rx = Some no_input_columns /\ ~ In "" (f_cols X) /\ ~ In (String newline "") (f_cols X) -> In (NoMatch rx) ws.
Proof. exact (warn_without order). Qed.
End Effects.

Section Any.
Variable ns_of : Z -> Z.
Variable order : list string -> list string.
Variable keep : path -> bool.
Context {TS P : Type}.
Variable tr_fit_transform : TS -> frame R -> TS * res (frame R).
Variable svi_run : Z -> nat -> nat -> prog arr -> res (list xr * P).
Variable nuts_run : Z -> nat -> nat -> nat -> prog arr -> res (nat -> nat -> env).
Variable latent_sites : prog arr -> list string.
Notation fit_forecaster := (fit_forecaster ns_of order keep tr_fit_transform svi_run nuts_run latent_sites).

(** Prophetverse: the columns are those of X *)
Theorem C107_univariate : forall c ob y X ob' (f : fitted (P := P)),
  fit_forecaster c ob y X = (ob', Ok f) -> c_hier c = false -> o_transformer ob = None ->
  exists Xe ws, f_cols Xe = match X with None => [] | Some X => f_cols X end /\
    fit_effects_warn order (c_default c) (effects_of c) (Some Xe) (scale_number (ft_scale f)) = (ws, Ok (p_fitted (ft_prepared f))).
Proof. exact (c107_univariate ns_of order keep tr_fit_transform svi_run nuts_run latent_sites). Qed.

(** HierarchicalProphet: they are the shared columns and the copies of the others *)
Theorem C107_hierarchical : (forall l, Permutation (order l) l) -> forall c ob y X ob' (f : fitted (P := P)),
  fit_forecaster c ob y (Some X) = (ob', Ok f) -> c_hier c = true -> o_transformer ob = None ->
  frame_wf X -> f_levels X <> 0 -> f_cols X <> [] -> copyable (shared_features c) (f_cols X) (bottom_series X) ->
  exists Xe ws, (forall d, In d (f_cols Xe) <-> offered (shared_features c) (f_cols X) (bottom_series X) d) /\
    fit_effects_warn order (c_default c) (effects_of c) (Some Xe) (scale_number (ft_scale f)) = (ws, Ok (p_fitted (ft_prepared f))).
Proof. intros Order. exact (c107_hierarchical ns_of order Order keep tr_fit_transform svi_run nuts_run latent_sites). Qed.

(** so an effect with pattern [exact(col)], where [col] is not shared, is reported to match nothing *)
Theorem C107_exact : (forall l, Permutation (order l) l) -> forall c ob y X ob' (f : fitted (P := P)),
  fit_forecaster c ob y (Some X) = (ob', Ok f) -> c_hier c = true -> o_transformer ob = None ->
  frame_wf X -> f_levels X <> 0 -> f_cols X <> [] -> copyable (shared_features c) (f_cols X) (bottom_series X) ->
  forall l col, In l (effects_of c) -> l_regex l = Some (exact col) -> In col (f_cols X) -> ~ In col (shared_features c) ->
  (forall d q, In d (f_cols X) -> In q (bottom_series X) -> copy_name d q <> col /\ copy_name d q <> col ++ String newline "") ->
  ~ In (col ++ String newline "") (f_cols X) ->
  exists Xe ws, (forall d, In d (f_cols Xe) <-> offered (shared_features c) (f_cols X) (bottom_series X) d) /\
    fit_effects_warn order (c_default c) (effects_of c) (Some Xe) (scale_number (ft_scale f)) = (ws, Ok (p_fitted (ft_prepared f))) /\
    In (NoMatch (Some (exact col))) ws.
Proof. intros Order. exact (c107_exact ns_of order Order keep tr_fit_transform svi_run nuts_run latent_sites). Qed.
End Any.

Print Assumptions C107_same.
Print Assumptions C107_order.
Print Assumptions C107_failed.
Print Assumptions C107_silent.
Print Assumptions C107_without_columns.
Print Assumptions C107_univariate.
Print Assumptions C107_hierarchical.
Print Assumptions C107_exact.

(** effects exact("tv"), ".*_b" and starts_with("t") on the columns web, tv_dup_a, tv_dup_b *)
Example C107_nonvacuous : exists fitted, fit_effects_warn sorted_sets None (effects_of copy_config) (Some warn_frame) 1 =
  ([NoMatch (Some (exact "tv")); AlreadySet ["tv_dup_b"]], Ok fitted).
Proof. exact warned_ok. Qed.
Example C107_failed_nonvacuous : exists e, fit_effects_warn sorted_sets None broken (Some warn_frame) 1 = ([NoMatch (Some (exact "tv"))], Err e).
Proof. exact warned_broken. Qed.
Example C107_silent_nonvacuous : exists fitted, fit_effects_warn sorted_sets None [linear "begins" (starts_with ["tv"])] (Some warn_frame) 1 = ([], Ok fitted).
Proof. exact warned_silent. Qed.
Example C107_exact_nonvacuous : exists ob f, copy_fit = (ob, Ok f) /\ c_hier copy_config = true /\ frame_wf ex_Xh /\ f_levels ex_Xh <> 0 /\
  copyable (shared_features copy_config) (f_cols ex_Xh) (bottom_series ex_Xh) /\
  In (linear "exact" (exact "tv")) (effects_of copy_config) /\ In "tv" (f_cols ex_Xh) /\ ~ In "tv" (shared_features copy_config) /\
  (forall d q, In d (f_cols ex_Xh) -> In q (bottom_series ex_Xh) -> copy_name d q <> "tv" /\ copy_name d q <> "tv" ++ String newline "") /\
  ~ In ("tv" ++ String newline "") (f_cols ex_Xh).
Proof.
  destruct copy_example as (ob & f & H & _). exists ob, f. split; [exact H|]. split; [reflexivity|]. split; [exact Xh_wf|]. split; [discriminate|]. split; [exact copy_copyable|].
  split; [now left|]. split; [now left|]. split; [intros [E|[]]; discriminate|]. split.
  - intros d q [<-|[<-|[]]] _; unfold copy_name; split; discriminate.
  - intros [E|[E|[]]]; discriminate.
Qed.
