(** Property C106.  Full statement: an effect of HierarchicalProphet applies to exactly those columns of X its pattern
    matches — through their copies, one per series, when a column is not shared.
    It fails: patterns are matched against the names of the copies (C106_exact_refuted, C106_labels_refuted).
    Proved for all fits: the columns each effect does receive (C106_columns, C106_default); the statement for shared
    columns (C106_shared); for patterns without "$", one direction (C106_open_partial); for [starts_with], both
    (C106_starts_with_partial). *)
From Coq Require Import Reals String Ascii Bool ZArith List Permutation.
From Verif.Model Require Import Base Num XFloat Regex Frame Arr Prog Likelihood Effect TrendProg Engine Forecaster.
From Verif.Spec Require Import RegexSpec PatternSpec FrameSpec ProgSpec ForecasterSpec ResponseSpec CopySpec.
From Verif.Facts Require Import EffectExamples ForecasterExamples EngineExamples ResponseExamples CopyFacts CopyExamples.
Import ListNotations.
Local Open Scope string_scope.

Section Any.
Variable ns_of : Z -> Z.
Variable order : list string -> list string.
Variable keep : path -> bool.
Context {TS P : Type}.
Variable tr_fit_transform : TS -> frame R -> TS * res (frame R).
Variable svi_run : Z -> nat -> nat -> prog arr -> res (list xr * P).
Variable nuts_run : Z -> nat -> nat -> nat -> prog arr -> res (nat -> nat -> env).
Variable latent_sites : prog arr -> list string.
Notation fit_forecaster := (fit_forecaster ns_of order keep tr_fit_transform svi_run nuts_run latent_sites).

(** the columns of the effect listed [k]-th *)
Theorem C106_columns : (forall l, Permutation (order l) l) -> forall c ob y X ob' (f : fitted (P := P)),
  fit_forecaster c ob y (Some X) = (ob', Ok f) -> c_hier c = true -> o_transformer ob = None ->
  frame_wf X -> f_levels X <> 0 -> f_cols X <> [] -> copyable (shared_features c) (f_cols X) (bottom_series X) ->
  forall k l, nth_error (effects_of c) k = Some l -> exists g, nth_error (p_fitted (ft_prepared f)) k = Some g /\ fe_name g = l_name l /\
    forall d, In d (fe_cols g) <-> offered (shared_features c) (f_cols X) (bottom_series X) d /\ matched (l_regex l) d.
Proof. intros Order. exact (c106_columns ns_of order Order keep tr_fit_transform svi_run nuts_run latent_sites). Qed.

(** the columns of the default effect, which comes last *)
Theorem C106_default : (forall l, Permutation (order l) l) -> forall c ob y X ob' (f : fitted (P := P)),
  fit_forecaster c ob y (Some X) = (ob', Ok f) -> c_hier c = true -> o_transformer ob = None ->
  frame_wf X -> f_levels X <> 0 -> f_cols X <> [] -> copyable (shared_features c) (f_cols X) (bottom_series X) ->
  forall d, (exists g, nth_error (p_fitted (ft_prepared f)) (List.length (effects_of c)) = Some g /\ fe_name g = "exogenous_variables_effect" /\ In d (fe_cols g)) <->
    offered (shared_features c) (f_cols X) (bottom_series X) d /\ forall l, In l (effects_of c) -> ~ matched (l_regex l) d.
Proof. intros Order. exact (c106_default ns_of order Order keep tr_fit_transform svi_run nuts_run latent_sites). Qed.

(** shared columns are selected by their own names *)
Theorem C106_shared : (forall l, Permutation (order l) l) -> forall c ob y X ob' (f : fitted (P := P)),
  fit_forecaster c ob y (Some X) = (ob', Ok f) -> c_hier c = true -> o_transformer ob = None ->
  frame_wf X -> f_levels X <> 0 -> f_cols X <> [] -> copyable (shared_features c) (f_cols X) (bottom_series X) ->
  forall k l g col, nth_error (effects_of c) k = Some l -> nth_error (p_fitted (ft_prepared f)) k = Some g -> In col (f_cols X) -> In col (shared_features c) ->
  In col (fe_cols g) <-> matched (l_regex l) col.
Proof. intros Order. exact (c106_shared ns_of order Order keep tr_fit_transform svi_run nuts_run latent_sites). Qed.

(** a pattern that does not look for the end of a name and matches a column selects all its copies *)
Theorem C106_open_partial : (forall l, Permutation (order l) l) -> forall c ob y X ob' (f : fitted (P := P)),
  fit_forecaster c ob y (Some X) = (ob', Ok f) -> c_hier c = true -> o_transformer ob = None ->
  frame_wf X -> f_levels X <> 0 -> f_cols X <> [] -> copyable (shared_features c) (f_cols X) (bottom_series X) ->
  forall k l p r g, nth_error (effects_of c) k = Some l -> l_regex l = Some p -> Pattern p r -> open_ended r -> nth_error (p_fitted (ft_prepared f)) k = Some g ->
  forall col, In col (f_cols X) -> ~ In col (shared_features c) -> matched (Some p) col -> forall q, In q (bottom_series X) -> In (copy_name col q) (fe_cols g).
Proof. intros Order. exact (c106_open ns_of order Order keep tr_fit_transform svi_run nuts_run latent_sites). Qed.

(** [starts_with] selects the copies of exactly the columns it matches, unless a prefix reaches into the suffix "_dup_…" *)
Theorem C106_starts_with_partial : (forall l, Permutation (order l) l) -> forall c ob y X ob' (f : fitted (P := P)),
  fit_forecaster c ob y (Some X) = (ob', Ok f) -> c_hier c = true -> o_transformer ob = None ->
  frame_wf X -> f_levels X <> 0 -> f_cols X <> [] -> copyable (shared_features c) (f_cols X) (bottom_series X) ->
  forall k l ps g, nth_error (effects_of c) k = Some l -> l_regex l = Some (starts_with ps) -> ps <> [] -> Forall literal ps -> nth_error (p_fitted (ft_prepared f)) k = Some g ->
  forall col q, In col (f_cols X) -> ~ In col (shared_features c) -> In q (bottom_series X) -> (forall p, In p ps -> ~ starts_with_str (col ++ "_") p) ->
  In (copy_name col q) (fe_cols g) <-> exists p, In p ps /\ starts_with_str p col.
Proof. intros Order. exact (c106_starts_with ns_of order Order keep tr_fit_transform svi_run nuts_run latent_sites). Qed.

(** [exact(col)] matches the column, but its effect receives no copy of it; what nothing else matches goes to the default effect *)
Theorem C106_exact_refuted : (forall l, Permutation (order l) l) -> forall c ob y X ob' (f : fitted (P := P)),
  fit_forecaster c ob y (Some X) = (ob', Ok f) -> c_hier c = true -> o_transformer ob = None ->
  frame_wf X -> f_levels X <> 0 -> f_cols X <> [] -> copyable (shared_features c) (f_cols X) (bottom_series X) ->
  forall k l g col, nth_error (effects_of c) k = Some l -> l_regex l = Some (exact col) -> nth_error (p_fitted (ft_prepared f)) k = Some g -> In col (f_cols X) -> ~ In col (shared_features c) ->
  matched (l_regex l) col /\ forall q, In q (bottom_series X) -> ~ In (copy_name col q) (fe_cols g) /\
    ((forall l', In l' (effects_of c) -> matched (l_regex l') (copy_name col q) -> False) ->
     exists g', nth_error (p_fitted (ft_prepared f)) (List.length (effects_of c)) = Some g' /\ fe_name g' = "exogenous_variables_effect" /\ In (copy_name col q) (fe_cols g')).
Proof. intros Order. exact (c106_exact ns_of order Order keep tr_fit_transform svi_run nuts_run latent_sites). Qed.
End Any.

(** a pattern matching no column of X selects the copy for one series and not the copy for the other *)
Theorem C106_labels_refuted : exists ob f g, copy_fit = (ob, Ok f) /\ nth_error (p_fitted (ft_prepared f)) 1 = Some g /\ ~ matched (Some ".*_b") "tv" /\
  fe_cols g = [copy_name "tv" ["b"]] /\ bottom_series ex_Xh = [["a"]; ["b"]].
Proof. exact c106_labels. Qed.

Print Assumptions C106_columns.
Print Assumptions C106_default.
Print Assumptions C106_shared.
Print Assumptions C106_open_partial.
Print Assumptions C106_starts_with_partial.
Print Assumptions C106_exact_refuted.
Print Assumptions C106_labels_refuted.

(** effects exact("tv"), ".*_b" and starts_with("t"), column web shared *)
Example C106_nonvacuous : exists ob f, copy_fit = (ob, Ok f) /\ c_hier copy_config = true /\ frame_wf ex_Xh /\ f_levels ex_Xh <> 0 /\
  copyable (shared_features copy_config) (f_cols ex_Xh) (bottom_series ex_Xh) /\
  map (fun g => (fe_name g, fe_cols g)) (p_fitted (ft_prepared f)) =
    [("exact", []); ("ends", ["tv_dup_b"]); ("begins", ["tv_dup_a"; "tv_dup_b"]); ("exogenous_variables_effect", ["web"])] /\
  map fst (p_effects (ft_prepared f)) = ["ends"; "begins"; "exogenous_variables_effect"].
Proof.
  destruct copy_example as (ob & f & H & T & E). exists ob, f. split; [exact H|]. split; [reflexivity|]. split; [exact Xh_wf|]. split; [discriminate|]. split; [exact copy_copyable|]. split; [exact T|exact E].
Qed.
Example C106_open_nonvacuous : exists r, Pattern (starts_with ["t"]) r /\ open_ended r.
Proof. exact begins_open. Qed.
