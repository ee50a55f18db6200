(** Properties C42-C45: which columns are selected and expanded. *)
From Coq Require Import String Ascii Bool ZArith List Permutation.
From Verif.Model Require Import Base Regex Frame Expand.
From Verif.Spec Require Import FrameSpec RegexSpec.
From Verif.Facts Require Import BaseFacts RegexFacts ExpandFacts.
Import ListNotations.
Local Open Scope string_scope.

(** * C42.  Full statement: exact(s) selects exactly the column named s; starts_with(ps) exactly
    the columns starting with one of ps; no_input_columns no column with a non-empty name.
    The helpers do not escape their arguments, so the full statement is false; it holds for
    arguments without regex metacharacters (and columns not ending in a newline, which Python's
    dollar anchor ignores). *)
Theorem C42_exact_partial : forall s cols, literal s ->
  (forall c, In c cols -> c <> s ++ String newline EmptyString) ->
  match_columns cols (Some (exact s)) = Ok (filter (String.eqb s) cols).
Proof. exact exact_select. Qed.
Print Assumptions C42_exact_partial.

Theorem C42_starts_with_partial : forall ps cols, ps <> [] -> Forall literal ps ->
  match_columns cols (Some (starts_with ps)) =
  Ok (filter (fun c => existsb (fun p => String.prefix p c) ps) cols).
Proof. exact starts_with_select. Qed.
Print Assumptions C42_starts_with_partial.

Theorem C42_no_input_columns_partial : forall c,
  col_match no_input_columns c = Ok true <-> (c = EmptyString \/ c = String newline EmptyString).
Proof. exact no_input_columns_spec. Qed.
Print Assumptions C42_no_input_columns_partial.

(** The matcher itself agrees with the declarative meaning of patterns (all patterns, all names). *)
Theorem C42_matcher_correct : forall r w,
  re_match r w = true <->
  exists s', Matches (List.length (list_ascii_of_string w)) r (list_ascii_of_string w) s'.
Proof. exact re_match_iff. Qed.
Print Assumptions C42_matcher_correct.

Theorem C42_exact_refuted :
  exists s c, c <> s /\ match_columns [c] (Some (exact s)) = Ok [c].
Proof. exists "a.b", "axb". split; [discriminate | vm_compute; reflexivity]. Qed.
Print Assumptions C42_exact_refuted.

(** a name can even fail to select itself *)
Theorem C42_exact_missing_refuted :
  exists s, match_columns [s] (Some (exact s)) = Ok [].
Proof. exists "sales (net)". vm_compute; reflexivity. Qed.
Print Assumptions C42_exact_missing_refuted.

Theorem C42_starts_with_refuted :
  exists ps c, (forall p, In p ps -> String.prefix p c = false) /\
    match_columns [c] (Some (starts_with ps)) = Ok [c].
Proof. exists ["a.b"], "axbc". split; [intros p [<-|[]]; reflexivity | vm_compute; reflexivity]. Qed.
Print Assumptions C42_starts_with_refuted.

(** no prefix at all selects every column *)
Theorem C42_starts_with_empty_refuted :
  match_columns ["x"; "y"] (Some (starts_with [])) = Ok ["x"; "y"].
Proof. vm_compute; reflexivity. Qed.
Print Assumptions C42_starts_with_empty_refuted.

Example C42_example :
  literal "price_usd" /\ match_columns ["price"; "price_usd"; "price_usd_lag"] (Some (exact "price_usd")) = Ok ["price_usd"]
  /\ match_columns ["tv"; "tv_1"; "radio"; "web"] (Some (starts_with ["tv"; "ra"])) = Ok ["tv"; "tv_1"; "radio"].
Proof.
  split; [|split; vm_compute; reflexivity].
  intros c. unfold metachars. simpl. intuition (subst; discriminate).
Qed.

(** * C43.  Full statement: a column in shared_features is kept as it is and every other column is
    expanded per series.  False because the names of the columns to expand are used as patterns
    that match prefixes; true when no non-shared name is a prefix of a shared one. *)
Theorem C43_shared_features_partial : forall {V} (zero : V) isna order shared (X : frame V),
  (forall l, Permutation (order l) l) -> isna zero = false ->
  frame_wf X -> f_levels X <> 0 -> NoDup (f_cols X) ->
  Forall literal (f_cols X) ->
  (forall c s, In c (f_cols X) -> ~ In c shared -> In s (f_cols X) -> In s shared ->
     String.prefix c s = false) ->
  (forall c i c' i', In c (f_cols X) -> In c' (f_cols X) -> In i (series_ids X) -> In i' (series_ids X) ->
     get_col_name c i = get_col_name c' i' -> c = c' /\ i = i') ->
  (forall c i, In c (f_cols X) -> In i (series_ids X) -> ~ In (get_col_name c i) (f_cols X)) ->
  exists X' e', expand_bottom zero isna order shared X = Ok (X', e') /\
    (forall n, In n (f_cols X') <->
       (In n (f_cols X) /\ In n shared) \/
       (exists c i, In c (f_cols X) /\ ~ In c shared /\ In i (series_ids X) /\ n = get_col_name c i)) /\
    Forall2 (fun r r' => r_path r' = r_path r /\ r_time r' = r_time r /\
       forall c, In c (f_cols X) -> In c shared ->
         value_of (f_cols X') (r_vals r') c = value_of (f_cols X) (r_vals r) c)
      (f_rows X) (f_rows X').
Proof. exact (@expand_bottom_columns). Qed.
Print Assumptions C43_shared_features_partial.

Definition C43_frame : frame (option Z) :=
  mkFrame 1 ["price"; "price_index"]
    [mkRow ["s1"] 0 [Some 1; Some 5]; mkRow ["s1"] 1 [Some 2; None];
     mkRow ["s2"] 0 [Some 3; Some 7]; mkRow ["s2"] 1 [None; Some 8]]%Z.

Definition is_none (v : option Z) : bool := match v with None => true | _ => false end.

Theorem C43_shared_features_refuted :
  exists X' e', expand_bottom (Some 0%Z) is_none (fun l => l) ["price_index"] C43_frame = Ok (X', e')
    /\ ~ In "price_index" (f_cols X').
Proof.
  eexists _, _. split; [vm_compute; reflexivity|]. vm_compute. intuition discriminate.
Qed.
Print Assumptions C43_shared_features_refuted.

(** The hypotheses are met when "price" is the shared column: only "price_index" is expanded. *)
Example C43_example :
  Forall literal (f_cols C43_frame) /\ frame_wf C43_frame /\
  String.prefix "price_index" "price" = false /\
  exists X' e', expand_bottom (Some 0%Z) is_none (fun l => l) ["price"] C43_frame = Ok (X', e')
    /\ f_cols X' = ["price"; "price_index_dup_s1"; "price_index_dup_s2"]
    /\ map r_vals (f_rows X') = [[Some 1; Some 5; Some 0]; [Some 2; Some 0; Some 0];
                                 [Some 3; Some 0; Some 7]; [None; Some 0; Some 8]]%Z.
Proof.
  split; [|split; [|split]].
  - repeat constructor; intros c; unfold metachars; simpl; intuition (subst; discriminate).
  - intros r H. simpl in H. intuition (subst; reflexivity).
  - reflexivity.
  - eexists _, _. split; [vm_compute; reflexivity|]. split; reflexivity.
Qed.

(** * C44.  Full statement: each matched column is replaced by one column per series equal to the
    original on the rows of that series (NaN becomes 0) and 0 elsewhere; other columns and the
    index are unchanged.  Holds whenever the generated names are distinct and new. *)
Theorem C44_expansion_isolates_partial :
  forall {V} (zero : V) (isna : V -> bool), isna zero = false ->
  forall (e : expander) (X : frame V) (ids : list path) (matched : list string),
  ids = series_ids X -> matched = ex_matched e ->
  frame_wf X -> f_levels X <> 0 -> ex_skip e = false ->
  NoDup (f_cols X) -> NoDup matched -> (forall c, In c matched -> In c (f_cols X)) ->
  NoDup (f_cols X ++ map pname (zero_pairs matched ids))%list ->
  exists X' e', expand_transform zero isna e X = Ok (X', e') /\
    f_levels X' = f_levels X /\
    f_cols X' = (filter (fun c => negb (str_in c matched)) (f_cols X)
                 ++ map pname (zero_pairs matched ids))%list /\
    Forall2 (fun r r' =>
       r_path r' = r_path r /\ r_time r' = r_time r /\ List.length (r_vals r') = List.length (f_cols X') /\
       (forall c, ~ In c matched -> In c (f_cols X) ->
          value_of (f_cols X') (r_vals r') c = value_of (f_cols X) (r_vals r) c) /\
       (forall c i, In c matched -> In i ids ->
          value_of (f_cols X') (r_vals r') (get_col_name c i) =
          if path_eqb (r_path r) i
          then option_map (fillna zero isna) (value_of (f_cols X) (r_vals r) c)
          else Some zero))
      (f_rows X) (f_rows X').
Proof. exact (@expand_transform_spec). Qed.
Print Assumptions C44_expansion_isolates_partial.

(** A frame without series levels is returned unchanged. *)
Theorem C44_single_series_unchanged : forall {V} (zero : V) isna order ps (X : frame V) e,
  f_levels X = 0 -> expand_fit order ps X = Ok e -> forall X2, expand_transform zero isna e X2 = Ok (X2, e).
Proof. exact (@expand_single_unchanged). Qed.
Print Assumptions C44_single_series_unchanged.

(** Without distinct names another column of the user is overwritten. *)
Theorem C44_expansion_isolates_refuted :
  exists X' e' (X : frame (option Z)),
    f_cols X = ["a"; "a_dup_s1"] /\
    (e <- expand_fit (fun l => l) ["a$"] X ;; expand_transform (Some 0%Z) is_none e X) = Ok (X', e') /\
    map (fun r => value_of (f_cols X) (r_vals r) "a_dup_s1") (f_rows X) = [Some (Some 9%Z)] /\
    map (fun r => value_of (f_cols X') (r_vals r) "a_dup_s1") (f_rows X') = [Some (Some 1%Z)].
Proof.
  eexists _, _, (mkFrame 1 ["a"; "a_dup_s1"] [mkRow ["s1"] 0 [Some 1; Some 9]]%Z).
  split; [reflexivity|]. split; [vm_compute; reflexivity|]. split; reflexivity.
Qed.
Print Assumptions C44_expansion_isolates_refuted.

Example C44_example :
  exists e, expand_fit (fun l => l) ["price$"] C43_frame = Ok e /\ ex_matched e = ["price"] /\
    series_ids C43_frame = [["s1"]; ["s2"]] /\
    NoDup (f_cols C43_frame ++ map pname (zero_pairs (ex_matched e) (series_ids C43_frame)))%list.
Proof.
  eexists. split; [vm_compute; reflexivity|]. split; [reflexivity|]. split; [reflexivity|].
  vm_compute. repeat constructor; simpl; intuition discriminate.
Qed.

(** * C45.  Full statement: distinct (column, series) pairs get distinct names. *)
Theorem C45_names_injective_partial : forall c1 c2 i1 i2,
  List.length i1 = List.length i2 ->
  Forall (no_char "_"%char) i1 -> Forall (no_char "_"%char) i2 ->
  (List.length i1 <= 1 \/ Forall (no_char "-"%char) i1 /\ Forall (no_char "-"%char) i2) ->
  get_col_name c1 i1 = get_col_name c2 i2 -> c1 = c2 /\ i1 = i2.
Proof. exact get_col_name_inj. Qed.
Print Assumptions C45_names_injective_partial.

Theorem C45_series_refuted :
  exists c i1 i2, i1 <> i2 /\ List.length i1 = List.length i2 /\ get_col_name c i1 = get_col_name c i2.
Proof. exists "x", ["a-b"; "c"], ["a"; "b-c"]. repeat split; discriminate. Qed.
Print Assumptions C45_series_refuted.

Theorem C45_column_refuted :
  exists c1 c2 i1 i2, c1 <> c2 /\ List.length i1 = 1 /\ List.length i2 = 1 /\ get_col_name c1 i1 = get_col_name c2 i2.
Proof. exists "x", "x_dup_a", ["a_dup_b"], ["b"]. repeat split; discriminate. Qed.
Print Assumptions C45_column_refuted.

Example C45_example :
  Forall (no_char "_"%char) ["north"; "shop1"] /\ Forall (no_char "-"%char) ["north"; "shop1"] /\
  get_col_name "a_b-c" ["north"; "shop1"] = "a_b-c_dup_north-shop1".
Proof.
  repeat split; repeat constructor; unfold no_char; simpl; intuition discriminate.
Qed.
