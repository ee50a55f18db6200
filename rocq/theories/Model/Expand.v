(** Per-series expansion of exogenous columns: src/prophetverse/sktime/_expand_column_per_level.py *)
From Coq Require Import String Bool ZArith List.
From Verif.Model Require Import Base Regex Frame.
Import ListNotations.
Local Open Scope string_scope.

(** _expand_column_per_level.py:83-100 [get_col_name] (also the local function at 131-132) *)
Definition get_col_name (column : string) (identifier : path) : string :=
  column ++ "_dup_" ++ String.concat "-" identifier.

(** Fitted transformer: [skip_transform_], [matched_columns_], [series_identifiers_],
    [new_columns_]. *)
Record expander := mkExpander {
  ex_skip : bool;
  ex_matched : list string;
  ex_ids : list path;
  ex_new : dict string
}.

Section Expand.
Context {V : Type}.
Variable zero : V.          (* np.float64(0) *)
Variable isna : V -> bool.  (* NaN test of fillna *)
(** [matched_columns_] is a Python set of strings: its iteration order depends on the hash seed of
    the process.  [order] is that (arbitrary) order. *)
Variable order : list string -> list string.

Definition fillna (v : V) : V := if isna v then zero else v.

(** Assignment [X[name] = values]: an existing column is overwritten in place, otherwise the
    column is appended. [g r i] computes the new value from the row and its old values. *)
Definition set_nth (i : nat) (v : V) (l : list V) : list V :=
  firstn i l ++ match skipn i l with [] => [] | _ :: tl => v :: tl end.

Definition set_col (f : frame V) (name : string) (g : row V -> V) : frame V :=
  match col_pos (f_cols f) name with
  | Some i => mkFrame (f_levels f) (f_cols f)
                (map (fun r => mkRow (r_path r) (r_time r) (set_nth i (g r) (r_vals r))) (f_rows f))
  | None => mkFrame (f_levels f) (f_cols f ++ [name])
              (map (fun r => mkRow (r_path r) (r_time r) (r_vals r ++ [g r])) (f_rows f))
  end.

(** value of an existing column in a row *)
Definition get_val (i : nat) (r : row V) : V := nth i (r_vals r) zero.

(** _expand_column_per_level.py:41-81 [fit] *)
Definition expand_fit (columns_regex : list string) (X : frame V) : res expander :=
  patterns <- mapM (fun p => match compile p with Some r => Ok r | None => Err ValueError end)
                   columns_regex ;;
  let matched :=
    order (filter (fun c => existsb (fun r => re_match r c) patterns) (strs_unique (f_cols X))) in
  match f_levels X with
  | 0 => Ok (mkExpander true matched [] (dict_of_list (map (fun c => (c, c)) matched)))
  | _ =>
      let ids := series_ids X in
      Ok (mkExpander false matched ids
            (dict_of_list (flat_map (fun i => map (fun c => (get_col_name c i, c)) matched) ids)))
  end.

(** 134-136: new columns filled with zeros *)
Definition add_zero_columns (matched : list string) (ids : list path) (X : frame V) : frame V :=
  fold_left (fun X m => fold_left (fun X i => set_col X (get_col_name m i) (fun _ => zero)) ids X)
            matched X.

(** 142-149: copy the rows of one series of one column, then fillna(0) on the whole new column.
    [Xo] is [X_original]; the rows of [X] and [Xo] correspond by position, so the source value is
    taken from the row zipped with it. *)
Definition copy_column (Xo : frame V) (X : frame V) (c : string) (i : path) : res (frame V) :=
  match col_pos (f_cols Xo) c, col_pos (f_cols X) (get_col_name c i) with
  | Some src, Some dst =>
      Ok (mkFrame (f_levels X) (f_cols X)
            (map (fun rr =>
                    let '(r, ro) := rr in
                    let v := if path_eqb (r_path r) i then get_val src ro else get_val dst r in
                    mkRow (r_path r) (r_time r) (set_nth dst (fillna v) (r_vals r)))
                 (combine (f_rows X) (f_rows Xo))))
  | _, _ => Err KeyError
  end.

(** 138-149 *)
Definition copy_columns (matched : list string) (ids : list path) (Xo X : frame V) : res (frame V) :=
  foldM (fun X i => foldM (fun X c => copy_column Xo X c i) X matched) X ids.

(** [X.drop(columns=...)] *)
Definition drop_columns (X : frame V) (cols : list string) : frame V :=
  let keep := map (fun c => negb (str_in c cols)) (f_cols X) in
  mkFrame (f_levels X)
    (map snd (filter fst (combine keep (f_cols X))))
    (map (fun r => mkRow (r_path r) (r_time r) (map snd (filter fst (combine keep (r_vals r)))))
         (f_rows X)).

(** 102-153 [transform]; the new value of [new_columns_] is returned as well. *)
Definition expand_transform (e : expander) (X : frame V) : res (frame V * expander) :=
  if ex_skip e then Ok (X, e)
  else match f_levels X with
  | 0 => Err ValueError
  | _ =>
      let ids := series_ids X in
      let matched := ex_matched e in
      let X1 := add_zero_columns matched ids X in
      X2 <- copy_columns matched ids X X1 ;;
      Ok (drop_columns X2 matched,
          mkExpander false matched (ex_ids e)
            (dict_of_list (flat_map (fun i => map (fun c => (get_col_name c i, c)) matched) ids)))
  end.

End Expand.

(** sktime/multivariate.py:258-265: columns expanded by HierarchicalProphet;
    [columns.difference(shared)] is sorted and unique. *)
Definition columns_to_expand (cols shared : list string) : list string :=
  str_sort (strs_unique (filter (fun c => negb (str_in c shared)) cols)).

(** sktime/multivariate.py:253-266: expansion of the bottom level X during fit ([shared] is [] when
    [shared_features] is None). *)
Definition expand_bottom {V} (zero : V) (isna : V -> bool) (order : list string -> list string)
           (shared : list string) (X : frame V) : res (frame V * expander) :=
  e <- expand_fit order (columns_to_expand (f_cols X) shared) X ;;
  expand_transform zero isna e X.
