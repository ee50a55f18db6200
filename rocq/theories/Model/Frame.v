(** Data frames with a (series levels..., time) index, and the helpers of
    src/prophetverse/utils/multiindex.py and src/prophetverse/utils/frame_to_array.py. *)
From Coq Require Import Reals String Bool ZArith List.
From Verif.Model Require Import Base Num.
Import ListNotations.
Local Open Scope string_scope.

(** Identifier of a series: the values of all index levels except time. *)
Definition path := list string.

Record row (V : Type) := mkRow { r_path : path; r_time : Z; r_vals : list V }.
Arguments mkRow {V} _ _ _.
Arguments r_path {V} _.
Arguments r_time {V} _.
Arguments r_vals {V} _.

(** [f_levels] is the number of index levels besides time ([index.nlevels - 1]). *)
Record frame (V : Type) := mkFrame { f_levels : nat; f_cols : list string; f_rows : list (row V) }.
Arguments mkFrame {V} _ _ _.
Arguments f_levels {V} _.
Arguments f_cols {V} _.
Arguments f_rows {V} _.

Section WithV.
Context {V : Type}.

(** Every row has one value per column and one path entry per level. *)
Definition frame_wf (f : frame V) : Prop :=
  forall r, In r (f_rows f) ->
    length (r_vals r) = length (f_cols f) /\ length (r_path r) = f_levels f.

(** [df.index.droplevel(-1).unique()] *)
Definition series_ids (f : frame V) : list path := paths_unique (map r_path (f_rows f)).

(** [df.index.get_level_values(-1).unique()] *)
Definition time_ids (f : frame V) : list Z := times_unique (map r_time (f_rows f)).

(** [df.loc[mask]] *)
Definition filter_rows (p : row V -> bool) (f : frame V) : frame V :=
  mkFrame (f_levels f) (f_cols f) (filter p (f_rows f)).

(** rows of one series, [df.loc[idx]] *)
Definition rows_of (f : frame V) (p : path) : list (row V) :=
  filter (fun r => path_eqb (r_path r) p) (f_rows f).

Definition total_name : string := "__total".

(** utils/multiindex.py:15-34 [get_bottom_series_idx] *)
Definition get_bottom_series_idx (f : frame V) : res (list path) :=
  match f_levels f with
  | 0 => Err ValueError
  | 1 => Ok (filter (fun p => negb (path_eqb p [total_name])) (series_ids f))
  | _ => Ok (filter (fun p => negb (String.eqb (last p "") total_name)) (series_ids f))
  end.

(** utils/multiindex.py:56-82 [get_multiindex_loc]; [idx_values[0]] raises on an empty list. *)
Definition get_multiindex_loc (f : frame V) (idx_values : list path) : res (frame V) :=
  match idx_values with
  | [] => Err IndexError
  | p0 :: _ =>
      let k := length p0 in
      Ok (filter_rows (fun r => path_in (firstn k (r_path r)) idx_values) f)
  end.

(** utils/multiindex.py:37-53 [loc_bottom_series] *)
Definition loc_bottom_series (f : frame V) : res (frame V) :=
  match f_levels f with
  | 0 => Ok f
  | _ => idx <- get_bottom_series_idx f ;; get_multiindex_loc f idx
  end.

(** ascending string sort (order of [MultiIndex.levels], [Index.difference]) *)
Fixpoint str_insert (x : string) (l : list string) : list string :=
  match l with
  | [] => [x]
  | y :: tl => if String.leb x y then x :: l else y :: str_insert x tl
  end.
Fixpoint str_sort (l : list string) : list string :=
  match l with [] => [] | x :: tl => str_insert x (str_sort tl) end.

(** [df.index.levels[:-1]]: the sorted values occurring in each level.  (pandas may keep unused
    values as well; the model has only the used ones.) *)
Definition index_levels (f : frame V) : list (list string) :=
  map (fun i => str_sort (strs_unique (map (fun r => nth i (r_path r) "") (f_rows f))))
      (seq 0 (f_levels f)).

(** [itertools.product] of level values *)
Fixpoint product (l : list (list string)) : list path :=
  match l with
  | [] => [[]]
  | vs :: tl => flat_map (fun v => map (cons v) (product tl)) vs
  end.

(** row lookup by exact label *)
Definition find_row (f : frame V) (p : path) (t : Z) : option (row V) :=
  find (fun r => path_eqb (r_path r) p && Z.eqb (r_time r) t) (f_rows f).

(** utils/multiindex.py:85-114 [reindex_time_series]: rows of the new index; [None] stands for a
    row of NaN. *)
Definition reindex_time_series (f : frame V) (times : list Z) : list (path * Z * option (list V)) :=
  let idx :=
    match f_levels f with
    | 0 => map (fun t => ([], t)) times
    | _ => flat_map (fun p => map (fun t => (p, t)) times) (product (index_levels f))
    end in
  map (fun pt => (fst pt, snd pt, option_map r_vals (find_row f (fst pt) (snd pt)))) idx.

(** utils/multiindex.py:117-133 [iterate_all_series]; the index of sktime's [_get_s_matrix] is the
    list of series in order of first appearance. *)
Definition iterate_all_series (f : frame V) : list (path * list (row V)) :=
  map (fun p => (p, rows_of f p)) (series_ids f).

(** utils/frame_to_array.py:46-77 [series_to_tensor]: result[series][time][column].  *)
Definition series_to_tensor (f : frame V) : res (list (list (list V))) :=
  match f_levels f with
  | 0 => Ok [map r_vals (f_rows f)]
  | _ =>
      '(_, out) <- foldM (fun st s =>
                 let '(len, acc) := st in
                 let rows := snd s in
                 let len' := match len with None => length rows | Some n => n end in
                 if Nat.eqb (length rows) len' then Ok (Some len', (acc ++ [map r_vals rows])%list)
                 else Err ValueError)
              (None, []) (iterate_all_series f) ;;
      Ok out
  end.

(** Result of [series_to_tensor_or_array]: two or three dimensional data. *)
Inductive data3 :=
| D2 (rows : list (list V))
| D3 (series : list (list (list V))).

(** utils/frame_to_array.py:80-96 *)
Definition series_to_tensor_or_array (f : frame V) : res data3 :=
  match f_levels f with
  | 0 => Ok (D2 (map r_vals (f_rows f)))
  | _ => t <- series_to_tensor f ;; Ok (D3 t)
  end.

(** Position of a column. *)
Fixpoint col_pos (cols : list string) (c : string) : option nat :=
  match cols with
  | [] => None
  | x :: tl => if String.eqb c x then Some 0 else option_map S (col_pos tl c)
  end.

Definition select_vals (pos : list nat) (vals : list V) (dflt : V) : list V :=
  map (fun i => nth i vals dflt) pos.

(** [X[columns]]; KeyError when a column is missing. *)
Definition select_columns (dflt : V) (f : frame V) (cols : list string) : res (frame V) :=
  pos <- mapM (fun c => match col_pos (f_cols f) c with Some i => Ok i | None => Err KeyError end)
              cols ;;
  Ok (mkFrame (f_levels f) cols
        (map (fun r => mkRow (r_path r) (r_time r) (select_vals pos (r_vals r) dflt)) (f_rows f))).

End WithV.
Arguments D2 {V} rows.
Arguments D3 {V} series.

(** utils/frame_to_array.py:21-43: a timestamp in integer nanoseconds (Period indexes are converted
    to the start of the period first) to days; [//] is floor division. *)
Definition days_since_epoch (ns : Z) : R := (IZR (ns / 1000000000) / 86400)%R.
