(** Bottom-up aggregation: sktime's [Aggregator] (external) as used by
    src/prophetverse/sktime/multivariate.py:236-239, 316-319, 366, and pandas' [sort_index]. *)
From Coq Require Import Reals String Ascii Bool ZArith Arith List.
From Verif.Model Require Import Base Num Frame.
Import ListNotations.
Local Open Scope string_scope.

(** lexicographic order of index tuples *)
Fixpoint path_cmp (a b : path) : comparison :=
  match a, b with
  | [], [] => Eq
  | [], _ => Lt
  | _, [] => Gt
  | x :: a', y :: b' => match String.compare x y with Eq => path_cmp a' b' | c => c end
  end.

(** order of index labels (series levels, then time) *)
Definition label_leb (a b : path * Z) : bool :=
  match path_cmp (fst a) (fst b) with
  | Lt => true
  | Gt => false
  | Eq => (snd a <=? snd b)%Z
  end.

Definition label {V} (r : row V) : path * Z := (r_path r, r_time r).

(** [df.sort_index()]: stable *)
Section Sort.
Context {A : Type} (key : A -> path * Z).
Fixpoint key_insert (x : A) (l : list A) : list A :=
  match l with
  | [] => [x]
  | y :: tl => if label_leb (key x) (key y) then x :: l else y :: key_insert x tl
  end.
Fixpoint key_sort (l : list A) : list A :=
  match l with [] => [] | x :: tl => key_insert x (key_sort tl) end.
End Sort.

Definition sort_index {V} (f : frame V) : frame V :=
  mkFrame (f_levels f) (f_cols f) (key_sort label (f_rows f)).

(** Aggregate nodes above a series: all proper prefixes of its path, padded with "__total". *)
Definition pad_total (n : nat) (p : path) : path := (p ++ repeat total_name (n - List.length p))%list.
Definition ancestors (n : nat) (p : path) : list path :=
  map (fun k => pad_total n (firstn k p)) (seq 0 n).

(** Is the series with path [p] below (or equal to) node [q]? *)
Fixpoint below (q p : path) : bool :=
  match q, p with
  | [], [] => true
  | x :: q', y :: p' => if String.eqb x total_name then forallb (String.eqb total_name) q'
                        else String.eqb x y && below q' p'
  | _, _ => false
  end.

(** no level value is "__total" *)
Definition no_total (p : path) : bool := negb (str_in total_name p).

(** columnwise sum of the values of a list of rows *)
Definition sum_vals (k : nat) (rows : list (row R)) : list R :=
  map (fun j => Rsum (map (fun r => nth j (r_vals r) 0%R) rows)) (seq 0 k).

(** [Aggregator.transform]: rows with "__total" are dropped first; for every kept aggregate node and
    every time of a series below it, the sum of the rows below it at that time is added; the result
    is sorted.  Which aggregate nodes are kept (sktime drops nodes with a single child) is the
    argument [keep].  A frame without series levels is returned as it is. *)
Definition aggregate (keep : path -> bool) (f : frame R) : frame R :=
  match f_levels f with
  | 0 => f
  | n =>
      let bottom := filter (fun r => no_total (r_path r)) (f_rows f) in
      let nodes := filter keep (paths_unique (flat_map (fun p => ancestors n p)
                                                (paths_unique (map r_path bottom)))) in
      let agg := flat_map (fun q =>
                   let below_q := filter (fun r => below q (r_path r)) bottom in
                   map (fun t => mkRow q t (sum_vals (List.length (f_cols f))
                                      (filter (fun r => Z.eqb (r_time r) t) below_q)))
                       (times_unique (map r_time below_q))) nodes in
      mkFrame (f_levels f) (f_cols f) (key_sort label (agg ++ bottom)%list)
  end.
