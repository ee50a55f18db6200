(** Results, exceptions, Python dictionaries and other language level helpers.
    Nothing in this file models a particular line of /repo; it fixes how Python
    constructs are represented in all other model files. *)
From Coq Require Import String Bool ZArith List.
Import ListNotations.
Local Open Scope string_scope.

(** Exceptions the modelled code can raise (explicitly or implicitly). *)
Inductive exn :=
| ValueError | KeyError | TypeError | AttributeError | IndexError
| AssertionError | UnboundLocalError | InferenceError | NotImplementedError
| NotFinite  (* not a Python exception: stands for a NaN or infinity among array entries *).

(** A Python computation either returns a value or raises. *)
Inductive res (A : Type) : Type :=
| Ok (a : A)
| Err (e : exn).
Arguments Ok {A} a.
Arguments Err {A} e.

Definition bind {A B} (m : res A) (k : A -> res B) : res B :=
  match m with Ok a => k a | Err e => Err e end.

Notation "x <- m ;; k" := (bind m (fun x => k)) (at level 61, m at next level, right associativity).
Notation "' p <- m ;; k" := (bind m (fun p => k))
  (at level 61, p pattern, m at next level, right associativity).

Definition is_ok {A} (m : res A) : bool := match m with Ok _ => true | Err _ => false end.

(** [mapM]: a Python list comprehension whose body may raise (left to right). *)
Fixpoint mapM {A B} (f : A -> res B) (l : list A) : res (list B) :=
  match l with
  | [] => Ok []
  | x :: tl => y <- f x ;; ys <- mapM f tl ;; Ok (y :: ys)
  end.

(** [foldM]: a Python [for] loop with an accumulator whose body may raise. *)
Fixpoint foldM {A S} (f : S -> A -> res S) (s : S) (l : list A) : res S :=
  match l with
  | [] => Ok s
  | x :: tl => s' <- f s x ;; foldM f s' tl
  end.

(** Python dict / OrderedDict with string keys: insertion order, assignment to an
    existing key keeps its position. *)
Definition dict (V : Type) := list (string * V).

Fixpoint dict_set {V} (d : dict V) (k : string) (v : V) : dict V :=
  match d with
  | [] => [(k, v)]
  | (k', v') :: tl => if String.eqb k k' then (k', v) :: tl else (k', v') :: dict_set tl k v
  end.

Fixpoint dict_get {V} (d : dict V) (k : string) : option V :=
  match d with
  | [] => None
  | (k', v') :: tl => if String.eqb k k' then Some v' else dict_get tl k
  end.

Definition dict_keys {V} (d : dict V) : list string := map fst d.

(** [d[k]] raising KeyError. *)
Definition dict_item {V} (d : dict V) (k : string) : res V :=
  match dict_get d k with Some v => Ok v | None => Err KeyError end.

(** A dict comprehension / repeated item assignment over a list of pairs. *)
Definition dict_of_list {V} (l : list (string * V)) : dict V :=
  fold_left (fun d kv => dict_set d (fst kv) (snd kv)) l [].

(** [x in l] for strings and for tuples of strings. *)
Definition str_in (x : string) (l : list string) : bool := existsb (String.eqb x) l.

Fixpoint path_eqb (a b : list string) : bool :=
  match a, b with
  | [], [] => true
  | x :: a', y :: b' => String.eqb x y && path_eqb a' b'
  | _, _ => false
  end.

Definition path_in (x : list string) (l : list (list string)) : bool := existsb (path_eqb x) l.

(** pandas [Index.unique]: first occurrences, in order. *)
Fixpoint unique_aux {A} (eqb : A -> A -> bool) (seen : list A) (l : list A) : list A :=
  match l with
  | [] => []
  | x :: tl => if existsb (eqb x) seen then unique_aux eqb seen tl
               else x :: unique_aux eqb (x :: seen) tl
  end.
Definition unique {A} (eqb : A -> A -> bool) (l : list A) : list A := unique_aux eqb [] l.

Definition paths_unique := unique path_eqb.
Definition times_unique := unique Z.eqb.
Definition strs_unique := unique String.eqb.
