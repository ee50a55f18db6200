(** n-dimensional arrays (numpy / jax.numpy): a shape and the entries in row-major order. *)
From Coq Require Import Reals List Arith.
From Verif.Model Require Import Base Num.
Import ListNotations.

Record arr := mkArr { a_shape : list nat; a_flat : list R }.

Definition prod_shape (sh : list nat) : nat := fold_right Nat.mul 1 sh.

(** An array is well formed when it has as many entries as its shape says. *)
Definition arr_wf (a : arr) : Prop := length (a_flat a) = prod_shape (a_shape a).

(** All index tuples of a shape in row-major order. *)
Fixpoint all_idx (sh : list nat) : list (list nat) :=
  match sh with
  | [] => [[]]
  | n :: tl => flat_map (fun i => map (cons i) (all_idx tl)) (seq 0 n)
  end.

(** Position of an index tuple in row-major order. *)
Fixpoint ravel (sh : list nat) (idx : list nat) : nat :=
  match sh, idx with
  | _ :: sh', i :: idx' => i * prod_shape sh' + ravel sh' idx'
  | _, _ => 0
  end.

(** [a[idx]] for an index within bounds (callers stay within bounds). *)
Definition aget (a : arr) (idx : list nat) : R := nth (ravel (a_shape a) idx) (a_flat a) 0%R.

(** array with given entries *)
Definition tabulate (sh : list nat) (f : list nat -> R) : arr := mkArr sh (map f (all_idx sh)).

(** [a.T]: reverses the axes *)
Definition transpose (a : arr) : arr := tabulate (rev (a_shape a)) (fun idx => aget a (rev idx)).

(** [a.flatten()] *)
Definition flatten (a : arr) : list R := a_flat a.

(** [a.reshape(sh)]; jax raises TypeError when the sizes differ *)
Definition reshape (sh : list nat) (a : arr) : res arr :=
  if Nat.eqb (length (a_flat a)) (prod_shape sh) then Ok (mkArr sh (a_flat a)) else Err TypeError.

(** [a.reshape((-1, 1))] *)
Definition reshape_col (a : arr) : arr := mkArr [length (a_flat a); 1] (a_flat a).

(** consecutive blocks of length k; [chunks k n l] are the first n of them.
    [x.reshape((-1, k))] as a list of rows. *)
Definition chunks {A} (k n : nat) (l : list A) : list (list A) :=
  map (fun i => firstn k (skipn (i * k) l)) (seq 0 n).

(** elementwise operations between arrays of equal shape.  Broadcasting of different shapes is
    not modelled here: it is an error. *)
Definition arr_zip (f : R -> R -> R) (a b : arr) : res arr :=
  if list_eq_dec Nat.eq_dec (a_shape a) (a_shape b)
  then Ok (mkArr (a_shape a) (map (fun xy => f (fst xy) (snd xy)) (combine (a_flat a) (a_flat b))))
  else Err TypeError.

Definition arr_map (f : R -> R) (a : arr) : arr := mkArr (a_shape a) (map f (a_flat a)).

(** array filled with one value, scalars, [x.ndim] *)
Definition const_arr (sh : list nat) (v : R) : arr := mkArr sh (repeat v (prod_shape sh)).
Definition scalar (v : R) : arr := mkArr [] [v].
Definition ndim (a : arr) : nat := length (a_shape a).

(** [a.shape[k]] *)
Definition shape_at (a : arr) (k : nat) : res nat :=
  match nth_error (a_shape a) k with Some n => Ok n | None => Err IndexError end.

(** [a.squeeze(-1)] *)
Definition squeeze_last (a : arr) : res arr :=
  match rev (a_shape a) with
  | 1 :: tl => Ok (mkArr (rev tl) (a_flat a))
  | _ => Err ValueError
  end.

(** [a @ b] for matrices, [jnp.diag] of a vector *)
Definition matmul (a b : arr) : res arr :=
  match a_shape a, a_shape b with
  | [n; m], [m'; k] =>
      if Nat.eqb m m'
      then Ok (mkArr [n; k] (flat_map (fun i => map (fun j =>
             Rsum (map (fun l => (aget a [i; l] * aget b [l; j])%R) (seq 0 m))) (seq 0 k)) (seq 0 n)))
      else Err TypeError
  | _, _ => Err TypeError
  end.
Definition diag (v : arr) : arr :=
  let n := length (a_flat v) in
  mkArr [n; n] (flat_map (fun i => map (fun j => if Nat.eqb i j then nth i (a_flat v) 0%R else 0%R)
                                       (seq 0 n)) (seq 0 n)).
(** [jnp.tile(jnp.expand_dims(a, 0), (t, 1, ..., 1))] *)
Definition tile0 (t : nat) (a : arr) : arr := mkArr (t :: a_shape a) (concat (repeat (a_flat a) t)).
