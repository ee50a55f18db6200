(** Numeric helpers on Coq reals standing for the numpy / jax.numpy primitives used by the
    code.  Floating point rounding is not modelled. *)
From Coq Require Import Reals List ZArith.
Import ListNotations.
Local Open Scope R_scope.

Definition Rltb (x y : R) : bool := if Rlt_dec x y then true else false.
Definition Rleb (x y : R) : bool := if Rle_dec x y then true else false.
Definition Reqb (x y : R) : bool := if Req_EM_T x y then true else false.

(** sum, mean of an axis *)
Fixpoint Rsum (l : list R) : R := match l with [] => 0 | x :: tl => x + Rsum tl end.
Definition Rmean (l : list R) : R := Rsum l / INR (length l).

(** [x.max()], [x.min()] of a non-empty array, given as head and tail. *)
Definition Rmax_list (x : R) (l : list R) : R := fold_left Rmax l x.
Definition Rmin_list (x : R) (l : list R) : R := fold_left Rmin l x.

(** [jnp.clip(x, lo, None)] *)
Definition clip_low (lo x : R) : R := Rmax lo x.

(** smallest integer >= x *)
Definition Rceil (x : R) : Z := (- Int_part (- x))%Z.
(** largest integer <= x *)
Definition Rfloor (x : R) : Z := Int_part x.

(** [jnp.arange(0, stop, step)] for step > 0: ceil(stop/step) entries (none if negative), entry i
    is i*step. *)
Definition arange0 (stop step : R) : list R :=
  map (fun i => INR i * step) (seq 0 (Z.to_nat (Rceil (stop / step)))).

(** consecutive differences: [t[1:] - t[:-1]] *)
Fixpoint diffs (l : list R) : list R :=
  match l with
  | x :: ((y :: _) as tl) => (y - x) :: diffs tl
  | _ => []
  end.

(** inner product of two vectors (truncating; callers check the lengths) *)
Fixpoint dot (a b : list R) : R :=
  match a, b with
  | x :: a', y :: b' => x * y + dot a' b'
  | _, _ => 0
  end.

(** ascending sort, used by quantiles *)
Fixpoint Rinsert (x : R) (l : list R) : list R :=
  match l with
  | [] => [x]
  | y :: tl => if Rle_dec x y then x :: l else y :: Rinsert x tl
  end.
Fixpoint Rsort (l : list R) : list R :=
  match l with [] => [] | x :: tl => Rinsert x (Rsort tl) end.
