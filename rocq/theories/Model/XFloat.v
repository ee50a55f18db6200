(** Extended floats: reals plus NaN and infinities, with IEEE rules for the operations where they
    decide what the code does.  Signed zeros and rounding are not modelled. *)
From Coq Require Import Reals Bool.
From Verif.Model Require Import Num.
Local Open Scope R_scope.

Inductive xr := XF (r : R) | XNaN | XPInf | XNInf.

Definition xneg (a : xr) : xr :=
  match a with XF x => XF (- x) | XNaN => XNaN | XPInf => XNInf | XNInf => XPInf end.

Definition xadd (a b : xr) : xr :=
  match a, b with
  | XF x, XF y => XF (x + y)
  | XNaN, _ | _, XNaN => XNaN
  | XPInf, XNInf | XNInf, XPInf => XNaN
  | XPInf, _ | _, XPInf => XPInf
  | XNInf, _ | _, XNInf => XNInf
  end.
Definition xsub (a b : xr) : xr := xadd a (xneg b).

(** infinity with the sign of a real; zero times infinity is NaN *)
Definition xinf_sign (x : R) : xr :=
  if Rltb 0 x then XPInf else if Rltb x 0 then XNInf else XNaN.

Definition xmul (a b : xr) : xr :=
  match a, b with
  | XF x, XF y => XF (x * y)
  | XNaN, _ | _, XNaN => XNaN
  | XF x, XPInf | XPInf, XF x => xinf_sign x
  | XF x, XNInf | XNInf, XF x => xneg (xinf_sign x)
  | XPInf, XPInf | XNInf, XNInf => XPInf
  | XPInf, XNInf | XNInf, XPInf => XNInf
  end.

Definition xdiv (a b : xr) : xr :=
  match a, b with
  | XF x, XF y => if Reqb y 0 then xinf_sign x else XF (x / y)
  | XNaN, _ | _, XNaN => XNaN
  | XF _, _ => XF 0
  | XPInf, XF y => if Rleb 0 y then XPInf else XNInf
  | XNInf, XF y => if Rleb 0 y then XNInf else XPInf
  | _, _ => XNaN
  end.

Definition xlog (a : xr) : xr :=
  match a with
  | XF x => if Rltb 0 x then XF (ln x) else if Reqb x 0 then XNInf else XNaN
  | XPInf => XPInf
  | XNaN | XNInf => XNaN
  end.

Definition xisnan (a : xr) : bool := match a with XNaN => true | _ => false end.
(** comparisons with NaN are false *)
Definition xleb (a b : xr) : bool :=
  match a, b with
  | XNaN, _ | _, XNaN => false
  | XF x, XF y => Rleb x y
  | XNInf, _ => true
  | _, XPInf => true
  | _, _ => false
  end.
