(** Specification vocabulary for constructor parameters. *)
From Coq Require Import Reals String Bool ZArith List.
From Verif.Model Require Import Base Num XFloat Params.
Import ListNotations.
Local Open Scope string_scope.

(** a positive number, infinity included *)
Definition positive (x : xr) : Prop := match x with XF r => (0 < r)%R | XPInf => True | XNaN | XNInf => False end.

(** the numeric parameters which have to be positive *)
Definition numbers (hier : bool) (h : hyperparams) : list xr :=
  ([h_interval h; h_changepoint_scale h; h_capacity_scale h; h_capacity_loc h; h_offset_scale h; h_noise h] ++
   if hier then [h_concentration h] else [])%list.

Definition known_trend (h : hyperparams) : Prop :=
  h_trend h = TVEffect \/
  exists s, h_trend h = TVName s /\ (s = "linear" \/ s = "linear_raw" \/ s = "logistic" \/ s = "flat").
Definition known_likelihood (hier : bool) (h : hyperparams) : Prop :=
  hier = true \/ h_likelihood h = "normal" \/ h_likelihood h = "gamma" \/ h_likelihood h = "negbinomial".

(** number of terms a seasonality argument asks for: none at all, or n *)
Definition terms_of (default : Z) (a : pyarg) : option (option Z) :=
  match a with
  | PyBool true => Some (Some default)
  | PyBool false => Some None
  | PyInt z => Some (if Z.eqb z 0 then None else Some z)
  | PyOther => None
  end.
