(** Constructor validation and parameter access of the forecasters: sktime/base.py:864-889, 1012-1086,
    sktime/univariate.py:226-237, sktime/multivariate.py:207-214, sktime/seasonality.py. *)
From Coq Require Import Reals String Bool ZArith List.
From Verif.Model Require Import Base Num XFloat.
Import ListNotations.
Local Open Scope string_scope.

(** Numeric parameters are floats (an array or a string fails in the comparison; not modelled). *)
Inductive trend_value := TVName (s : string) | TVEffect | TVOther.
Record hyperparams := mkHyper {
  h_interval : xr; h_changepoint_scale : xr; h_capacity_scale : xr; h_capacity_loc : xr; h_offset_scale : xr;
  h_trend : trend_value;
  h_noise : xr;
  h_likelihood : string;     (* Prophetverse *)
  h_concentration : xr }.    (* HierarchicalProphet *)

(** [if x <= 0: raise ValueError] *)
Definition check_positive (x : xr) : res unit := if xleb x (XF 0) then Err ValueError else Ok tt.

Definition trend_names : list string := ["linear"; "linear_raw"; "logistic"; "flat"].

(** base.py:1068-1086 *)
Definition validate_base (h : hyperparams) : res unit :=
  _ <- check_positive (h_interval h) ;;
  _ <- check_positive (h_changepoint_scale h) ;;
  _ <- check_positive (h_capacity_scale h) ;;
  _ <- check_positive (h_capacity_loc h) ;;
  _ <- check_positive (h_offset_scale h) ;;
  match h_trend h with
  | TVName s => if str_in s trend_names then Ok tt else Err ValueError
  | TVEffect => Ok tt
  | TVOther => Err ValueError
  end.

(** univariate.py:23-31 the keys of [_LIKELIHOOD_MODEL_MAP] *)
Definition likelihood_names : list string := ["normal"; "gamma"; "negbinomial"].

(** univariate.py:226-237 *)
Definition validate_univariate (h : hyperparams) : res unit :=
  _ <- validate_base h ;;
  _ <- check_positive (h_noise h) ;;
  if str_in (h_likelihood h) likelihood_names then Ok tt else Err ValueError.

(** multivariate.py:207-214 *)
Definition validate_hierarchical (h : hyperparams) : res unit :=
  _ <- validate_base h ;;
  _ <- check_positive (h_noise h) ;;
  check_positive (h_concentration h).

Definition validate (hier : bool) (h : hyperparams) : res unit :=
  if hier then validate_hierarchical h else validate_univariate h.

(** base.py:1026-1066: which trend is built, with the arguments passed on (the constructors of the
    trend classes check nothing) *)
Inductive built_trend :=
| BLinear (interval changepoint_scale offset_scale : xr) (remove_seasonality : bool)
| BLogistic (interval changepoint_scale offset_scale capacity_scale capacity_loc : xr)
| BFlat (changepoint_scale : xr)
| BObject.
Definition build_trend (h : hyperparams) : res built_trend :=
  match h_trend h with
  | TVName s =>
      if String.eqb s "linear" then Ok (BLinear (h_interval h) (h_changepoint_scale h) (h_offset_scale h) true)
      else if String.eqb s "linear_raw" then Ok (BLinear (h_interval h) (h_changepoint_scale h) (h_offset_scale h) false)
      else if String.eqb s "logistic" then
        Ok (BLogistic (h_interval h) (h_changepoint_scale h) (h_offset_scale h) (h_capacity_scale h) (h_capacity_loc h))
      else if String.eqb s "flat" then Ok (BFlat (h_changepoint_scale h))
      else Err ValueError
  | TVEffect => Ok BObject
  | TVOther => Err ValueError
  end.

(** * The effects as (name, effect) pairs: base.py:864-889 *)
Section Effects.
Context {E : Type}.

(** an element of the assigned list: a tuple of two, of three, or of another length *)
Inductive item := Pair (name : string) (e : E) | Triple (name : string) (e : E) (regex : option string) | Tuple (n : nat).
Definition item_len (i : item) : nat := match i with Pair _ _ => 2 | Triple _ _ _ => 3 | Tuple n => n end.
Definition entries := list (string * E * option string).

(** base.py:864-872 *)
Definition get_effects (l : option entries) : list (string * E) :=
  match l with None => [] | Some l => map (fun x => (fst (fst x), snd (fst x))) l end.

(** unpacking [((name, effect), (_, _, regex))] *)
Definition rebind (v : item) (old : string * E * option string) : res (string * E * option string) :=
  match v with Pair n e => Ok (n, e, snd old) | _ => Err ValueError end.

(** base.py:874-889; [zip] stops at the shorter list *)
Definition set_effects (value : list item) (l : option entries) : res entries :=
  match value with
  | [] => Err IndexError
  | v0 :: _ =>
      if negb (Nat.eqb (item_len v0) 2 || Nat.eqb (item_len v0) 3) then Err AssertionError
      else if negb (forallb (fun v => Nat.eqb (item_len v) (item_len v0)) value) then Err AssertionError
      else match l with
      | None => Err TypeError
      | Some l => mapM (fun vo => rebind (fst vo) (snd vo)) (combine value l)
      end
  end.

(** skbase's [_replace_object] (external): the first entry with the name gets the new object *)
Fixpoint replace_first (name : string) (new : E) (l : list (string * E)) : list (string * E) :=
  match l with
  | [] => []
  | (n, e) :: tl => if String.eqb n name then (name, new) :: tl else (n, e) :: replace_first name new tl
  end.
Definition set_param (name : string) (new : E) (l : option entries) : res entries :=
  set_effects (map (fun ne => Pair (fst ne) (snd ne)) (replace_first name new (get_effects l))) l.
End Effects.
Arguments item E : clear implicits.
Arguments entries E : clear implicits.

(** * sktime/seasonality.py:7-65 *)
(** a Python argument: bool, int, or anything else (floats, None, numpy integers) *)
Inductive pyarg := PyBool (b : bool) | PyInt (z : Z) | PyOther.

Definition num_terms (default : Z) (a : pyarg) : res Z :=
  match a with PyBool _ => Ok default | PyInt z => Ok z | PyOther => Err ValueError end.
Definition py_true (a : pyarg) : bool :=
  match a with PyBool b => b | PyInt z => negb (Z.eqb z 0) | PyOther => true end.

(** arguments passed to [FourierFeatures] *)
Record fourier_args := mkFA { fa_freq : string; fa_periods : list string; fa_terms : list Z; fa_keep : bool }.

Definition seasonal_transformer (freq : string) (yearly weekly : pyarg) : res fourier_args :=
  ny <- num_terms 10 yearly ;;
  let '(sp, terms) := if py_true yearly then (["Y"], [ny]) else ([], []) in
  nw <- num_terms 3 weekly ;;
  let '(sp, terms) := if py_true weekly then ((sp ++ ["W"])%list, (terms ++ [nw])%list) else (sp, terms) in
  Ok (mkFA freq sp terms true).
