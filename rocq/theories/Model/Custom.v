(** Effects written by users: subclasses of [BaseEffect] and [BaseAdditiveOrMultiplicativeEffect]
    (src/prophetverse/effects/base.py), as the forecasters call them (src/prophetverse/sktime/base.py:891-1010).

    A user class is given by its tags and by the methods [_fit], [_transform] and [_predict].  These
    may be any functions; [_fit] and [_transform] may assign attributes of the object ([S]: their values), and
    all three can read the names of the columns ([input_feature_column_names]).  A class which does not
    override a method has the inherited one.  User classes do not override [fit], [transform], [predict]
    and the properties of the base classes, and [_predict] does not modify the dictionary it gets.
    Subclasses of [BaseAdditiveOrMultiplicativeEffect] have a valid [effect_mode]. *)
From Coq Require Import Reals String Bool ZArith List Arith.
From Verif.Model Require Import Base Num Regex Frame Arr Expand Prog Likelihood Effect Forecaster.
Import ListNotations.
Local Open Scope string_scope.

Section Custom.
(** attributes of user objects, data prepared by [_transform] *)
Context {S D : Type}.

Record user_class := mkClass {
  u_multivariate : bool;  (* tags, base.py:75-83 *)
  u_skip : bool;
  u_filter : bool;
  u_mode : option mode;   (* subclass of BaseAdditiveOrMultiplicativeEffect, or of BaseEffect only *)
  u_init : S;             (* attributes assigned by the constructor *)
  u_super : bool;         (* the constructor calls [super().__init__()] *)
  u_fit : list string -> S -> frame R -> option (frame R) -> R -> S * option exn;
  u_transform : list string -> S -> frame R -> list Z -> S * res D;
  u_predict : list string -> S -> D -> dict arr -> prog arr }.

(** an object: its class with the constructor arguments, its attributes, those of the base class *)
Record user_effect := mkUser { ue_class : user_class; ue_state : S; ue_base : base }.

(** the constructor, and [clone] (skbase: the constructor with the same arguments) *)
Definition user_new (c : user_class) : user_effect := mkUser c (u_init c) (if u_super c then base_init else no_base).
Definition user_clone (u : user_effect) : user_effect := user_new (ue_class u).

(** base.py:95-107 *)
Definition user_skips (u : user_effect) : res bool := should_skip_base (u_skip (ue_class u)) (ue_base u).

(** base.py:109-154 [fit] *)
Definition user_fit (u : user_effect) (y : frame R) (X : option (frame R)) (scale : R) : user_effect * option exn :=
  let c := ue_class u in
  if negb (u_multivariate c) && is_panel X then (u, Some ValueError)
  else
    let cols := columns_seen X in
    let b := mkBase (Some cols) (b_fitted (ue_base u)) in
    let '(s, err) := u_fit c cols (ue_state u) y X scale in
    match err with
    | Some ex => (mkUser c s b, Some ex)
    | None => (mkUser c s (mkBase (Some cols) (Some true)), None)
    end.

(** base.py:176-221 [transform]; [None] is the empty dictionary of a skipped effect *)
Definition user_transform (u : user_effect) (X : option (frame R)) (fh : list Z) : user_effect * res (option D) :=
  match attr (b_fitted (ue_base u)) with
  | Err e => (u, Err e)
  | Ok false => (u, Err ValueError)
  | Ok true =>
      match user_skips u, attr (b_cols (ue_base u)), X with
      | Err e, _, _ => (u, Err e)
      | Ok true, _, _ => (u, Ok None)
      | Ok false, Err e, _ => (u, Err e)
      | Ok false, Ok _, None => (u, Err TypeError)
      | Ok false, Ok cols, Some X =>
          let X := if u_filter (ue_class u) then filter_fh fh X else X in
          match select_columns 0%R X cols with
          | Err e => (u, Err e)
          | Ok XC =>
              let '(s, r) := u_transform (ue_class u) cols (ue_state u) XC fh in
              (mkUser (ue_class u) s (ue_base u), d <- r ;; Ok (Some d))
          end
      end
  end.

(** base.py:253-280 and 347-385 [predict], base.py:306-310 [__call__].  Hooks are not given the empty dictionary
    by the forecasters; passing it is left out. *)
Definition user_predict (u : user_effect) (data : D) (predicted : dict arr) : prog arr :=
  cols <~ lift_res (attr (b_cols (ue_base u))) ;;
  let raw := u_predict (ue_class u) cols (ue_state u) data predicted in
  match u_mode (ue_class u) with
  | None => raw
  | Some m => predict_mode m raw predicted
  end.

(** base.py:223-251: the inherited [_transform] (for classes whose data are arrays) *)
Definition inherited_transform (wrap : arr -> D) (cols : list string) (s : S) (X : frame R) (fh : list Z) : S * res D :=
  (s, a <- frame_array X ;; Ok (wrap a)).
(** base.py:156-174: the inherited [_fit] *)
Definition inherited_fit (cols : list string) (s : S) (y : frame R) (X : option (frame R)) (scale : R) : S * option exn := (s, None).

(** * The forecaster: sktime/base.py *)
Definition user_listed := (string * user_effect * option string)%type.
Definition user_fitted := (string * user_effect * list string)%type.

(** base.py:908-936, as [fit_one] in Forecaster.v *)
Definition user_fit_one (y : frame R) (X : option (frame R)) (scale : R) (l : user_listed) : res user_fitted :=
  let '(name, u, regex) := l in
  match X with
  | None => match snd (user_fit (user_clone u) y None scale) with Some ex => Err ex | None => Err UnboundLocalError end
  | Some X =>
      cols <- match_columns (f_cols X) regex ;;
      XC <- select_columns 0%R X cols ;;
      let '(u', err) := user_fit (user_clone u) y (Some XC) scale in
      match err with Some ex => Err ex | None => Ok (name, u', cols) end
  end.

(** base.py:940-942 *)
Definition user_uncovered (cols : list string) (fitted : list user_fitted) : list string :=
  str_sort (strs_unique (filter (fun c => negb (existsb (fun f => str_in c (snd f)) fitted)) cols)).

(** base.py:891-967 [_fit_effects]; [default] is the default effect (given, or the linear effect) *)
Definition user_fit_effects (default : user_effect) (effects : list user_listed) (y : frame R) (X : option (frame R)) (scale : R)
  : res (list user_fitted) :=
  fitted <- mapM (user_fit_one y X scale) effects ;;
  match X with
  | None => Ok fitted
  | Some X =>
      match user_uncovered (f_cols X) fitted with
      | [] => Ok fitted
      | features =>
          XC <- select_columns 0%R X features ;;
          let '(u', err) := user_fit (user_clone default) y (Some XC) scale in
          match err with Some ex => Err ex | None => Ok (fitted ++ [(default_name, u', features)])%list end
      end
  end.

(** base.py:969-994 [_transform_effects]: the effects afterwards and the prepared data.  The loop stops at the first error. *)
Fixpoint user_transform_effects (fitted : list user_fitted) (X : frame R) (fh : list Z) (out : dict (option D))
  : list user_fitted * res (dict (option D)) :=
  match fitted with
  | [] => ([], Ok out)
  | (name, u, cols) :: rest =>
      match user_skips u with
      | Err e => (fitted, Err e)
      | Ok true => let '(rest', r) := user_transform_effects rest X fh out in ((name, u, cols) :: rest', r)
      | Ok false =>
          match select_columns 0%R X cols with
          | Err e => (fitted, Err e)
          | Ok XC =>
              let '(u', r) := user_transform u (Some XC) fh in
              match r with
              | Err e => ((name, u', cols) :: rest, Err e)
              | Ok d => let '(rest', r') := user_transform_effects rest X fh (dict_set out name d) in ((name, u', cols) :: rest', r')
              end
          end
      end
  end.

(** base.py:996-1010 *)
Definition user_non_skipped (fitted : list user_fitted) : res (dict user_effect) :=
  foldM (fun out f => let '(name, u, _) := f in skip <- user_skips u ;; Ok (if (skip : bool) then out else dict_set out name u)) [] fitted.

(** effects as the model functions call them *)
Definition user_fns (effects : dict user_effect) : dict (effect_fn (option D)) :=
  map (fun nu => (fst nu, fun (d : option D) predicted =>
                            match d with Some d => user_predict (snd nu) d predicted | None => Raise TypeError end)) effects.
End Custom.
Arguments user_class : clear implicits.
Arguments user_effect : clear implicits.
Arguments user_listed : clear implicits.
Arguments user_fitted : clear implicits.

(** * Broadcasting: numpy's rule for [mean += effect] in models.py:262 *)
(** shapes with the axes reversed: the last axis first *)
Fixpoint broadcast_rev (a b : list nat) : res (list nat) :=
  match a, b with
  | [], _ => Ok b
  | _, [] => Ok a
  | n :: a', m :: b' =>
      rest <- broadcast_rev a' b' ;;
      if Nat.eqb n m then Ok (n :: rest)
      else if Nat.eqb n 1 then Ok (m :: rest)
      else if Nat.eqb m 1 then Ok (n :: rest)
      else Err TypeError
  end.
Definition broadcast_shape (a b : list nat) : res (list nat) := s <- broadcast_rev (rev a) (rev b) ;; Ok (rev s).
(** the entry of the operand of shape [sh] at an index of the result: leading axes are dropped, axes of
    length one are read at 0 *)
Definition source_index (sh idx : list nat) : list nat :=
  map (fun si => if Nat.eqb (fst si) 1 then 0 else snd si) (combine sh (skipn (length idx - length sh) idx)).
Definition broadcast_zip (f : R -> R -> R) (a b : arr) : res arr :=
  sh <- broadcast_shape (a_shape a) (a_shape b) ;;
  Ok (tabulate sh (fun idx => f (aget a (source_index (a_shape a) idx)) (aget b (source_index (a_shape b) idx)))).

(** models.py:241-266 with broadcasting; Likelihood.v has the case of equal shapes *)
Definition apply_effect_b {D} (data : dict D) (mp : arr * dict arr) (ne : string * effect_fn D)
  : prog (arr * dict arr) :=
  let '(mean, predicted) := mp in
  let '(name, effect) := ne in
  d <~ lift_res (dict_item data name) ;;
  v <~ scope name (effect d predicted) ;;
  v <~ deterministic name v ;;
  mean' <~ lift_res (broadcast_zip Rplus mean v) ;;
  Ret (mean', dict_set predicted name v).

Fixpoint apply_effects_b {D} (data : dict D) (mp : arr * dict arr) (effects : dict (effect_fn D))
  : prog (arr * dict arr) :=
  match effects with
  | [] => Ret mp
  | ne :: tl => mp' <~ apply_effect_b data mp ne ;; apply_effects_b data mp' tl
  end.

Definition compute_mean_b {D} (trend : prog arr) (data : option (dict D))
  (effects : option (dict (effect_fn D))) : prog arr :=
  t <~ trend ;;
  _ <~ deterministic "trend" t ;;
  match effects with
  | None | Some [] => Ret t
  | Some effs =>
      match data with
      | None => Raise TypeError
      | Some data => mp <~ apply_effects_b data (t, [("trend", t)]) effs ;; Ret (fst mp)
      end
  end.
