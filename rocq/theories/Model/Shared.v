(** Objects passed by reference.

    Effects: the cells of a heap are the effect objects created so far, an address is a position.
    [fit] of an effect changes its cell.  The object inside a LiftExperimentLikelihood is part of its
    cell; [clone] copies it too.

    Trend objects and feature transformers: several forecasters, each with the addresses of the objects
    it was given, and the interleavings of calls to them. *)
From Coq Require Import Reals String Bool ZArith List.
From Verif.Model Require Import Base Num XFloat Regex Frame Arr Expand Aggregate Scale Predict Prog Effect TrendProg Engine Forecaster History.
Import ListNotations.
Local Open Scope string_scope.

Definition effect_heap := list effect.
(** entries of [exogenous_effects] and of [exogenous_effects_], with addresses *)
Definition listed_ref := (string * nat * option string)%type.
Definition fitted_ref := (string * nat * list string)%type.

Definition write (h : effect_heap) (a : nat) (e : effect) : effect_heap := (firstn a h ++ e :: skipn (S a) h)%list.
(** a new object *)
Definition alloc (h : effect_heap) (e : effect) : effect_heap * nat := ((h ++ [e])%list, List.length h).

Section Effects.
Variable order : list string -> list string.

(** [effect.fit(X, y, scale)]: the cell afterwards, also after an exception *)
Definition fit_cell (h : effect_heap) (a : nat) (X : option (frame R)) (scale : R) : effect_heap * option exn :=
  match nth_error h a with
  | None => (h, Some AttributeError)
  | Some e => let '(e', err) := fit order e X scale in (write h a e', err)
  end.
(** [effect.clone()] *)
Definition clone_cell (h : effect_heap) (a : nat) : effect_heap * nat :=
  match nth_error h a with None => (h, a) | Some e => alloc h (clone e) end.

(** base.py:908-936 *)
Definition fit_one_ref (h : effect_heap) (X : option (frame R)) (scale : R) (l : listed_ref) : effect_heap * res fitted_ref :=
  let '(name, a, regex) := l in
  match X with
  | None =>
      let '(h, a) := clone_cell h a in
      let '(h, err) := fit_cell h a None scale in
      (h, match err with Some ex => Err ex | None => Err UnboundLocalError end)
  | Some X =>
      match (cols <- match_columns (f_cols X) regex ;; XC <- select_columns 0%R X cols ;; Ok (cols, XC)) with
      | Err ex => (h, Err ex)
      | Ok (cols, XC) =>
          let '(h, a) := clone_cell h a in
          let '(h, err) := fit_cell h a (Some XC) scale in
          (h, match err with Some ex => Err ex | None => Ok (name, a, cols) end)
      end
  end.

Fixpoint fit_listed_ref (h : effect_heap) (X : option (frame R)) (scale : R) (ls : list listed_ref) : effect_heap * res (list fitted_ref) :=
  match ls with
  | [] => (h, Ok [])
  | l :: ls =>
      let '(h, r) := fit_one_ref h X scale l in
      match r with
      | Err ex => (h, Err ex)
      | Ok f => let '(h, fs) := fit_listed_ref h X scale ls in (h, fs <- fs ;; Ok (f :: fs))
      end
  end.

Definition uncovered_ref (cols : list string) (fitted : list fitted_ref) : list string :=
  str_sort (strs_unique (filter (fun c => negb (existsb (fun f => str_in c (snd f)) fitted)) cols)).

(** base.py:891-967 [_fit_effects] *)
Definition fit_effects_ref (h : effect_heap) (default : option nat) (effects : list listed_ref) (X : option (frame R)) (scale : R)
  : effect_heap * res (list fitted_ref) :=
  let '(h, r) := fit_listed_ref h X scale effects in
  match r, X with
  | Err ex, _ => (h, Err ex)
  | Ok fitted, None => (h, Ok fitted)
  | Ok fitted, Some X =>
      match uncovered_ref (f_cols X) fitted with
      | [] => (h, Ok fitted)
      | features =>
          match select_columns 0%R X features with
          | Err ex => (h, Err ex)
          | Ok XC =>
              let '(h, a) := match default with None => alloc h default_linear | Some a => (h, a) end in
              let '(h, a) := clone_cell h a in
              let '(h, err) := fit_cell h a (Some XC) scale in
              (h, match err with Some ex => Err ex | None => Ok (fitted ++ [(default_name, a, features)])%list end)
          end
      end
  end.
End Effects.

(** * Several forecasters *)
Section World.
Variable ns_of : Z -> Z.
Variable order : list string -> list string.
Variable keep : path -> bool.
Context {TS : Type}.
Variable tr_fit_transform : TS -> frame R -> TS * res (frame R).
Variable tr_transform : TS -> frame R -> res (frame R).
Context {P : Type}.
Variable svi_run : Z -> nat -> nat -> prog arr -> res (list xr * P).
Variable nuts_run : Z -> nat -> nat -> nat -> prog arr -> res (nat -> nat -> env).
Variable latent_sites : prog arr -> list string.
Variable guide_draw : P -> Z -> nat -> prog arr -> env.
Variable complete_draw : env -> Z -> nat -> prog arr -> env.

(** A forecaster.  [m_trend] is the address of the object given as [trend]; [m_own] is the trend model
    made from a name; [m_y], [m_X] and [m_fitted] are as in [state]. *)
Record member := mkMember {
  m_config : config;
  m_trend : option nat;
  m_transformer : option nat;
  m_own : trend;
  m_y : frame R; m_X : option (frame R); m_fitted : option (fitted (P := P)) }.
Record world := mkWorld { w_trends : nat -> trend; w_transformers : nat -> TS; w_members : nat -> member }.

(** the objects a forecaster uses *)
Definition view (w : world) (m : member) : state :=
  mkState (mkObjects (match m_trend m with None => m_own m | Some a => w_trends w a end)
                     (option_map (w_transformers w) (m_transformer m)))
          (m_y m) (m_X m) (m_fitted m).

Definition upd {A} (f : nat -> A) (a : nat) (v : A) : nat -> A := fun b => if Nat.eqb b a then v else f b.

(** one call to forecaster [i]; the objects it uses are changed in place *)
Definition world_step (w : world) (i : nat) (cl : call) : world * res output :=
  let m := w_members w i in
  let '(st, r) := step ns_of order keep tr_fit_transform tr_transform svi_run nuts_run latent_sites guide_draw complete_draw
                       (m_config m) (view w m) cl in
  let ob := st_objects st in
  (mkWorld (match m_trend m with None => w_trends w | Some a => upd (w_trends w) a (o_trend ob) end)
           (match m_transformer m, o_transformer ob with Some a, Some t => upd (w_transformers w) a t | _, _ => w_transformers w end)
           (upd (w_members w) i (mkMember (m_config m) (m_trend m) (m_transformer m) (match m_trend m with None => o_trend ob | Some _ => m_own m end)
                                          (st_y st) (st_X st) (st_fitted st))),
   r).
Definition world_calls (w : world) (cs : list (nat * call)) : world := fold_left (fun w ic => fst (world_step w (fst ic) (snd ic))) cs w.
End World.
