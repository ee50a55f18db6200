(** sktime/base.py:891-967 [_fit_effects] with the warnings it issues (lines 922-931).  [Forecaster.fit_effects] is the
    same function without warnings.  A warning is issued after its effect has been fitted; turning warnings into
    errors is not modelled.  The columns of [AlreadySet] are a Python set, so their order means nothing. *)
From Coq Require Import Reals String List.
From Verif.Model Require Import Base Num Regex Frame Effect Forecaster.
Import ListNotations.

Inductive warning :=
| AlreadySet (columns : list string)      (* "Columns {...} are already set" *)
| NoMatch (regex : option string).        (* "No columns match the regex ..." *)

Section Warn.
Variable order : list string -> list string.

(** base.py:905-935: the loop over [exogenous_effects]; [used] is [columns_with_effects] *)
Fixpoint fit_listed (X : option (frame R)) (scale : R) (used : list string) (effects : list listed)
  : list warning * res (list fitted_effect) :=
  match effects with
  | [] => ([], Ok [])
  | l :: tl =>
      match fit_one order X scale l with
      | Err e => ([], Err e)
      | Ok f =>
          let columns := snd f in
          let common := filter (fun c => str_in c used) columns in
          let already := match common with [] => [] | _ => [AlreadySet common] end in
          let none := match columns with [] => [NoMatch (snd l)] | _ => [] end in
          let '(ws, r) := fit_listed X scale (used ++ columns) tl in
          (already ++ none ++ ws, fs <- r ;; Ok (f :: fs))
      end
  end.

(** base.py:937-967: the default effect gives no warning *)
Definition fit_effects_warn (default : option effect) (effects : list listed) (X : option (frame R)) (scale : R)
  : list warning * res (list fitted_effect) :=
  let '(ws, r) := fit_listed X scale [] effects in
  (ws,
   fitted <- r ;;
   match X with
   | None => Ok fitted
   | Some X =>
       match uncovered (f_cols X) fitted with
       | [] => Ok fitted
       | features =>
           let e := match default with None => default_linear | Some e => e end in
           XC <- select_columns 0%R X features ;;
           let '(e', err) := fit order (clone e) (Some XC) scale in
           match err with Some ex => Err ex | None => Ok (fitted ++ [(default_name, e', features)]) end
       end
   end).
End Warn.
