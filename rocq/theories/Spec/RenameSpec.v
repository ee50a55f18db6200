(** Other names for the effects of a forecaster. *)
From Coq Require Import Reals String Ascii Bool ZArith List.
From Verif.Model Require Import Base Num XFloat Regex Frame Arr Prog Likelihood Effect Trend TrendProg Engine Predict Forecaster.
From Verif.Spec Require Import ProgSpec ForecasterSpec SiteSpec ShiftSpec.
Import ListNotations.
Local Open Scope string_scope.

(** Different names get different names, names without a slash get such names, and names the library chooses (its sites
    and the default effect) are kept. *)
Definition renaming (rho : string -> string) : Prop :=
  (forall a b, rho a = rho b -> a = b) /\ (forall a, no_slash a = true -> no_slash (rho a) = true) /\
  (forall a, In a (reserved ++ trend_sites ++ [default_name])%list -> rho a = a).

(** the part of a name before the first slash, and the rest *)
Fixpoint cut (s : string) : string * string :=
  match s with
  | EmptyString => (EmptyString, EmptyString)
  | String c tl => if Ascii.eqb c "/"%char then (EmptyString, s) else (String c (fst (cut tl)), snd (cut tl))
  end.
(** sites of the effect "a" are "a" and "a/..." *)
Definition site_name (rho : string -> string) (s : string) : string := rho (fst (cut s)) ++ snd (cut s).

(** a program with other names of sites *)
Fixpoint rename_sites {A} (sigma : string -> string) (m : prog A) : prog A :=
  match m with
  | Ret a => Ret a
  | Raise e => Raise e
  | Sample n d sh o k => Sample (sigma n) d sh o (fun v => rename_sites sigma (k v))
  | Det n v k => Det (sigma n) v (rename_sites sigma k)
  | Plate n s k => Plate (sigma n) s (rename_sites sigma k)
  end.

Definition rename_keys {V} (sigma : string -> string) (d : dict V) : dict V := map (fun kv => (sigma (fst kv), snd kv)) d.
Definition rename_listed (rho : string -> string) (l : listed) : listed := (rho (l_name l), l_effect l, l_regex l).
Definition rename_fitted (rho : string -> string) (f : fitted_effect) : fitted_effect := (rho (fe_name f), fe_effect f, fe_cols f).
Definition rename_prepared (rho : string -> string) (p : prepared) : prepared :=
  mkPrepared (p_index p) (map (rename_fitted rho) (p_fitted p)) (rename_keys rho (p_effects p)) (p_has_exogenous p) (p_expander p) (p_single p).

(** the same values under the new names *)
Definition same_values (sigma : string -> string) (e e' : env) : Prop := forall n j, e' (sigma n) j = e n j.

(** a table with other column labels *)
Definition rename_columns (sigma : string -> string) (X : frame R) : frame R := mkFrame (f_levels X) (map sigma (f_cols X)) (f_rows X).

Section Draws.
Context {P : Type}.
Variable guide_draw : P -> Z -> nat -> prog arr -> env.
Variable complete_draw : env -> Z -> nat -> prog arr -> env.
(** Two posteriors, one for each set of names: every draw for a program [m] has the same values under the new names. *)
Definition draws_match (sigma : string -> string) (a : engine_args) (i i' : inferred P) (m : prog arr) : Prop :=
  latent_of i' = map sigma (latent_of i) /\
  Forall2 (same_values sigma) (draws guide_draw complete_draw a i m) (draws guide_draw complete_draw a i' (rename_sites sigma m)).
End Draws.
