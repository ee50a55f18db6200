(** Exogenous columns in other units. *)
From Coq Require Import Reals String Bool List.
From Verif.Model Require Import Base Num Frame Arr Prog Effect Forecaster.
Import ListNotations.
Local Open Scope string_scope.

(** [k n] new units make one old unit of column [n] *)
Definition scale_vals (ks vs : list R) : list R := map (fun kv => fst kv * snd kv)%R (combine ks vs).
Definition in_units (k : string -> R) (X : frame R) : frame R :=
  mkFrame (f_levels X) (f_cols X) (map (fun r => mkRow (r_path r) (r_time r) (scale_vals (map k (f_cols X)) (r_vals r))) (f_rows X)).

(** the copies which the hierarchical forecaster makes of a column have its unit *)
Definition copies_alike (k : string -> R) : Prop := forall c i, k (c ++ "_dup_" ++ String.concat "-" i) = k c.

(** the parameter of an effect that has a unit *)
Fixpoint unit_site (ef : effect) : option string :=
  match ef with
  | Linear _ _ _ => Some "coefs"
  | Log _ _ _ _ => Some "log_rate"
  | Hill _ _ _ _ _ => Some "half_max"
  | Lift inner _ _ _ _ => unit_site inner
  | Fourier _ _ _ _ _ _ _ _ => None
  end.
(** its value in the new units: coefficients and rates are per unit of the column, [half_max] is in units *)
Fixpoint converted (k : string -> R) (ef : effect) (cols : list string) (j : nat) (v : R) : R :=
  match ef with
  | Linear _ _ _ => (v / k (nth j cols ""))%R
  | Log _ _ _ _ => (v / k (hd "" cols))%R
  | Hill _ _ _ _ _ => (v * k (hd "" cols))%R
  | Lift inner _ _ _ _ => converted k inner cols j v
  | Fourier _ _ _ _ _ _ _ _ => v
  end.
(** one parameter for all columns requires one unit *)
Fixpoint one_unit (k : string -> R) (ef : effect) (cols : list string) : Prop :=
  match ef with
  | Log _ _ _ _ | Hill _ _ _ _ _ => forall c, In c cols -> k c = k (hd "" cols)
  | Lift inner _ _ _ _ => one_unit k inner cols
  | Linear _ _ _ | Fourier _ _ _ _ _ _ _ _ => True
  end.
Definition units_fit (k : string -> R) (effs : dict effect) : Prop :=
  (forall c, k c <> 0%R) /\ forall name ef cols, In (name, ef) effs -> input_feature_column_names ef = Ok cols -> one_unit k ef cols.

(** [n] is a parameter with a unit *)
Definition has_unit (effs : dict effect) (n : string) : Prop :=
  exists name ef x, In (name, ef) effs /\ unit_site ef = Some x /\ n = name ++ "/" ++ x.
(** the values of [e] in the new units *)
Definition convert (k : string -> R) (effs : dict effect) (e : env) : env := fun n j =>
  match find (fun ne => match unit_site (snd ne) with Some x => String.eqb n (fst ne ++ "/" ++ x) | None => false end) effs with
  | Some (_, ef) => match input_feature_column_names ef with Ok cols => converted k ef cols j (e n j) | Err _ => e n j end
  | None => e n j
  end.
Definition converts (k : string -> R) (effs : dict effect) (e e' : env) : Prop :=
  (forall name ef cols x, In (name, ef) effs -> input_feature_column_names ef = Ok cols -> unit_site ef = Some x ->
     forall j, e' (name ++ "/" ++ x) j = converted k ef cols j (e (name ++ "/" ++ x) j)) /\
  (forall n, ~ has_unit effs n -> forall j, e' n j = e n j).

(** two recorded sites: the same but for the values drawn where [moved] *)
Definition same_site (moved : string -> Prop) (a b : string * site) : Prop :=
  fst a = fst b /\
  match snd a, snd b with
  | SSample d v o, SSample d' v' o' => d = d' /\ o = o' /\ a_shape v = a_shape v' /\ (~ moved (fst a) -> v = v')
  | s, s' => s = s'
  end.
Definition same_run (moved : string -> Prop) (tr tr' : trace) : Prop := Forall2 (same_site moved) tr tr'.

(** whatever values the parameters take: [m'] with these values in the new units returns what [m] returns, and records
    the same sites with the same distributions, observations and values, but for the parameters with a unit *)
Definition same_programs (k : string -> R) (effs : dict effect) (m m' : prog arr) : Prop :=
  forall e o tr, run e [] m = Ok (o, tr) -> exists tr', run (convert k effs e) [] m' = Ok (o, tr') /\ same_run (has_unit effs) tr tr'.
