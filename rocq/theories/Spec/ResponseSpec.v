(** What a component of a forecast says about the columns of its effect. *)
From Coq Require Import Reals ZArith String Bool List Sorted Permutation.
From Verif.Model Require Import Base Num Frame Aggregate Arr Prog Effect Forecaster.
From Verif.Spec Require Import RegexSpec FrameSpec ForecasterSpec.
Import ListNotations.
Local Open Scope string_scope.

(** additive effects are what they are, multiplicative effects are relative to the trend *)
Definition modal (m : mode) (trend u : R) : R := match m with Additive => u | Multiplicative => (trend * u)%R end.
Definition mode_named (s : string) (m : mode) : Prop := s = match m with Additive => "additive" | Multiplicative => "multiplicative" end.

(** [hs] lists the harmonics (period, multiple) that were asked for: every period with its multiples 1 .. number of
    terms, where of several ones with the same frequency only one is kept; the multiples of a period increase *)
Definition harmonics (periods : list R) (terms : list nat) (hs : list (R * nat)) : Prop :=
  (forall p k, In (p, k) hs -> exists n, In (p, n) (combine periods terms) /\ 1 <= k <= n) /\
  (forall p n k, In (p, n) (combine periods terms) -> 1 <= k <= n -> exists q l, In (q, l) hs /\ (INR l / q = INR k / p)%R) /\
  ForallOrdPairs (fun h h' => (INR (snd h) / fst h <> INR (snd h') / fst h')%R /\ (fst h = fst h' -> snd h < snd h')) hs.

(** sine and cosine of every harmonic *)
Definition waves (hs : list (R * nat)) (t : Z) : list R :=
  flat_map (fun h => [sin (2 * PI * INR (snd h) * IZR t / fst h); cos (2 * PI * INR (snd h) * IZR t / fst h)]%R) hs.

(** the sum of inputs times coefficients 0, 1, ... *)
Fixpoint weighted (x : list R) (coef : nat -> R) : R :=
  match x with [] => 0 | u :: x => (u * coef 0%nat + weighted x (fun k => coef (S k)))%R end.

Section Answers.
(** values of all parameters, the name of the effect, and the numbers of the coefficients of the waves: 0, 1, ... for one
    series *)
Variables (e : env) (name : string) (place : nat -> nat).
Definition parameter (p : string) (k : nat) : R := e (name ++ "/" ++ p) k.

(** [v] is the component of the effect, at a date [t] steps after the first training date with the values [x] in the
    columns of the effect and [trend] as trend *)
Fixpoint answers (ef : effect) (x : list R) (t : Z) (trend v : R) : Prop :=
  match ef with
  | Linear m _ _ => v = modal m trend (weighted x (parameter "coefs"))
  | Log m _ _ _ => exists u, x = [u] /\ v = modal m trend (parameter "log_scale" 0 * ln (Rmax (1 / 100000000) (parameter "log_rate" 0 * u + 1)))%R
  | Hill m _ _ _ _ => exists u, x = [u] /\
      ((0 < u)%R -> (0 < parameter "half_max" 0)%R -> v = modal m trend (parameter "max_effect" 0 / (1 + Rpower (u / parameter "half_max" 0) (- parameter "slope" 0)))%R) /\
      (u = 0%R -> v = modal m trend (parameter "max_effect" 0))
  | Lift inner _ _ _ _ => answers inner x t trend v
  | Fourier periods terms _ arg _ _ _ _ => exists m hs, mode_named arg m /\ harmonics periods terms hs /\ v = modal m trend (weighted (waves hs t) (fun k => parameter "coefs" (place k)))
  end.

(** the priors of the parameters; [k] is the number of columns, [n] the number of series *)
Definition has_prior (tr : trace) (p : string) (d : distr) (sh : list nat) : Prop :=
  exists v, dict_get tr (name ++ "/" ++ p) = Some (SSample d v false) /\ a_shape v = sh /\ forall i, i < prod_shape sh -> nth_error (a_flat v) i = Some (parameter p i).
Fixpoint priors (n : nat) (ef : effect) (tr : trace) (k : nat) : Prop :=
  match ef with
  | Linear _ d _ => has_prior tr "coefs" d [k]
  | Log _ d r _ => has_prior tr "log_scale" d [] /\ has_prior tr "log_rate" r []
  | Hill _ h s m _ => has_prior tr "half_max" h [] /\ has_prior tr "slope" s [] /\ has_prior tr "max_effect" m []
  | Lift inner _ _ _ _ => priors n inner tr k
  | Fourier periods terms sigma _ _ _ _ _ => exists hs, harmonics periods terms hs /\ has_prior tr "coefs" (DNormal (scalar 0) (scalar sigma)) [2 * List.length hs * n]
  end.
End Answers.

(** the values of the columns [cols] in the row [r] *)
Definition values_at (X : frame R) (r : row R) (cols : list string) (x : list R) : Prop :=
  map (value_of (f_cols X) (r_vals r)) cols = map Some x.

(** what a forecast of one series is given: without exogenous data a table without columns *)
Definition supplied (X : option (frame R)) (ts : list Z) : frame R :=
  match X with Some X => X | None => mkFrame 0 [] (map (fun t => mkRow [] t []) ts) end.

(** the first date *)
Definition first_date (ds : list Z) (t0 : Z) : Prop := In t0 ds /\ forall t, In t ds -> (t0 <= t)%Z.

(** [ef] is an effect of the configuration, under the name [name]; the default effect, which takes the columns that no
    listed effect takes, is additive and linear with standard normal coefficients *)
Definition configured (c : config) (name : string) (ef : effect) : Prop :=
  (exists effects regex, c_effects c = Some effects /\ In (name, ef, regex) effects) \/
  (name = "exogenous_variables_effect" /\
   (c_default c = Some ef \/ c_default c = None /\ ef = Linear Additive (DNormal (scalar 0) (scalar 1)) base_init)).

(** ** Panels *)
(** Columns which are not shared exist once for every series of [ids]; such a copy is zero in the rows of the other series.
    [u] is the value of the (shared or copied) column [col] in the row [r]. *)
Definition seen (shared : list string) (ids : list path) (X : frame R) (r : row R) (col : string) (u : R) : Prop :=
  (In col (f_cols X) /\ In col shared /\ value_of (f_cols X) (r_vals r) col = Some u) \/
  (exists c q, In c (f_cols X) /\ ~ In c shared /\ In q ids /\ col = c ++ "_dup_" ++ String.concat "-" q /\
     ((q = r_path r /\ value_of (f_cols X) (r_vals r) c = Some u) \/ (q <> r_path r /\ u = 0%R))).
(** the dates of one series *)
Definition dates (X : frame R) (p : path) : list Z := map r_time (filter (fun r => if list_eq_dec string_dec (r_path r) p then true else false) (f_rows X)).
(** columns that can be copied for the series [ids]: their names are regular expressions which match themselves, what is
    not shared does not begin the name of what is shared, and names of copies are new *)
Definition copyable (shared cols : list string) (ids : list path) : Prop :=
  NoDup cols /\ Forall literal cols /\
  (forall c s, In c cols -> ~ In c shared -> In s cols -> In s shared -> String.prefix c s = false) /\
  (forall c i c' i', In c cols -> In c' cols -> In i ids -> In i' ids -> c ++ "_dup_" ++ String.concat "-" i = c' ++ "_dup_" ++ String.concat "-" i' -> c = c' /\ i = i') /\
  (forall c i, In c cols -> In i ids -> ~ In (c ++ "_dup_" ++ String.concat "-" i) cols).
(** the waves of a seasonality are numbered by [sigma] *)
Definition numbering (ef : effect) (sigma : nat -> nat) : Prop :=
  match ef with
  | Fourier periods terms _ _ _ _ _ _ => exists hs, harmonics periods terms hs /\ Permutation (map sigma (seq 0 (2 * List.length hs))) (seq 0 (2 * List.length hs))
  | _ => True
  end.
(** series that are not totals *)
Definition bottom_series (X : frame R) : list path := filter (fun p => negb (String.eqb (last p "") "__total")) (series_ids X).

(** ** docs/the-theory.md, "Seasonality": K terms for the period P *)
Definition documented (K : nat) (P : R) (a b : nat -> R) (t : R) : R :=
  Rsum (map (fun k => a k * cos (2 * PI * INR k * t / P) + b k * sin (2 * PI * INR k * t / P))%R (seq 1 K)).

(** ** what a panel is given *)
(** a table without columns *)
Definition blank (levels : nat) (ls : list (path * Z)) : frame R := mkFrame levels [] (map (fun pt => mkRow (fst pt) (snd pt) []) ls).
Definition sorted_labels (ls : list (path * Z)) : Prop := StronglySorted (fun a b => label_leb a b = true) ls.
(** a panel of series without rows of totals *)
Definition bare_panel (y : frame R) : Prop := f_levels y <> 0%nat /\ f_rows y <> [] /\ frame_wf y /\ forall r, In r (f_rows y) -> ~ In "__total" (r_path r).
(** the combinations of the values of the levels of [y], in order *)
Definition ordered_crossing (y : frame R) (ids : list path) : Prop :=
  NoDup ids /\ StronglySorted (fun p q => label_leb (p, 0%Z) (q, 0%Z) = true) ids /\
  forall p, In p ids <-> List.length p = f_levels y /\ forall i, (i < f_levels y)%nat -> exists r, In r (f_rows y) /\ nth i (r_path r) "" = nth i p "".
(** [B] is the bottom of the exogenous data or, if there are no exogenous columns, a table without columns: for the
    labels of the target, and for every combination of the values of its levels with every date of the forecast *)
Definition with_columns (X : option (frame R)) (B : frame R) : Prop := exists Z, X = Some Z /\ f_cols Z <> [] /\ loc_bottom_series Z = Ok B.
Definition without_columns (X : option (frame R)) : Prop := forall Z, X = Some Z -> f_cols Z = [].
Definition given_training (X : option (frame R)) (y B : frame R) : Prop :=
  with_columns X B \/ without_columns X /\ bare_panel y /\ exists ls, Permutation ls (labels y) /\ sorted_labels ls /\ B = blank (f_levels y) ls.
Definition given_forecast (X : option (frame R)) (y : frame R) (ts : list Z) (B : frame R) : Prop :=
  with_columns X B \/ without_columns X /\ bare_panel y /\ exists ids, ordered_crossing y ids /\ B = blank (f_levels y) (flat_map (fun p => map (fun t => (p, t)) ts) ids).
