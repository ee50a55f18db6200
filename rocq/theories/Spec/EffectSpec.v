(** Specification vocabulary for effects. *)
From Coq Require Import Reals String Bool ZArith List.
From Verif.Model Require Import Base Num Frame Arr Prog Effect.
From Verif.Spec Require Import FrameSpec ProgSpec.
Import ListNotations.
Local Open Scope string_scope.

(** an effect as returned by its constructor *)
Inductive constructed : effect -> Prop :=
| c_linear m p e : mk_linear m p = Ok e -> constructed e
| c_log m p q e : mk_log m p q = Ok e -> constructed e
| c_hill m p q r e : mk_hill m p q r = Ok e -> constructed e
| c_lift i t s e : mk_lift i t s = Ok e -> constructed e
| c_fourier sp n s m : constructed (mk_fourier sp n s m).

Definition is_fourier (e : effect) : bool := match e with Fourier _ _ _ _ _ _ _ _ => true | _ => false end.

(** the wrapped effects of a lift experiment, and the effect itself, contain no seasonality *)
Fixpoint no_fourier (e : effect) : bool :=
  match e with Fourier _ _ _ _ _ _ _ _ => false | Lift i _ _ _ _ => no_fourier i | _ => true end.

(** What an effect with columns [cols] may look at: for every row of the horizon its label and the
    values of these columns, in this order; [None] if a column is missing. *)
Definition seen {V} (cols : list string) (fh : list Z) (X : frame V) : option (list (path * Z * list (option V))) :=
  if forallb (fun c => str_in c (f_cols X)) cols then
    Some (map (fun r => (r_path r, r_time r, map (value_of (f_cols X) (r_vals r)) cols))
              (filter (fun r => if in_dec Z.eq_dec (r_time r) fh then true else false) (f_rows X)))
  else None.

(** the trend as the effects use it: a column for one dimensional trends *)
Definition trend_column (t : arr) : arr := if Nat.eqb (List.length (a_shape t)) 1 then mkArr [List.length (a_flat t); 1] (a_flat t) else t.

(** inner product *)
Definition weighted_sum (row coefs : list R) : R := Rsum (map (fun xc => (fst xc * snd xc)%R) (combine row coefs)).

(** all sites of a program run, in order *)
Fixpoint sites {A} (e : env) (p : prog A) : list (string * site) :=
  match p with
  | Ret _ | Raise _ => []
  | Sample n d sh o k =>
      (n, SSample d (site_value e n sh o) (match o with Some _ => true | None => false end)) :: sites e (k (site_value e n sh o))
  | Det n v k => (n, SDet v) :: sites e k
  | Plate n s k => (n, SPlate s) :: sites e k
  end.

(** the meaning of [numpyro.handlers.mask]: masked entries do not count; [lp loc scale x] is the log
    density of a normal distribution *)
Definition masked_normal (lp : R -> R -> R -> R) (logpdf : distr -> arr -> R) : Prop :=
  forall mask loc s v, List.length (a_flat loc) = List.length mask -> List.length (a_flat s) = List.length mask ->
    List.length (a_flat v) = List.length mask ->
    logpdf (DMasked mask (DNormal loc s)) v =
    Rsum (map (fun i => if nth i mask false then lp (entry loc i) (entry s i) (entry v i) else 0%R) (seq 0 (List.length mask))).

(** the recorded lift of a date *)
Definition lift_on (table : list (Z * option R)) (t : Z) (l : R) : Prop :=
  exists pre post, table = (pre ++ (t, Some l) :: post)%list /\ ~ In t (map fst pre).

(** rows of the horizon *)
Definition horizon_rows {V} (fh : list Z) (X : frame V) : list (row V) :=
  filter (fun r => if in_dec Z.eq_dec (r_time r) fh then true else false) (f_rows X).

(** [p] is a multiple of every period *)
Definition common_period (sp_list : list R) (p : Z) : Prop :=
  forall s, In s sp_list -> exists m : Z, IZR p = (IZR m * s)%R.

(** The rows an array is made of, in the order of the array: the rows of the horizon, series after
    series (series in the order of their first row). *)
Definition array_rows {V} (fh : list Z) (X : frame V) : list (row V) :=
  match f_levels X with
  | 0 => horizon_rows fh X
  | _ => flat_map (fun p => filter (fun r => path_eqb (r_path r) p) (horizon_rows fh X))
                  (paths_unique (map r_path (horizon_rows fh X)))
  end.
