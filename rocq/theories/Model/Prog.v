(** Numpyro programs.  A model function runs under effect handlers; what it can do is sample, record
    a deterministic value, open a plate, or raise.  Programs are trees of such actions, so they can
    neither inspect the trace nor the values of other sites. *)
From Coq Require Import Reals String Bool List.
From Verif.Model Require Import Base Num Arr.
Import ListNotations.
Local Open Scope string_scope.

(** Distributions by their parameters.  [DUser] is a prior given by the user (opaque). *)
Inductive distr :=
| DNormal (loc scale : arr)
| DLaplace (loc scale : arr)
| DHalfNormal (scale : arr)
| DGamma (concentration rate : arr)
| DNegBinomial2 (mean concentration : arr)
| DLKJCholesky (dimension : nat) (concentration : R)
| DMvNormal (loc scale_tril : arr)
| DMasked (mask : list bool) (d : distr)  (* [numpyro.handlers.mask]: only entries marked true count *)
| DShifted (d : distr) (loc : R)          (* [TransformedDistribution(d, AffineTransform(loc, 1))] *)
| DUser (id : nat).

(** What is recorded under a site name. *)
Inductive site :=
| SSample (d : distr) (value : arr) (observed : bool)
| SDet (value : arr)
| SPlate (size : nat).

(** Sites in order of first recording; recording an existing name replaces the entry. *)
Definition trace := dict site.

(** Values of latent sites: name and position in the flattened array. *)
Definition env := string -> nat -> R.

Inductive prog (A : Type) : Type :=
| Ret (a : A)
| Raise (e : exn)
| Sample (name : string) (d : distr) (sh : list nat) (obs : option arr) (k : arr -> prog A)
| Det (name : string) (v : arr) (k : prog A)
| Plate (name : string) (size : nat) (k : prog A).
Arguments Ret {A} a.
Arguments Raise {A} e.
Arguments Sample {A} name d sh obs k.
Arguments Det {A} name v k.
Arguments Plate {A} name size k.

Fixpoint pbind {A B} (p : prog A) (f : A -> prog B) : prog B :=
  match p with
  | Ret a => f a
  | Raise e => Raise e
  | Sample n d sh o k => Sample n d sh o (fun v => pbind (k v) f)
  | Det n v k => Det n v (pbind k f)
  | Plate n s k => Plate n s (pbind k f)
  end.

Notation "x <~ m ;; k" := (pbind m (fun x => k)) (at level 61, m at next level, right associativity).

Definition lift_res {A} (m : res A) : prog A := match m with Ok a => Ret a | Err e => Raise e end.

(** [numpyro.sample(name, d)], [numpyro.deterministic(name, v)], [with numpyro.plate(name, size)].
    [sh] is the shape of the value (from distribution and plates). *)
Definition sample (name : string) (d : distr) (sh : list nat) : prog arr := Sample name d sh None Ret.
Definition observe (name : string) (d : distr) (sh : list nat) (obs : option arr) : prog arr :=
  Sample name d sh obs Ret.
Definition deterministic (name : string) (v : arr) : prog arr := Det name v (Ret v).
Definition plate (name : string) (size : nat) : prog unit := Plate name size (Ret tt).

(** [with numpyro.handlers.scope(prefix=p)]: all names (of plates too) get the prefix "p/". *)
Fixpoint scope {A} (p : string) (m : prog A) : prog A :=
  match m with
  | Ret a => Ret a
  | Raise e => Raise e
  | Sample n d sh o k => Sample (p ++ "/" ++ n) d sh o (fun v => scope p (k v))
  | Det n v k => Det (p ++ "/" ++ n) v (scope p k)
  | Plate n s k => Plate (p ++ "/" ++ n) s (scope p k)
  end.

(** numpyro's trace handler: a sample site must have a new name; other sites overwrite. *)
Definition record (tr : trace) (n : string) (s : site) : res trace :=
  match s, dict_get tr n with
  | SSample _ _ _, Some _ => Err AssertionError
  | _, _ => Ok (dict_set tr n s)
  end.

(** value of a sample statement: the observation if there is one *)
Definition site_value (e : env) (n : string) (sh : list nat) (obs : option arr) : arr :=
  match obs with Some y => y | None => mkArr sh (map (e n) (seq 0 (prod_shape sh))) end.

(** Running a program under the trace handler with given latent values. *)
Fixpoint run {A} (e : env) (tr : trace) (p : prog A) : res (A * trace) :=
  match p with
  | Ret a => Ok (a, tr)
  | Raise x => Err x
  | Sample n d sh o k =>
      let v := site_value e n sh o in
      tr' <- record tr n (SSample d v (match o with Some _ => true | None => false end)) ;;
      run e tr' (k v)
  | Det n v k => tr' <- record tr n (SDet v) ;; run e tr' k
  | Plate n s k => tr' <- record tr n (SPlate s) ;; run e tr' k
  end.

(** Log density of a trace, for given log densities of the distributions. *)
Definition log_joint (logpdf : distr -> arr -> R) (tr : trace) : R :=
  Rsum (map (fun ns => match snd ns with SSample d v _ => logpdf d v | _ => 0%R end) tr).

(** [numpyro.infer.Predictive] returns the values of all sample sites without a value in the posterior
    ([latent] are the names of those which have one) and of the deterministic sites. *)
Definition predictive_values (latent : list string) (tr : trace) : dict arr :=
  flat_map (fun ns => match snd ns with
                      | SSample _ v _ => if str_in (fst ns) latent then [] else [(fst ns, v)]
                      | SDet v => [(fst ns, v)]
                      | SPlate _ => []
                      end) tr.
