(** Specification vocabulary for numpyro programs: a semantics without traces. *)
From Coq Require Import Reals String Ascii Bool List.
From Verif.Model Require Import Base Num Arr Prog Likelihood.
Import ListNotations.
Local Open Scope string_scope.

(** [yields e p v]: with latent values [e], program [p] returns [v] (ignoring name clashes). *)
Inductive yields {A} (e : env) : prog A -> A -> Prop :=
| y_ret a : yields e (Ret a) a
| y_sample n d sh k v : yields e (k (mkArr sh (map (e n) (seq 0 (prod_shape sh))))) v ->
    yields e (Sample n d sh None k) v
| y_observe n d sh y k v : yields e (k y) v -> yields e (Sample n d sh (Some y) k) v
| y_det n x k v : yields e k v -> yields e (Det n x k) v
| y_plate n s k v : yields e k v -> yields e (Plate n s k) v.

(** the latent values an effect called [name] sees *)
Definition own_env (e : env) (name : string) : env := fun n => e (name ++ "/" ++ n).

(** [uses e p n]: executing [p] touches a site named [n] *)
Inductive uses {A} (e : env) : prog A -> string -> Prop :=
| u_sample n d sh o k : uses e (Sample n d sh o k) n
| u_sample_k n d sh o k m : uses e (k (site_value e n sh o)) m -> uses e (Sample n d sh o k) m
| u_det n x k : uses e (Det n x k) n
| u_det_k n x k m : uses e k m -> uses e (Det n x k) m
| u_plate n s k : uses e (Plate n s k) n
| u_plate_k n s k m : uses e k m -> uses e (Plate n s k) m.

(** entry k of a flattened array *)
Definition entry (a : arr) (k : nat) : R := nth k (a_flat a) 0%R.

Fixpoint no_slash (s : string) : bool :=
  match s with
  | EmptyString => true
  | String c tl => (negb (Ascii.eqb c "/"%char) && no_slash tl)%bool
  end.

(** parameters of a distribution are in its domain *)
Definition all_positive (a : arr) : Prop := forall x, In x (a_flat a) -> (0 < x)%R.
Fixpoint valid_distr (d : distr) : Prop :=
  match d with
  | DNormal loc s | DLaplace loc s => a_shape loc = a_shape s /\ length (a_flat loc) = length (a_flat s) /\ all_positive s
  | DHalfNormal s => all_positive s
  | DGamma a b | DNegBinomial2 a b =>
      a_shape a = a_shape b /\ length (a_flat a) = length (a_flat b) /\ all_positive a /\ all_positive b
  | DLKJCholesky n c => 1 < n /\ (0 < c)%R
  | DMasked _ d | DShifted d _ => valid_distr d
  | DMvNormal _ _ | DUser _ => True
  end.

(** mean and variance of a gamma distribution *)
Definition gamma_mean (concentration rate : R) : R := (concentration / rate)%R.
Definition gamma_var (concentration rate : R) : R := (concentration / (rate * rate))%R.
(** mean and variance of a negative binomial in numpyro's (mean, concentration) form *)
Definition nb2_mean (mean concentration : R) : R := mean.
Definition nb2_var (mean concentration : R) : R := (mean + mean * mean / concentration)%R.

(** names of the sites touched, in order of execution *)
Fixpoint actions {A} (e : env) (p : prog A) : list string :=
  match p with
  | Ret _ | Raise _ => []
  | Sample n d sh o k => n :: actions e (k (site_value e n sh o))
  | Det n v k => n :: actions e k
  | Plate n s k => n :: actions e k
  end.

(** an effect which looks at earlier components only through the trend *)
Definition trend_only {D} (eff : effect_fn D) : Prop :=
  forall d pe pe', dict_get pe "trend" = dict_get pe' "trend" -> eff d pe = eff d pe'.

(** location and scale parameters of an observation distribution *)
Definition obs_distr (tr : trace) (d : distr) : Prop := exists v b, dict_get tr "obs" = Some (SSample d v b).

(** batch shape of the univariate distributions *)
Definition batch_shape (d : distr) : list nat :=
  match d with
  | DNormal a _ | DLaplace a _ | DHalfNormal a | DGamma a _ | DNegBinomial2 a _ => a_shape a
  | _ => []
  end.

(** covariance of a multivariate normal given by the factor m: the matrix m m' *)
Definition mvn_cov (m : nat -> nat -> R) (n i j : nat) : R := Rsum (map (fun k => (m i k * m j k)%R) (seq 0 n)).

(** [additive_mean e trend data effs t vs m]: [t] is the value of the trend, [vs] are the values of
    the effects, each computed from its own data, its own parameters, the trend and the effects
    before it, and [m] is their sum, entry by entry. *)
Definition additive_mean {D} (e : env) (trend : prog arr) (data : dict D) (effs : dict (effect_fn D))
  (t : arr) (vs : list arr) (m : arr) : Prop :=
  yields e trend t /\ List.length vs = List.length effs /\
  (forall i name eff, nth_error effs i = Some (name, eff) ->
     exists d v, dict_get data name = Some d /\ nth_error vs i = Some v /\
       yields (own_env e name) (eff d (("trend", t) :: combine (firstn i (map fst effs)) (firstn i vs))) v) /\
  a_shape m = a_shape t /\ (forall v, In v vs -> a_shape v = a_shape t) /\
  (arr_wf t -> Forall arr_wf vs -> arr_wf m) /\
  forall k, k < List.length (a_flat m) -> entry m k = (entry t k + Rsum (map (fun v => entry v k) vs))%R.

(** names used by the model functions themselves *)
Definition reserved : list string := ["trend"; "noise_scale"; "data"; "obs"; "std_observation"; "corr_matrix"; "time"].

(** the names of the trend's sites do not clash with the model's, nor with the effects' names *)
Definition clean_trend e (trend : prog arr) :=
  NoDup (actions e trend) /\ forall n, In n (actions e trend) -> no_slash n = true /\ ~ In n reserved.
Definition clean_names {D} e (trend : prog arr) (effs : dict (effect_fn D)) :=
  NoDup (map fst effs) /\ forall n, In n (map fst effs) -> no_slash n = true /\ ~ In n reserved /\ ~ In n (actions e trend).
