(** Construction of the forecasters and the optimiser: the [__init__] methods of sktime/base.py:69-94 and
    818-862, sktime/univariate.py:150-204, 497-543, 625-671, 753-799, sktime/multivariate.py:151-205;
    sktime/base.py:110-146 [optimizer], 670-722; get_test_params. *)
From Coq Require Import Reals String Bool ZArith List.
From Verif.Model Require Import Base Num XFloat Prog Engine Params.
From Verif.Model Require Import Arr.
Import ListNotations.
Local Open Scope string_scope.

(** Python values that are passed as parameters.  Integers and floats are numbers; a [BaseEffect] is told
    apart from other objects because [_validate_hyperparams] asks for it.  Objects are compared by
    identity. *)
Inductive pyval :=
| PNone | PNum (x : xr) | PStr (s : string) | PDict (d : list (string * pyval)) | PEffect (id : nat) | PObj (id : nat).

(** * Classes
    An [__init__] with keyword parameters and defaults, which stores attributes and calls the
    [__init__] of its base class with keyword arguments.  [c_rest]: it also takes [**kwargs] (and ignores
    them).  What sktime's own base class stores is not modelled. *)
Inductive source := Arg (name : string) | Const (v : pyval).
Inductive class := Class
  (params : list (string * pyval)) (rest : bool) (sets : list (string * source))
  (base : option class) (passes : list (string * source)).
Definition params (k : class) := let '(Class p _ _ _ _) := k in p.

Definition lookup (bound : dict pyval) (s : source) : res pyval :=
  match s with
  | Arg n => match dict_get bound n with Some v => Ok v | None => Err UnboundLocalError end
  | Const v => Ok v
  end.
(** the values of the parameters *)
Definition bind_args (ps : list (string * pyval)) (rest : bool) (kwargs : dict pyval) : res (dict pyval) :=
  if (rest || forallb (fun kv => str_in (fst kv) (map fst ps)) kwargs)%bool
  then Ok (map (fun pd => (fst pd, match dict_get kwargs (fst pd) with Some v => v | None => snd pd end)) ps)
  else Err TypeError.

(** the attributes afterwards *)
Fixpoint init (k : class) (kwargs : dict pyval) (attrs : dict pyval) : res (dict pyval) :=
  match k with
  | Class ps rest sets base passes =>
      bound <- bind_args ps rest kwargs ;;
      attrs <- foldM (fun a ns => v <- lookup bound (snd ns) ;; Ok (dict_set a (fst ns) v)) attrs sets ;;
      match base with
      | None => Ok attrs
      | Some b =>
          kw <- mapM (fun ns => v <- lookup bound (snd ns) ;; Ok (fst ns, v)) passes ;;
          init b kw attrs
      end
  end.

Definition num (x : R) : pyval := PNum (XF x).
Definition same (l : list string) : list (string * source) := map (fun n => (n, Arg n)) l.

(** base.py:69-94 *)
Definition bayesian_forecaster : class := Class
  [("rng_key", PNone); ("inference_method", PStr "map"); ("mcmc_samples", num 2000); ("mcmc_warmup", num 200); ("mcmc_chains", num 4);
   ("optimizer_steps", num 100000); ("optimizer_name", PStr "Adam"); ("optimizer_kwargs", PNone); ("scale", PNone)]
  true
  (same ["rng_key"; "mcmc_samples"; "mcmc_warmup"; "mcmc_chains"; "inference_method"; "optimizer_steps"; "optimizer_name"; "optimizer_kwargs"; "scale"])
  None [].

(** base.py:818-862 *)
Definition prophet_forecaster : class := Class
  [("trend", PStr "linear"); ("changepoint_interval", num 25); ("changepoint_range", num (4 / 5)); ("changepoint_prior_scale", num (1 / 1000));
   ("offset_prior_scale", num (1 / 10)); ("capacity_prior_scale", num (1 / 5)); ("capacity_prior_loc", num (11 / 10));
   ("exogenous_effects", PNone); ("default_effect", PNone); ("rng_key", PNone); ("inference_method", PStr "map");
   ("mcmc_samples", num 2000); ("mcmc_warmup", num 200); ("mcmc_chains", num 4); ("optimizer_steps", num 100000);
   ("optimizer_name", PStr "Adam"); ("optimizer_kwargs", PNone); ("scale", PNone)]
  false
  (same ["trend"; "changepoint_interval"; "changepoint_range"; "changepoint_prior_scale"; "offset_prior_scale"; "capacity_prior_scale";
         "capacity_prior_loc"; "exogenous_effects"; "default_effect"])
  (Some bayesian_forecaster)
  (same ["rng_key"; "inference_method"; "mcmc_samples"; "mcmc_warmup"; "mcmc_chains"; "optimizer_steps"; "optimizer_name"; "optimizer_kwargs"; "scale"]).

(** univariate.py:150-204 *)
Definition prophetverse : class := Class
  [("trend", PStr "linear"); ("changepoint_interval", num 25); ("changepoint_range", num (4 / 5)); ("changepoint_prior_scale", num (1 / 1000));
   ("offset_prior_scale", num (1 / 10)); ("capacity_prior_scale", num (1 / 5)); ("capacity_prior_loc", num (11 / 10));
   ("exogenous_effects", PNone); ("default_effect", PNone); ("feature_transformer", PNone); ("noise_scale", num (1 / 20));
   ("mcmc_samples", num 2000); ("mcmc_warmup", num 200); ("mcmc_chains", num 4); ("inference_method", PStr "map");
   ("optimizer_name", PStr "Adam"); ("optimizer_kwargs", PNone); ("optimizer_steps", num 100000); ("likelihood", PStr "normal");
   ("scale", PNone); ("rng_key", PNone)]
  false
  (same ["noise_scale"; "feature_transformer"; "likelihood"])
  (Some prophet_forecaster)
  (same ["rng_key"; "trend"; "changepoint_interval"; "changepoint_range"; "changepoint_prior_scale"; "offset_prior_scale"; "capacity_prior_scale";
         "capacity_prior_loc"; "default_effect"; "exogenous_effects"; "inference_method"; "mcmc_samples"; "mcmc_warmup"; "mcmc_chains";
         "optimizer_name"; "optimizer_kwargs"; "optimizer_steps"; "scale"]).

(** univariate.py:497-543 [Prophet], 625-671 [ProphetGamma], 753-799 [ProphetNegBinomial]: the three
    texts differ in the likelihood only *)
Definition legacy (likelihood : string) : class := Class
  [("changepoint_interval", num 25); ("changepoint_range", num (4 / 5)); ("changepoint_prior_scale", num (1 / 1000)); ("offset_prior_scale", num (1 / 10));
   ("feature_transformer", PNone); ("capacity_prior_scale", num (1 / 5)); ("capacity_prior_loc", num (11 / 10)); ("noise_scale", num (1 / 20));
   ("trend", PStr "logistic"); ("mcmc_samples", num 2000); ("mcmc_warmup", num 200); ("mcmc_chains", num 4); ("inference_method", PStr "map");
   ("optimizer_name", PStr "Adam"); ("optimizer_kwargs", PNone); ("optimizer_steps", num 100000); ("exogenous_effects", PNone);
   ("default_effect", PNone); ("scale", PNone); ("rng_key", PNone)]
  false [] (Some prophetverse)
  (same ["changepoint_interval"; "changepoint_range"; "changepoint_prior_scale"; "offset_prior_scale"; "feature_transformer"; "capacity_prior_scale";
         "capacity_prior_loc"; "noise_scale"; "trend"; "mcmc_samples"; "mcmc_warmup"; "mcmc_chains"; "inference_method"; "optimizer_name";
         "optimizer_kwargs"; "optimizer_steps"; "exogenous_effects"]
   ++ [("likelihood", Const (PStr likelihood))]
   ++ same ["default_effect"; "scale"; "rng_key"])%list.
Definition prophet : class := legacy "normal".
Definition prophet_gamma : class := legacy "gamma".
Definition prophet_negbinomial : class := legacy "negbinomial".

(** multivariate.py:151-202; the attribute [model] is left out *)
Definition hierarchical_prophet : class := Class
  [("trend", PStr "linear"); ("changepoint_interval", num 25); ("changepoint_range", num (4 / 5)); ("changepoint_prior_scale", num (1 / 1000));
   ("offset_prior_scale", num (1 / 10)); ("capacity_prior_scale", num (1 / 5)); ("capacity_prior_loc", num (11 / 10));
   ("feature_transformer", PNone); ("exogenous_effects", PNone); ("default_effect", PNone); ("shared_features", PNone);
   ("mcmc_samples", num 2000); ("mcmc_warmup", num 200); ("mcmc_chains", num 4); ("inference_method", PStr "map");
   ("optimizer_name", PStr "Adam"); ("optimizer_kwargs", PNone); ("optimizer_steps", num 100000); ("noise_scale", num (1 / 20));
   ("correlation_matrix_concentration", num 1); ("rng_key", PNone)]
  false
  (same ["noise_scale"; "shared_features"; "feature_transformer"; "correlation_matrix_concentration"])
  (Some prophet_forecaster)
  (same ["trend"; "changepoint_interval"; "changepoint_range"; "changepoint_prior_scale"; "offset_prior_scale"; "capacity_prior_scale";
         "capacity_prior_loc"; "default_effect"; "exogenous_effects"; "rng_key"; "inference_method"; "optimizer_name"; "optimizer_kwargs";
         "optimizer_steps"; "mcmc_samples"; "mcmc_warmup"; "mcmc_chains"]).

(** * Construction
    the checks at the end of [__init__] read the attributes; comparing anything but a number with 0 is a
    TypeError (an array would do, not modelled) *)
Definition attribute (attrs : dict pyval) (n : string) : res pyval :=
  match dict_get attrs n with Some v => Ok v | None => Err AttributeError end.
Definition number_attr (attrs : dict pyval) (n : string) : res xr :=
  v <- attribute attrs n ;; match v with PNum x => Ok x | _ => Err TypeError end.
Definition trend_attr (v : pyval) : trend_value := match v with PStr s => TVName s | PEffect _ => TVEffect | _ => TVOther end.

(** Each check reads its attribute when it is its turn: [if self.x <= 0: raise ValueError]. *)
Definition check_attr (attrs : dict pyval) (n : string) : res unit := x <- number_attr attrs n ;; check_positive x.
(** base.py:1068-1086 *)
Definition check_base (attrs : dict pyval) : res unit :=
  _ <- check_attr attrs "changepoint_interval" ;;
  _ <- check_attr attrs "changepoint_prior_scale" ;;
  _ <- check_attr attrs "capacity_prior_scale" ;;
  _ <- check_attr attrs "capacity_prior_loc" ;;
  _ <- check_attr attrs "offset_prior_scale" ;;
  t <- attribute attrs "trend" ;;
  match trend_attr t with
  | TVName s => if str_in s trend_names then Ok tt else Err ValueError
  | TVEffect => Ok tt
  | TVOther => Err ValueError
  end.
(** univariate.py:226-237, multivariate.py:207-214 *)
Definition check_attrs (hier : bool) (attrs : dict pyval) : res unit :=
  _ <- check_base attrs ;;
  _ <- check_attr attrs "noise_scale" ;;
  if hier then check_attr attrs "correlation_matrix_concentration"
  else l <- attribute attrs "likelihood" ;;
       match l with PStr s => if str_in s likelihood_names then Ok tt else Err ValueError | _ => Err ValueError end.
Definition construct (hier : bool) (k : class) (kwargs : dict pyval) : res (dict pyval) :=
  attrs <- init k kwargs [] ;; _ <- check_attrs hier attrs ;; Ok attrs.

(** sktime's [get_params(deep=False)]: the attributes named like the parameters of [__init__]; [clone]
    calls the class with them *)
Definition get_params (k : class) (attrs : dict pyval) : res (dict pyval) :=
  mapM (fun pd => v <- attribute attrs (fst pd) ;; Ok (fst pd, v)) (params k).
Definition clone_of (hier : bool) (k : class) (attrs : dict pyval) : res (dict pyval) :=
  kw <- get_params k attrs ;; construct hier k kw.

(** univariate.py:347-373, multivariate.py:410-434 *)
Definition test_params : list (dict pyval) :=
  [ [("optimizer_steps", num 1); ("inference_method", PStr "map")];
    [("inference_method", PStr "mcmc"); ("mcmc_samples", num 1); ("mcmc_warmup", num 1); ("mcmc_chains", num 1)] ].

(** * The optimiser: base.py:110-146
    [numpyro_optim name kwargs]: the optimiser classes of numpyro by name; [cosine_decay_schedule]: the
    schedule of optax; [adam_chain]: the optax chain around a schedule, as a numpyro optimiser.
    Optimisers are numbered, as in Engine. *)
Section Optimizer.
Variable numpyro_optim : string -> option (dict pyval -> res nat).
Variable cosine_decay_schedule : dict pyval -> res nat.
Variable adam_chain : nat -> nat.

Definition default_kwargs : dict pyval := [("step_size", num (1 / 10000))].
Definition optimizer (attrs : dict pyval) : res nat :=
  kw <- attribute attrs "optimizer_kwargs" ;;
  name <- attribute attrs "optimizer_name" ;;
  kw <- match kw with PNone => Ok default_kwargs | PDict d => Ok d | _ => Err TypeError end ;;
  name <- match name with PNone => Ok "Adam" | PStr s => Ok s | _ => Err AttributeError end ;;
  if String.prefix "optax" name then s <- cosine_decay_schedule kw ;; Ok (adam_chain s)
  else match numpyro_optim name with Some mk => mk kw | None => Err AttributeError end.

(** base.py:242-270 with engine.py:117-153 and 255-299: the optimiser is made by the MAP engine only *)
Context {P : Type}.
Variable svi_run : Z -> nat -> nat -> prog arr -> res (list xr * P).
Variable nuts_run : Z -> nat -> nat -> nat -> prog arr -> res (nat -> nat -> env).
Variable latent_sites : prog arr -> list string.
Definition infer_with (method : string) (key : Z) (steps samples warmup chains : nat) (attrs : dict pyval) (m : prog arr) : res (inferred P) :=
  o <- (if String.eqb method "map" then optimizer attrs else Ok 0%nat) ;;
  infer svi_run nuts_run latent_sites (mkEngine method key steps o samples warmup chains) m.
End Optimizer.

(** * base.py:670-710
    the keys of the dictionary that [_get_fit_data] returns (univariate.py:283-302,
    multivariate.py:283-298), the attributes of the engines after [infer] (engine.py:39-43, 97-110, 130-153,
    238-253, 289-299), [var_names] and [plot_trace] up to the call of arviz *)
Definition fit_data_keys (hier : bool) : list string :=
  if hier then ["y"; "data"; "trend_data"; "trend_model"; "exogenous_effects"; "correlation_matrix_concentration"; "noise_scale"; "is_single_series"]
  else ["y"; "data"; "trend_data"; "trend_model"; "noise_scale"; "scale"; "exogenous_effects"].
Definition engine_attributes (mcmc : bool) : list string :=
  if mcmc then ["model"; "rng_key"; "num_samples"; "num_warmup"; "num_chains"; "dense_mass"; "posterior_samples_"]
  else ["model"; "rng_key"; "optimizer_factory"; "num_steps"; "num_samples"; "guide_"; "run_results_"; "posterior_samples_"].
(** [data.get("distributions", {})]: [keys_of] gives the keys of the value under that name *)
Definition var_names (keys_of : string -> list string) (hier : bool) : list string :=
  if str_in "distributions" (fit_data_keys hier) then keys_of "distributions" else [].
Definition plot_trace (keys_of : string -> list string) (hier mcmc : bool) (names : option (list string)) : res (list string) :=
  let names := match names with None => var_names keys_of hier | Some l => l end in
  if str_in "mcmc_" (engine_attributes mcmc) then Ok names else Err AttributeError.
