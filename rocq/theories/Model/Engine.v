(** Inference engines: src/prophetverse/engine.py.  What numpyro computes (optimiser, sampler, random
    draws) are section variables; everything proved holds for every choice of them. *)
From Coq Require Import Reals String Bool ZArith List.
From Verif.Model Require Import Base Num XFloat Arr Prog.
Import ListNotations.
Local Open Scope string_scope.

(** Arguments of the engines' constructors (engine.py:93-107, 239-253) as set by
    sktime/base.py:242-266.  Random keys are seeds; [en_optimizer] is what the optimiser factory
    builds its optimiser from (name and arguments, opaque). *)
Record engine_args := mkEngine {
  en_method : string;
  en_key : Z;
  en_steps : nat;
  en_optimizer : nat;
  en_samples : nat;
  en_warmup : nat;
  en_chains : nat }.

Section Engine.
(** parameters of the AutoDelta guide *)
Context {P : Type}.
(** [SVI(model, guide, optimizer, Trace_ELBO()).run(key, steps)]: losses and parameters *)
Variable svi_run : Z -> nat -> nat -> prog arr -> res (list xr * P).
(** [MCMC(NUTS(model, init_to_mean), ...).run(key)]: value of a sample of a chain *)
Variable nuts_run : Z -> nat -> nat -> nat -> prog arr -> res (nat -> nat -> env).
(** names of the latent sites of the model a posterior was computed for *)
Variable latent_sites : prog arr -> list string.
(** values of all sites in draw number i of [Predictive]: from the guide, or a posterior sample
    completed with random values *)
Variable guide_draw : P -> Z -> nat -> prog arr -> env.
Variable complete_draw : env -> Z -> nat -> prog arr -> env.

(** what [infer] stores *)
Inductive inferred :=
| IMap (params : P) (latent : list string)
| IMcmc (samples : list env) (latent : list string).

(** engine.py:154-174 [raise_error_if_nan_loss]; SVI needs at least one step *)
Definition nan_loss (losses : list xr) : res bool :=
  match losses with [] => Err ValueError | l :: tl => Ok (xisnan (last tl l)) end.

(** engine.py:116-152 [MAPInferenceEngine.infer]; 255-299 [MCMCInferenceEngine.infer]: [get_samples()]
    has the samples of all chains one after the other.  The selection is sktime/base.py:242-266. *)
Definition infer (a : engine_args) (model : prog arr) : res inferred :=
  if String.eqb (en_method a) "mcmc" then
    r <- nuts_run (en_key a) (en_warmup a) (en_samples a) (en_chains a) model ;;
    Ok (IMcmc (flat_map (fun c => map (r c) (seq 0 (en_samples a))) (seq 0 (en_chains a))) (latent_sites model))
  else if String.eqb (en_method a) "map" then
    '(losses, params) <- svi_run (en_key a) (en_optimizer a) (en_steps a) model ;;
    nan <- nan_loss losses ;;
    if (nan : bool) then Err InferenceError else Ok (IMap params (latent_sites model))
  else Err ValueError.

(** engine.py:16 *)
Definition default_predict_num_samples : nat := Z.to_nat 1000.

(** arrays of one site, stacked along a new first axis *)
Definition stack_site (ds : list (dict arr)) (ka : string * arr) : res (string * arr) :=
  vs <- mapM (fun d => dict_item d (fst ka)) ds ;;
  if forallb (fun v => if list_eq_dec Nat.eq_dec (a_shape v) (a_shape (snd ka)) then true else false) vs
  then Ok (fst ka, mkArr (List.length ds :: a_shape (snd ka)) (concat (map a_flat vs)))
  else Err TypeError.
Definition stack (ds : list (dict arr)) : res (dict arr) :=
  match ds with
  | [] => Err ValueError
  | d :: _ => mapM (stack_site ds) d
  end.

(** the environments [Predictive] runs the model with.  With a posterior the number of its samples is
    used, whatever [num_samples] says. *)
Definition draws (a : engine_args) (i : inferred) (model : prog arr) : list env :=
  match i with
  | IMap p _ => map (fun s => guide_draw p (en_key a) s model) (seq 0 default_predict_num_samples)
  | IMcmc l _ => map (fun se => complete_draw (snd se) (en_key a) (fst se) model) (combine (seq 0 (List.length l)) l)
  end.
Definition latent_of (i : inferred) : list string := match i with IMap _ l | IMcmc _ l => l end.

(** engine.py:176-198 and 301-320 [predict] *)
Definition engine_predict (a : engine_args) (i : inferred) (model : prog arr) : res (dict arr) :=
  traces <- mapM (fun e => run e [] model) (draws a i model) ;;
  stack (map (fun at_ => predictive_values (latent_of i) (snd at_)) traces).
End Engine.
Arguments inferred P : clear implicits.
