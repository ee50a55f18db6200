(** Specification vocabulary for the parameters of a model and their posterior. *)
From Coq Require Import Reals String Bool ZArith List.
From Verif.Model Require Import Base Num Frame Arr Prog TrendProg Forecaster.
From Verif.Spec Require Import FrameSpec AlignSpec ShapeSpec.
Import ListNotations.
Local Open Scope string_scope.

(** The parameters of a run: the sample sites without a given value, except the target, with prior and shape. *)
Definition parameters (tr : trace) : list (string * distr * list nat) :=
  flat_map (fun x => match snd x with
                     | SSample d v false => if String.eqb (fst x) "obs" then [] else [(fst x, d, a_shape v)]
                     | _ => []
                     end) tr.
Definition parameter_names (tr : trace) : list string := map (fun x => fst (fst x)) (parameters tr).

(** What numpyro does with sample sites.  It runs the model once and the posterior has the sites which are
    sampled and not given (the names are those of any run: C79) ... *)
Definition posterior_sites (latent : list string) (m : prog arr) : Prop :=
  exists e o tr, run e [] m = Ok (o, tr) /\ forall n, n <> "obs" -> (In n latent <-> In n (parameter_names tr)).
(** ... the predictive takes the values of these sites from a posterior sample ... *)
Definition completes_posterior (complete_draw : env -> Z -> nat -> prog arr -> env) (latent : list string) : Prop :=
  forall s key i m n j, In n latent -> complete_draw s key i m n j = s n j.
(** ... or from the point at which the guide is concentrated. *)
Definition point_guide {P} (guide_draw : P -> Z -> nat -> prog arr -> env) (latent : list string) (params : P) (point : env) : Prop :=
  forall key i m n j, In n latent -> guide_draw params key i m n j = point n j.

(** all parameters of a run have the values of [s] *)
Definition takes_values (s : env) (tr : trace) : Prop :=
  forall n d v, In (n, SSample d v false) tr -> n <> "obs" -> v = site_value s n (a_shape v) None.
(** two runs record the same sites with the same values, except for the values of the target *)
Definition same_but_target (tr tr' : trace) : Prop := Forall2 (fun x y => fst x = fst y /\ (snd x = snd y \/ fst x = "obs")) tr tr'.

(** Prophetverse; or HierarchicalProphet with one series, indexed or not, or a piecewise trend (the flat trend does not give
    each series its own axis, see C74). *)
Definition one_or_piecewise (c : config) (y : frame R) (t : trend) : Prop :=
  c_hier c = false \/
  f_levels y = 0 \/
  frame_wf y /\ (forall r, In r (f_rows y) -> ~ In "__total" (r_path r)) /\ (List.length (series_ids y) = 1 \/ scalar_piecewise t).
