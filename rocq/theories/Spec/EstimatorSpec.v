(** Specification vocabulary for constructors. *)
From Coq Require Import Reals String Bool ZArith List.
From Verif.Model Require Import Base Num XFloat Params Estimator.
From Verif.Spec Require Import ParamsSpec.
Import ListNotations.
Local Open Scope string_scope.

(** the classes users construct; the flag tells HierarchicalProphet *)
Definition user_classes : list (bool * class) :=
  [(false, prophetverse); (false, prophet); (false, prophet_gamma); (false, prophet_negbinomial); (true, hierarchical_prophet)].

(** the value of a keyword argument: the first one given under that name, otherwise the default *)
Fixpoint given (kwargs : list (string * pyval)) (n : string) (default : pyval) : pyval :=
  match kwargs with
  | [] => default
  | (m, v) :: tl => if String.eqb n m then v else given tl n default
  end.
Definition known_keywords (k : class) (kwargs : list (string * pyval)) : Prop := forall n v, In (n, v) kwargs -> In n (map fst (params k)).

(** the parameters that must be positive numbers *)
Definition positive_params : list string :=
  ["changepoint_interval"; "changepoint_prior_scale"; "capacity_prior_scale"; "capacity_prior_loc"; "offset_prior_scale"; "noise_scale";
   "correlation_matrix_concentration"].
(** the values of the parameters are acceptable (NaN passes the checks, see C64) *)
Definition acceptable (k : class) (kwargs : list (string * pyval)) : Prop :=
  (forall n d, In (n, d) (params k) -> In n positive_params -> exists x, given kwargs n d = PNum x /\ (positive x \/ x = XNaN)) /\
  (forall d, In ("trend", d) (params k) ->
     (exists s, given kwargs "trend" d = PStr s /\ In s ["linear"; "linear_raw"; "logistic"; "flat"]) \/ exists i, given kwargs "trend" d = PEffect i) /\
  (forall d, In ("likelihood", d) (params k) -> exists s, given kwargs "likelihood" d = PStr s /\ In s ["normal"; "gamma"; "negbinomial"]).
