(** Specification vocabulary for the shapes of observations and locations. *)
From Coq Require Import Reals String Bool ZArith List.
From Verif.Model Require Import Base Num Frame Arr Prog Effect Trend TrendProg.
From Verif.Spec Require Import FrameSpec ProgSpec AlignSpec.
Import ListNotations.
Local Open Scope string_scope.

(** shape of the values of an observation distribution of the models *)
Definition value_shape (d : distr) : option (list nat) :=
  match d with
  | DNormal a _ | DGamma a _ | DNegBinomial2 a _ | DMvNormal a _ => Some (a_shape a)
  | _ => None
  end.

(** the observed values of a run have the shape [sh], and so has their distribution *)
Definition observed_as (sh : list nat) (tr : trace) : Prop :=
  exists d v, dict_get tr "obs" = Some (SSample d v true) /\ a_shape v = sh /\ value_shape d = Some sh.

(** the observed values of a run and their distribution have different shapes *)
Definition observed_wrong (tr : trace) : Prop :=
  exists d v, dict_get tr "obs" = Some (SSample d v true) /\ value_shape d <> Some (a_shape v).

(** one row for every series at every date *)
Definition balanced {V} (y : frame V) : Prop :=
  NoDup (labels y) /\ forall p t, In p (map r_path (f_rows y)) -> In t (map r_time (f_rows y)) -> In (p, t) (labels y).

Definition flat_trend (t : trend) : Prop := match t with TFlat _ _ _ => True | _ => False end.
