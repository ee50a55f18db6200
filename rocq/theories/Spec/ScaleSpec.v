(** Specification vocabulary for scaling. *)
From Coq Require Import Reals List Sorted.
From Verif.Model Require Import Base Frame Scale Aggregate.
From Verif.Spec Require Import FrameSpec.
Import ListNotations.
Local Open Scope R_scope.

(** the factor between internal and original units of series [p] *)
Definition scale_of (s : scale) (p : path) : option R :=
  match s with
  | SFloat c => Some c
  | STable tab => tab_get tab p
  | _ => None
  end.

(** units of the samples: factor 1 for count likelihoods *)
Definition unit_of (discrete : bool) (s : scale) (p : path) (c : R) : Prop :=
  if discrete then c = 1 else scale_of s p = Some c.

(** [m] is the largest absolute value of [l] *)
Definition is_abs_max (l : list R) (m : R) : Prop :=
  (exists x, In x l /\ Rabs x = m) /\ forall x, In x l -> Rabs x <= m.

(** all values of the rows of one series *)
Definition values_of (f : frame R) (p : path) (v : R) : Prop :=
  exists r, In r (f_rows f) /\ r_path r = p /\ In v (r_vals r).

Definition sorted_index {V} (f : frame V) : Prop :=
  StronglySorted (fun a b => label_leb a b = true) (labels f).

(** every row carries exactly one value, as for a target *)
Definition one_column (y : frame R) : Prop := frame_wf y /\ length (f_cols y) = 1%nat.

