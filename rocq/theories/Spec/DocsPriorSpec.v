(** The priors of the trend parameters. *)
From Coq Require Import Reals String List.
From Verif.Model Require Import Base Num XFloat Arr Prog Trend TrendProg.
Import ListNotations.
Local Open Scope string_scope.

(** independent normal variables, one for every series, around [locs] *)
Definition offset_prior (e : env) (tr : trace) (locs : list R) (sigma : R) : Prop :=
  dict_get tr "offset" = Some (SSample (DNormal (mkArr [List.length locs] locs) (mkArr [List.length locs] (repeat sigma (List.length locs))))
                                       (mkArr [List.length locs] (map (e "offset") (seq 0 (List.length locs)))) false).
(** one capacity for every series *)
Definition capacity_prior (e : env) (tr : trace) (n : nat) (d : distr) : Prop :=
  dict_get tr "capacity" = Some (SSample d (mkArr [n; 1; 1] (map (e "capacity") (seq 0 n))) false).

(** the locations stored by the fit (C16, C93), and the configured scale *)
Definition offset_options (t : trend) (locs : list R) (sigma : R) : Prop :=
  match t with TPiecewise p _ _ (Some f) => pf_offset_loc f = map XF locs /\ pw_offset_scale p = sigma | _ => False end.
Definition capacity_option (t : trend) (d : distr) : Prop :=
  match t with TPiecewise p cap _ _ => pw_logistic p <> None /\ cap = d | _ => False end.
