(** Forecasters with and without the results of lift experiments. *)
From Coq Require Import Reals String Bool ZArith List.
From Verif.Model Require Import Base Num XFloat Regex Frame Arr Prog Likelihood Effect Trend TrendProg Engine Predict Forecaster.
From Verif.Spec Require Import ProgSpec ForecasterSpec SiteSpec RelistSpec RenameSpec.
Import ListNotations.
Local Open Scope string_scope.

(** the effect that the results of experiments were attached to *)
Fixpoint without_lift (e : effect) : effect := match e with Lift i _ _ _ _ => without_lift i | _ => e end.
Definition unlift_listed (l : listed) : listed := (l_name l, without_lift (l_effect l), l_regex l).
Definition unlift_fitted (f : fitted_effect) : fitted_effect := (fe_name f, without_lift (fe_effect f), fe_cols f).
Definition unlift_values (d : dict effect) : dict effect := map (fun kv => (fst kv, without_lift (snd kv))) d.
Definition unlift_prepared (p : prepared) : prepared :=
  mkPrepared (p_index p) (map unlift_fitted (p_fitted p)) (unlift_values (p_effects p)) (p_has_exogenous p) (p_expander p) (p_single p).
(** the configuration without experiments *)
Definition unlift_config (c : config) : config := with_effects c (map unlift_listed (effects_of c)).

(** the site of the results of an experiment: "effect/lift_experiment" *)
Definition lift_site (n : string) : bool := String.eqb (snd (cut n)) "/lift_experiment".
(** what is recorded at the other sites, and at these *)
Definition but_lifts {V} (d : dict V) : dict V := filter (fun ns => negb (lift_site (fst ns))) d.
Definition only_lifts {V} (d : dict V) : dict V := filter (fun ns => lift_site (fst ns)) d.

(** a program without some of its observations *)
Fixpoint forget {A} (K : string -> bool) (m : prog A) : prog A :=
  match m with
  | Ret a => Ret a
  | Raise e => Raise e
  | Sample n d sh None k => Sample n d sh None (fun v => forget K (k v))
  | Sample n d sh (Some y) k => if K n then forget K (k y) else Sample n d sh (Some y) (fun v => forget K (k v))
  | Det n v k => Det n v (forget K k)
  | Plate n s k => Plate n s (forget K k)
  end.

(** Experiments are attached to effects that take part: the effect was fitted with at least one column, or needs none. *)
Definition in_use (g : list fitted_effect) : Prop :=
  forall n e cols, In (n, e, cols) g -> b_cols (get_base e) <> Some [] \/ skip_if_no_match (without_lift e) = skip_if_no_match e.
(** the default effect has no experiment attached *)
Definition plain_default (d : option effect) : Prop := forall e, d = Some e -> without_lift e = e.

Section Draws.
Context {P : Type}.
Variable guide_draw : P -> Z -> nat -> prog arr -> env.
Variable complete_draw : env -> Z -> nat -> prog arr -> env.
(** Two posteriors with the same draws, one for the model with experiments, the other without them. *)
Definition same_draws (a : engine_args) (i i' : inferred P) (m : prog arr) : Prop :=
  latent_of i' = latent_of i /\ draws guide_draw complete_draw a i' (forget lift_site m) = draws guide_draw complete_draw a i m.
End Draws.
