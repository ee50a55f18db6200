(** Specification vocabulary for a change of units of the target. *)
From Coq Require Import Reals String Bool ZArith List.
From Verif.Model Require Import Base Num Frame Arr Scale Predict Prog Effect TrendProg Forecaster History.
Import ListNotations.
Local Open Scope R_scope.

(** every value of a frame multiplied by k *)
Definition rescale_frame (k : R) (f : frame R) : frame R :=
  mkFrame (f_levels f) (f_cols f) (map (fun r => mkRow (r_path r) (r_time r) (map (Rmult k) (r_vals r))) (f_rows f)).

(** the results of lift experiments are in units of the target *)
Fixpoint rescale_effect (k : R) (e : effect) : effect :=
  match e with
  | Lift i t ps b s => Lift (rescale_effect k i) (map (fun x => (fst x, option_map (Rmult k) (snd x))) t) ps b (option_map (Rmult k) s)
  | _ => e
  end.
Definition rescale_config (k : R) (c : config) : config :=
  mkConfig (c_hier c) (c_trend c) (c_interval c) (c_range c) (c_changepoint_scale c) (c_offset_scale c) (c_capacity_scale c) (c_capacity_loc c)
    (option_map (map (fun l : listed => (fst (fst l), rescale_effect k (snd (fst l)), snd l))) (c_effects c))
    (option_map (rescale_effect k) (c_default c))
    (c_noise c) (c_likelihood c) (c_scale c) (c_shared c) (c_concentration c) (c_method c) (c_key c) (c_steps c) (c_optimizer c)
    (c_samples c) (c_warmup c) (c_chains c).

Definition lift_free (e : effect) : Prop := match e with Lift _ _ _ _ _ => False | _ => True end.
Definition lift_free_trend (t : trend) : Prop := match t with TEffect e => lift_free e | _ => True end.
Definition lift_free_config (c : config) : Prop :=
  (forall l, In l (effects_of c) -> lift_free (snd (fst l))) /\ (forall e, c_default c = Some e -> lift_free e).

Definition rescale_call (k : R) (cl : call) : call :=
  match cl with
  | Fit y X => Fit (rescale_frame k y) X
  | Update y X b => Update (rescale_frame k y) X b
  | Predict m X fh => Predict m X fh
  end.
(** [predict_all_sites_samples] returns values in units of the scale *)
Definition rescale_output (k : R) (o : output) : output :=
  match o with
  | OFrame f => OFrame (rescale_frame k f)
  | OQuantiles q => OQuantiles (mkQ (q_levels q) (rescale_frame k (q_frame q)))
  | OSites s => OSites s
  | ODone => ODone
  end.
Definition rescale_result (k : R) (r : res output) : res output :=
  match r with Ok o => Ok (rescale_output k o) | Err e => Err e end.

(** every series of a panel has a value other than 0 *)
Definition no_zero_series (y : frame R) : Prop :=
  f_levels y <> 0%nat -> forall p, In p (map r_path (f_rows y)) -> exists r v, In r (f_rows y) /\ r_path r = p /\ In v (r_vals r) /\ v <> 0.

(** the factor between the scales handed to the effects: a number for a single series, none for a panel *)
Definition effect_units (k : R) (y : frame R) : R := match f_levels y with 0%nat => k | _ => 1 end.

(** fitting on [y] with [c] and on k times [y] with [c'] are comparable: no series of a panel is zero
    throughout, and the lift experiments are in the new units if the target is a single series *)
Definition comparable (k : R) (c c' : config) (y : frame R) : Prop := no_zero_series y /\ c' = rescale_config (effect_units k y) c.
