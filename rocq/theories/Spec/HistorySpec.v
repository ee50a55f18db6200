(** Specification vocabulary for sequences of calls. *)
From Coq Require Import Reals String Bool ZArith List Sorted.
From Verif.Model Require Import Base Num XFloat Frame Arr Predict Prog Effect TrendProg Engine Forecaster History.
From Verif.Spec Require Import FrameSpec EffectSpec ForecasterSpec.
Import ListNotations.

Definition is_predict (cl : call) : Prop := exists m X fh, cl = Predict m X fh.
(** a call after which the forecaster has been fitted on everything stored *)
Definition refits (cl : call) : Prop := (exists y X, cl = Fit y X) \/ (exists y X, cl = Update y X true).

(** times of the rows returned by a prediction method *)
Definition out_times (o : output) : list Z :=
  match o with
  | OFrame f => map r_time (f_rows f)
  | OQuantiles q => map r_time (f_rows (q_frame q))
  | OSites s => map sr_time (snd s)
  | ODone => []
  end.

(** the model [m] was built from trend and effects evaluated at the times [ts] *)
Definition evaluated_at ns_of {TS P} (c : config) (ob : objects (TS := TS)) (f : fitted (P := P)) (ts : list Z) (m : prog arr) : Prop :=
  exists X td data, trend_transform ns_of (o_trend ob) X ts = Ok td /\
    (data = None \/ exists d, data = Some d /\ transform_effects (p_fitted (ft_prepared f)) X ts = Ok d) /\
    m = model_call c (ft_scale f) (ft_prepared f) (o_trend ob) td None data.

(** aggregates are given for no other times than bottom series *)
Definition bottom_complete (y : frame R) : Prop :=
  forall r, In r (f_rows y) -> exists b, In b (f_rows y) /\ is_bottom (r_path b) = true /\ r_time b = r_time r.

(** The times labelling the rows of a forecast (if there are any) are exactly the times at which the
    model behind it was evaluated. *)
Definition labelled_at_evaluation ns_of order keep {TS} (tr_fit_transform : TS -> frame R -> TS * res (frame R))
  (tr_transform : TS -> frame R -> res (frame R)) {P} svi_run nuts_run latent_sites (guide_draw : P -> Z -> nat -> prog arr -> env) complete_draw
  (c : config) (s : state (TS := TS) (P := P)) (m : method) (X : option (frame R)) (fh : horizon) : Prop :=
  forall o, snd (step ns_of order keep tr_fit_transform tr_transform svi_run nuts_run latent_sites guide_draw complete_draw c s (Predict m X fh)) = Ok o ->
  exists f ts mo, st_fitted s = Some f /\ predict_model ns_of keep tr_transform c (st_objects s) f (st_y s) X fh = Ok mo /\
    evaluated_at ns_of c (st_objects s) f ts mo /\
    (forall t, In t (out_times o) -> In t ts) /\ (out_times o <> [] -> forall t, In t ts -> In t (out_times o)).

(** a trend object without a seasonality inside *)
Definition plain_trend (t : trend) : Prop := match t with TEffect e => no_fourier e = true | _ => True end.

(** * Stored data *)
(** order of series labels: at the first difference the smaller name, or a proper prefix *)
Definition path_before (a b : path) : Prop :=
  (exists common x y ra rb, a = (common ++ x :: ra)%list /\ b = (common ++ y :: rb)%list /\ String.compare x y = Lt) \/
  (exists x r, b = (a ++ x :: r)%list).
Definition row_before (r r' : row R) : Prop := path_before (r_path r) (r_path r') \/ (r_path r = r_path r' /\ (r_time r <= r_time r')%Z).
Definition same_label (r r' : row R) : Prop := r_path r = r_path r' /\ r_time r = r_time r'.

(** [out] has the rows of [new], and those rows of [old] that no row of [new] replaces, in order *)
Definition merged (new old out : frame R) : Prop :=
  f_levels new = f_levels old /\ f_cols new = f_cols old /\ f_levels out = f_levels new /\ f_cols out = f_cols new /\
  (forall r, In r (f_rows out) <-> In r (f_rows new) \/ (In r (f_rows old) /\ forall r', In r' (f_rows new) -> ~ same_label r' r)) /\
  NoDup (labels out) /\ StronglySorted row_before (f_rows out).
Definition merged_exogenous (new old out : option (frame R)) : Prop :=
  match new, old with
  | None, _ => out = old
  | Some X, None => out = Some X
  | Some X, Some old => exists o, out = Some o /\ NoDup (labels X) /\ NoDup (labels old) /\ merged X old o
  end.
