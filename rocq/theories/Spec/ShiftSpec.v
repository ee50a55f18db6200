(** Moving everything in time: vocabulary for C90.  All dates (of the target, of X, of an absolute horizon, of
    recorded lift tests) are moved by [k] steps of the index; [delta] is the same distance in days. *)
From Coq Require Import Reals String Bool ZArith List.
From Verif.Model Require Import Base Num XFloat Frame Arr Expand Scale Predict Prog Trend Effect TrendProg Engine Forecaster.
Import ListNotations.
Local Open Scope string_scope.

(** equal steps of the index are equal distances in time *)
Definition moves_by (ns_of : Z -> Z) (k : Z) (delta : R) : Prop :=
  forall t, days_since_epoch (ns_of (t + k)%Z) = (days_since_epoch (ns_of t) + delta)%R.

(** the value of a computation, moved *)
Definition rmap {A B} (g : A -> B) (r : res A) : res B := match r with Ok a => Ok (g a) | Err e => Err e end.

Section Moved.
Variable k : Z.
Variable delta : R.

Definition moved_row {V} (r : row V) : row V := mkRow (r_path r) (r_time r + k) (r_vals r).
Definition moved {V} (f : frame V) : frame V := mkFrame (f_levels f) (f_cols f) (map moved_row (f_rows f)).
Definition moved_time (t : Z) : Z := (t + k)%Z.
Definition moved_labels (l : list (path * Z)) : list (path * Z) := map (fun pt => (fst pt, moved_time (snd pt))) l.
Definition moved_horizon (fh : horizon) : horizon :=
  match fh with Relative ks => Relative ks | Absolute ts => Absolute (map moved_time ts) end.
Definition moved_sample_row (r : sample_row) : sample_row := mkSR (sr_sample r) (sr_path r) (sr_time r + k) (sr_vals r).
Definition moved_quantiles (q : quantiles) : quantiles := mkQ (q_levels q) (moved (q_frame q)).

(** an effect: the dates of lift tests, and the first dates a fitted seasonality remembers *)
Fixpoint moved_effect (e : effect) : effect :=
  match e with
  | Lift inner table ps b s => Lift (moved_effect inner) (map (fun x => (moved_time (fst x), snd x)) table) ps b s
  | Fourier sp tl ps m b ff x l =>
      Fourier sp tl ps m b (option_map (fun f => mkFF (ff_pairs f) (moved_labels (ff_min f))) ff) x l
  | _ => e
  end.
Definition moved_listed (l : listed) : listed := let '(n, e, r) := l in (n, moved_effect e, r).
Definition moved_fit_effect (f : fitted_effect) : fitted_effect := let '(n, e, cs) := f in (n, moved_effect e, cs).

Definition moved_config (c : config) : config :=
  mkConfig (c_hier c) (c_trend c) (c_interval c) (c_range c) (c_changepoint_scale c) (c_offset_scale c)
    (c_capacity_scale c) (c_capacity_loc c) (option_map (map moved_listed) (c_effects c))
    (option_map moved_effect (c_default c)) (c_noise c) (c_likelihood c) (c_scale c) (c_shared c) (c_concentration c)
    (c_method c) (c_key c) (c_steps c) (c_optimizer c) (c_samples c) (c_warmup c) (c_chains c).

(** a fitted trend remembers when it starts *)
Definition moved_piecewise (f : piecewise_fitted) : piecewise_fitted :=
  mkPWF (pf_params f) (pf_t_scale f) (pf_t_start f + delta / pf_t_scale f) (pf_n_series f) (pf_cps f)
    (pf_global_rates f) (pf_offset_loc f) (pf_cp_loc f) (pf_cp_scale f) (pf_series f).
Definition moved_trend (t : trend) : trend :=
  match t with
  | TPiecewise p c b f => TPiecewise p c b (option_map moved_piecewise f)
  | TFlat _ _ _ => t
  | TEffect e => TEffect (moved_effect e)
  end.

(** [mv]: what moving does to the state of the feature transformer *)
Definition moved_objects {TS} (mv : TS -> TS) (ob : objects (TS := TS)) : objects (TS := TS) :=
  mkObjects (moved_trend (o_trend ob)) (option_map mv (o_transformer ob)).

Definition moved_prepared (p : prepared) : prepared :=
  mkPrepared (moved_labels (p_index p)) (map moved_fit_effect (p_fitted p))
    (map (fun ne => (fst ne, moved_effect (snd ne))) (p_effects p)) (p_has_exogenous p) (p_expander p) (p_single p).
Definition moved_fitted {P} (f : fitted (P := P)) : fitted (P := P) :=
  mkFitted (ft_scale f) (moved_prepared (ft_prepared f)) (ft_posterior f).

(** a transformer which does not look at dates, or keeps them in its state *)
Definition transformer_moves {TS} (mv : TS -> TS) (ft : TS -> frame R -> TS * res (frame R)) (tf : TS -> frame R -> res (frame R)) : Prop :=
  (forall st X, ft (mv st) (moved X) = (mv (fst (ft st X)), rmap moved (snd (ft st X)))) /\
  (forall st X, tf (mv st) (moved X) = rmap moved (tf st X)).
End Moved.

(** no effect is calibrated with dated lift tests *)
Definition dateless (e : effect) : bool :=
  match e with
  | Linear _ _ _ | Log _ _ _ _ | Hill _ _ _ _ _ => true
  | Lift _ _ _ _ _ => false
  | Fourier _ _ _ _ _ ff _ _ => match ff with None => true | Some _ => false end
  end.
Definition dateless_config (c : config) : bool :=
  forallb (fun l => dateless (snd (fst l))) (effects_of c) &&
  match c_default c with None => true | Some e => dateless e end.

(** a trend object as the user creates it: not fitted, without dates *)
Definition fresh_trend (t : trend) : Prop :=
  match t with TPiecewise _ _ _ f => f = None | TFlat _ _ _ => True | TEffect e => dateless e = true end.
