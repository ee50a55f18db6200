(** Specification vocabulary for effects written by users (C95-C97). *)
From Coq Require Import Reals String ZArith List.
From Verif.Model Require Import Base Frame Arr Prog Likelihood Effect Custom.
From Verif.Spec Require Import ForecasterSpec ProgSpec ComponentSpec.
Import ListNotations.

(** [XC] has the named columns of [X], in this order, and the same rows *)
Definition restricted (X : frame R) (cols : list string) (XC : frame R) : Prop :=
  f_levels XC = f_levels X /\ f_cols XC = cols /\
  Forall2 (fun r r' => r_path r' = r_path r /\ r_time r' = r_time r /\ Forall2 (fun c v => cell X r c = Some v) cols (r_vals r'))
          (f_rows X) (f_rows XC).

(** the rows at the dates of the horizon *)
Definition in_horizon (fh : list Z) (X : frame R) : list (row R) := filter (fun r => existsb (Z.eqb (r_time r)) fh) (f_rows X).

(** the rows an effect is given: all of them if its class says so *)
Definition view_rows {S D} (u : user_effect S D) (fh : list Z) (X : frame R) : list (row R) :=
  if u_filter (ue_class u) then in_horizon fh X else f_rows X.

(** two tables have the same values of the named columns in these rows *)
Definition same_values (cols : list string) (X X' : frame R) (rows rows' : list (row R)) : Prop :=
  f_levels X = f_levels X' /\ (forall c, In c cols -> In c (f_cols X) /\ In c (f_cols X')) /\
  Forall2 (fun r r' => r_path r = r_path r' /\ r_time r = r_time r' /\ forall c, In c cols -> cell X r c = cell X' r' c) rows rows'.

(** [_fit] of the class of [u] was called once, on a new object, with the target, the scale and the named columns of [X];
    [u'] is the object afterwards *)
Definition fitted_on {S D} (y X : frame R) (scale : R) (u : user_effect S D) (cols : list string) (u' : user_effect S D) : Prop :=
  ue_class u' = ue_class u /\
  exists XC names, restricted X cols XC /\ (f_rows X <> [] -> names = cols) /\
    u_fit (ue_class u) names (u_init (ue_class u)) y (Some XC) scale = (ue_state u', None).

(** [_transform] was called once, with the named columns of the rows [u] is given; [d] are the prepared data *)
Definition prepared_from {S D} (X : frame R) (fh : list Z) (u : user_effect S D) (cols : list string) (u' : user_effect S D) (d : D) : Prop :=
  ue_class u' = ue_class u /\ ue_base u' = ue_base u /\
  exists XC, restricted (mkFrame (f_levels X) (f_cols X) (view_rows u fh X)) cols XC /\
    u_transform (ue_class u) cols (ue_state u) XC fh = (ue_state u', Ok d).

(** the methods of a user class called so far, for a class whose methods write down that they are called *)
Inductive call := CalledFit | CalledTransform.
Definition logged {S D} (c : user_class S D) : user_class (S * list call) D :=
  mkClass (u_multivariate c) (u_skip c) (u_filter c) (u_mode c) (u_init c, []) (u_super c)
    (fun cols s y X scale => let '(s', e) := u_fit c cols (fst s) y X scale in ((s', snd s ++ [CalledFit]), e))
    (fun cols s X fh => let '(s', r) := u_transform c cols (fst s) X fh in ((s', snd s ++ [CalledTransform]), r))
    (fun cols s => u_predict c cols (fst s)).
Definition calls {S D} (u : user_effect (S * list call) D) : list call := snd (ue_state u).

(** the forecaster's effects after [_transform_effects] has been called on some tables and horizons (at the end of
    [fit], then for every forecast), whether it raised or not *)
Fixpoint after_transforms {S D} (fitted : list (user_fitted S D)) (uses : list (frame R * list Z)) : list (user_fitted S D) :=
  match uses with
  | [] => fitted
  | (X, fh) :: rest => after_transforms (fst (user_transform_effects fitted X fh [])) rest
  end.
(** none of them raised *)
Fixpoint all_transformed {S D} (fitted : list (user_fitted S D)) (uses : list (frame R * list Z)) : Prop :=
  match uses with
  | [] => True
  | (X, fh) :: rest => (exists d, snd (user_transform_effects fitted X fh []) = Ok d) /\ all_transformed (fst (user_transform_effects fitted X fh [])) rest
  end.

(** trends with as many entries as the shape says, and not a vector: (T, 1) or (N, T, 1) *)
Definition regular (t : arr) : Prop := arr_wf t /\ ndim t <> 1.
(** an effect whose values have the shape of the trend, for all prepared data and latent values *)
Definition keeps_shape {D} (f : effect_fn D) : Prop := forall e d pe t v,
  dict_get pe "trend" = Some t -> regular t -> yields e (f d pe) v -> arr_wf v /\ a_shape v = a_shape t.

(** the library's linear, log and Hill effects as user classes: without attributes of their own, with the inherited
    [_fit] and [_transform] *)
Definition simple (e : effect) : Prop := match e with Linear _ _ _ | Log _ _ _ _ | Hill _ _ _ _ _ => True | _ => False end.
Definition as_class (e : effect) : user_class unit edata :=
  mkClass (supports_multivariate e) (skip_if_no_match e) true
    (match e with Linear m _ _ | Log m _ _ _ | Hill m _ _ _ _ => Some m | _ => None end) tt true
    inherited_fit (inherited_transform EArr)
    (fun _ _ d _ => match e with
                    | Linear _ p _ => linear_raw p d
                    | Log _ p q _ => log_raw p q d
                    | Hill _ p q r _ => hill_raw p q r d
                    | _ => Raise TypeError
                    end).
Definition as_user (e : effect) : user_effect unit edata := mkUser (as_class e) tt (get_base e).
Definition as_listed (l : string * effect * option string) : user_listed unit edata := (fst (fst l), as_user (snd (fst l)), snd l).
Definition as_fitted (f : string * effect * list string) : user_fitted unit edata := (fst (fst f), as_user (snd (fst f)), snd f).
