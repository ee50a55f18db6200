(** Sequences of method calls on one forecaster: what sktime's BaseForecaster does around the methods
    modelled in Forecaster.v.

    - [fit] (external) resets the estimator, stores target and exogenous data, and calls [_fit].  After
      an exception the estimator counts as not fitted.
    - [update] stores the union of old and new data; with [update_params] the default [_update] calls
      [fit] on everything stored (prophetverse does not override it).
    - prediction methods need a fitted estimator (sktime's NotFittedError is a ValueError).  They read
      the stored target.

    The forecaster is not vectorised. *)
From Coq Require Import Reals String Bool ZArith List.
From Verif.Model Require Import Base Num XFloat Frame Arr Aggregate Scale Predict Prog Effect TrendProg Engine Forecaster.
Import ListNotations.
Local Open Scope string_scope.

(** sktime's [update_data]: [new.combine_first(old)].  Rows are sorted and new values win.  Columns of
    only one of the frames would be filled with NaN. *)
Definition combine_first (new old : frame R) : res (frame R) :=
  if (Nat.eqb (f_levels new) (f_levels old) && path_eqb (f_cols new) (f_cols old))%bool then
    Ok (mkFrame (f_levels new) (f_cols new)
          (key_sort label (f_rows new ++
             filter (fun r => negb (existsb (fun r' => path_eqb (r_path r') (r_path r) && Z.eqb (r_time r') (r_time r)) (f_rows new)))
                    (f_rows old))))
  else Err NotFinite.

(** the prediction methods, and what they return *)
Inductive method := Samples | Point | Quantiles (alpha : list R) | AllSites | AllSitesSamples.
Inductive output := OFrame (f : frame R) | OQuantiles (q : quantiles) | OSites (s : list string * list sample_row) | ODone.

Inductive call :=
| Fit (y : frame R) (X : option (frame R))
| Update (y : frame R) (X : option (frame R)) (update_params : bool)
| Predict (m : method) (X : option (frame R)) (fh : horizon).

Section History.
Variable ns_of : Z -> Z.
Variable order : list string -> list string.
Variable keep : path -> bool.
Context {TS : Type}.
Variable tr_fit_transform : TS -> frame R -> TS * res (frame R).
Variable tr_transform : TS -> frame R -> res (frame R).
Context {P : Type}.
Variable svi_run : Z -> nat -> nat -> prog arr -> res (list xr * P).
Variable nuts_run : Z -> nat -> nat -> nat -> prog arr -> res (nat -> nat -> env).
Variable latent_sites : prog arr -> list string.
Variable guide_draw : P -> Z -> nat -> prog arr -> env.
Variable complete_draw : env -> Z -> nat -> prog arr -> env.

(** [st_y], [st_X] are [self._y], [self._X]; [st_fitted] is [None] before a successful fit *)
Record state := mkState {
  st_objects : objects (TS := TS);
  st_y : frame R;
  st_X : option (frame R);
  st_fitted : option (fitted (P := P)) }.

Definition do_fit (c : config) (st : state) (y : frame R) (X : option (frame R)) : state * res output :=
  let '(ob, r) := fit_forecaster ns_of order keep tr_fit_transform svi_run nuts_run latent_sites c (st_objects st) y X in
  match r with
  | Ok f => (mkState ob y X (Some f), Ok ODone)
  | Err e => (mkState ob y X None, Err e)
  end.

Definition call_method (c : config) (ob : objects) (f : fitted) (y : frame R) (m : method) (X : option (frame R)) (fh : horizon)
  : fitted * res output :=
  match m with
  | Samples => let '(f', r) := forecast_samples ns_of keep tr_transform guide_draw complete_draw c ob f y X fh in (f', r <- r ;; Ok (OFrame r))
  | Point => let '(f', r) := forecast_point ns_of keep tr_transform guide_draw complete_draw c ob f y X fh in (f', r <- r ;; Ok (OFrame r))
  | Quantiles alpha =>
      let '(f', r) := forecast_quantiles ns_of keep tr_transform guide_draw complete_draw c ob f y X fh alpha in (f', r <- r ;; Ok (OQuantiles r))
  | AllSites => let '(f', r) := forecast_all_sites ns_of keep tr_transform guide_draw complete_draw c ob f y X fh in (f', r <- r ;; Ok (OFrame r))
  | AllSitesSamples =>
      let '(f', r) := forecast_all_sites_samples ns_of keep tr_transform guide_draw complete_draw c ob f y X fh in (f', r <- r ;; Ok (OSites r))
  end.

Definition step (c : config) (st : state) (cl : call) : state * res output :=
  match cl with
  | Fit y X => do_fit c st y X
  | Update y X update_params =>
      match st_fitted st with
      | None => (st, Err ValueError)
      | Some f =>
          match combine_first y (st_y st), match X, st_X st with
                                           | None, old => Ok old
                                           | Some X, None => Ok (Some X)
                                           | Some X, Some old => X <- combine_first X old ;; Ok (Some X)
                                           end with
          | Err e, _ | _, Err e => (st, Err e)
          | Ok y, Ok X =>
              if update_params then do_fit c st y X
              else (mkState (st_objects st) y X (Some f), Ok ODone)
          end
      end
  | Predict m X fh =>
      match st_fitted st with
      | None => (st, Err ValueError)
      | Some f =>
          let '(f', r) := call_method c (st_objects st) f (st_y st) m X fh in
          (mkState (st_objects st) (st_y st) (st_X st) (Some f'), r)
      end
  end.

(** the state after a list of calls *)
Definition calls (c : config) (st : state) (cs : list call) : state :=
  fold_left (fun st cl => fst (step c st cl)) cs st.

(** a new forecaster: nothing stored yet *)
Definition new_state (ob : objects) : state := mkState ob (mkFrame 0 [] []) None None.
End History.
