(** Prophetverse on panels.  Prophetverse does not support several series itself
    (univariate.py:135-148, tag y_inner_mtype); sktime then keeps one clone of the forecaster per series
    ([forecasters_]).  Fitting and [predict] are done by sktime (external); the other prediction methods
    go through src/prophetverse/sktime/base.py:724-764 [_vectorize_predict_method], called at base.py:316-317, 377-380 and 431-432.

    Simplifications: the series of X are looked up by their full path, and sktime's checks of the panel
    (sorted index, equal sets of series in y and X) are taken to have passed. *)
From Coq Require Import Reals String Bool ZArith List.
From Verif.Model Require Import Base Num XFloat Regex Frame Arr Expand Aggregate Scale Predict Prog Likelihood Trend Effect
  TrendProg Engine Forecaster.
Import ListNotations.
Local Open Scope string_scope.

(** the rows of one series, without the series levels *)
Definition series_frame (f : frame R) (p : path) : frame R :=
  drop_levels (filter_rows (fun r => path_eqb (r_path r) p) f).

(** [clone()] of the objects given to the constructor: parameters only *)
Definition clone_trend (t : trend) : trend :=
  match t with
  | TPiecewise p c _ _ => TPiecewise p c base_init None
  | TFlat s _ _ => TFlat s base_init None
  | TEffect e => TEffect (clone e)
  end.

Section Vectorized.
Variable ns_of : Z -> Z.
Variable order : list string -> list string.
Variable keep : path -> bool.
Context {TS : Type}.
(** [clone()] of a feature transformer *)
Variable tr_clone : TS -> TS.
Variable tr_fit_transform : TS -> frame R -> TS * res (frame R).
Variable tr_transform : TS -> frame R -> res (frame R).
Context {P : Type}.
Variable svi_run : Z -> nat -> nat -> prog arr -> res (list xr * P).
Variable nuts_run : Z -> nat -> nat -> nat -> prog arr -> res (nat -> nat -> env).
Variable latent_sites : prog arr -> list string.
Variable guide_draw : P -> Z -> nat -> prog arr -> env.
Variable complete_draw : env -> Z -> nat -> prog arr -> env.

Definition clone_objects (ob : objects (TS := TS)) : objects (TS := TS) :=
  mkObjects (clone_trend (o_trend ob)) (option_map tr_clone (o_transformer ob)).

(** one row of [forecasters_] *)
Record member := mkMember { m_objects : objects (TS := TS); m_fitted : fitted (P := P); m_y : frame R }.

Definition fit_member (c : config) (ob : objects) (y : frame R) (X : option (frame R)) (p : path) : res (path * member) :=
  let yp := series_frame y p in
  let '(ob', r) := fit_forecaster ns_of order keep tr_fit_transform svi_run nuts_run latent_sites c (clone_objects ob) yp
                     (option_map (fun X => series_frame X p) X) in
  f <- r ;; Ok (p, mkMember ob' f yp).

(** sktime's [_vectorize("fit")], for a target with series levels *)
Definition panel_fit (c : config) (ob : objects) (y : frame R) (X : option (frame R)) : res (list (path * member)) :=
  mapM (fit_member c ob y X) (series_ids y).

(** sktime's [_vectorize("predict")]: results labelled with the series *)
Definition panel_point (c : config) (target : string) (levels : nat) (ms : list (path * member)) (X : option (frame R)) (fh : horizon) : res (frame R) :=
  outs <- mapM (fun pm =>
      o <- snd (forecast_point ns_of keep tr_transform guide_draw complete_draw c (m_objects (snd pm)) (m_fitted (snd pm)) (m_y (snd pm))
                  (option_map (fun X => series_frame X (fst pm)) X) fh) ;;
      Ok (fst pm, o)) ms ;;
  Ok (mkFrame levels [target]
        (flat_map (fun po => map (fun r => mkRow (fst po) (r_time r) (r_vals r)) (f_rows (snd po))) outs)).

(** base.py:431-432 [predict_samples] and 316-317 [predict_all_sites] of a vectorised forecaster *)
Definition panel_samples (c : config) (ms : list (path * member)) (X : option (frame R)) (fh : horizon) : res (frame R) :=
  vectorize_predict
    (map (fun pm => (fst pm, fun X => snd (forecast_samples ns_of keep tr_transform guide_draw complete_draw c
                                             (m_objects (snd pm)) (m_fitted (snd pm)) (m_y (snd pm)) X fh))) ms) X.
Definition panel_all_sites (c : config) (ms : list (path * member)) (X : option (frame R)) (fh : horizon) : res (frame R) :=
  vectorize_predict
    (map (fun pm => (fst pm, fun X => snd (forecast_all_sites ns_of keep tr_transform guide_draw complete_draw c
                                             (m_objects (snd pm)) (m_fitted (snd pm)) (m_y (snd pm)) X fh))) ms) X.
End Vectorized.
Arguments member TS P : clear implicits.
