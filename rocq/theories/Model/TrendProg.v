(** Trend models as effects: the methods [fit], [transform] and [predict] of
    src/prophetverse/effects/trend/{base,piecewise,flat}.py as inherited from effects/base.py, on top
    of the computations in Trend.v. *)
From Coq Require Import Reals String Bool ZArith List.
From Verif.Model Require Import Base Num XFloat Frame Arr Expand Prog Effect Trend.
Import ListNotations.
Local Open Scope string_scope.

(** A trend object: PiecewiseLinearTrend / PiecewiseLogisticTrend (with its capacity prior), FlatTrend
    or any other effect used as a trend.  The last component is what [_fit] stores. *)
Inductive trend :=
| TPiecewise (p : piecewise_params) (capacity : distr) (b : base) (f : option piecewise_fitted)
| TFlat (prior_scale : R) (b : base) (loc : option R)
| TEffect (e : effect).

(** Prepared data of a trend. *)
Inductive tdata :=
| TMatrix (m : data3 (V := R))
| TArray (a : arr)
| TData (d : edata).

Section Trend.
Variable ns_of : Z -> Z.
Variable order : list string -> list string.

(** effects/base.py:109-154 with the [_fit] of the trend classes.  Trend classes support panels.  When
    [_fit] raises, the attributes it may have assigned before are not modelled. *)
Definition trend_fit (t : trend) (X : option (frame R)) (y : frame R) (scale : R) : trend * option exn :=
  match t with
  | TPiecewise p c b f =>
      match piecewise_fit ns_of p y with
      | Ok f' => (TPiecewise p c (mkBase (Some (columns_seen X)) (Some true)) (Some f'), None)
      | Err e => (TPiecewise p c (mkBase (Some (columns_seen X)) (b_fitted b)) f, Some e)
      end
  | TFlat s _ _ => (TFlat s (mkBase (Some (columns_seen X)) (Some true)) (Some (flat_fit y)), None)
  | TEffect e => let '(e', err) := fit order e X scale in (TEffect e', err)
  end.

(** effects/base.py:176-221 with the [_transform] of the trend classes; trends are never skipped. *)
Definition trend_rows (b : base) (X : frame R) (fh : list Z) : res (frame R) :=
  fitted <- attr (b_fitted b) ;;
  if negb fitted then Err ValueError
  else cols <- attr (b_cols b) ;; select_columns 0%R (filter_fh fh X) cols.
Definition trend_transform (t : trend) (X : frame R) (fh : list Z) : res tdata :=
  match t with
  | TPiecewise _ _ b f => _ <- trend_rows b X fh ;; f <- attr f ;; Ok (TMatrix (piecewise_transform ns_of f fh))
  | TFlat _ b _ => X <- trend_rows b X fh ;; Ok (TArray (flat_transform X))
  | TEffect e => d <- transform e (Some X) fh ;; Ok (TData d)
  end.
End Trend.

(** a finite number; other prior locations make the density NaN *)
Definition finite (x : xr) : res R := match x with XF r => Ok r | _ => Err NotFinite end.
Definition vector (l : list R) : arr := mkArr [List.length l] l.

(** piecewise.py:160-203 and 535-560 [_predict] with the sample sites.  Location and scale vectors
    of the changepoint prior must have the same length (broadcasting is not modelled). *)
Definition piecewise_prog (capacity : distr) (f : piecewise_fitted) (m : data3 (V := R)) : prog arr :=
  let n := pf_n_series f in
  let squeeze := pw_squeeze (pf_params f) in
  let vectors (k : list R -> list R -> prog arr) : prog arr :=
    locs <~ lift_res (mapM finite (pf_offset_loc f)) ;;
    o <~ sample "offset" (DNormal (vector locs) (const_arr [List.length locs] (pw_offset_scale (pf_params f)))) [List.length locs] ;;
    _ <~ (if Nat.eqb (List.length (pf_cp_loc f)) (List.length (pf_cp_scale f)) then Ret tt else Raise ValueError) ;;
    c <~ sample "changepoint_coefficients" (DLaplace (vector (pf_cp_loc f)) (vector (pf_cp_scale f))) [List.length (pf_cp_loc f)] ;;
    k (a_flat o) (a_flat c) in
  match pw_logistic (pf_params f) with
  | None => vectors (fun o c => lift_res (piecewise_predict squeeze n m o c))
  | Some _ =>
      _ <~ plate "series" n ;;
      cap <~ sample "capacity" capacity [n; 1; 1] ;;
      vectors (fun o c => lift_res (logistic_predict squeeze n m (a_flat cap) o c))
  end.

(** flat.py:59-91 [_predict]; the prior parameters have shape (1,) *)
Definition flat_prog (prior_scale loc : R) (data : arr) : prog arr :=
  let '(concentration, rate) := flat_prior loc prior_scale in
  c <~ sample "trend_flat_coefficient" (DGamma (vector [concentration]) (vector [rate])) [1] ;;
  Ret (flat_predict data (nth 0 (a_flat c) 0%R)).

(** [trend_model(data=trend_data, predicted_effects={})] *)
Definition trend_predict (t : trend) (d : tdata) : prog arr :=
  match t, d with
  | TPiecewise _ c _ (Some f), TMatrix m => piecewise_prog c f m
  | TFlat s _ (Some loc), TArray a => flat_prog s loc a
  | TEffect e, TData d => predict e d []
  | TPiecewise _ _ _ None, _ | TFlat _ _ None, _ => Raise AttributeError
  | _, _ => Raise TypeError
  end.
