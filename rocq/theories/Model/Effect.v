(** Effects: src/prophetverse/effects/{base,linear,log,hill,lift_experiment,fourier}.py and
    src/prophetverse/utils/algebric_operations.py.

    An effect object is a value of type [effect]: constructor parameters together with the mutable
    attributes.  Methods that assign attributes return the new object, also when they raise.
    Frames hold real numbers (missing values in X are not modelled); the target is passed through
    [fit] without being used by these classes and is left out. *)
From Coq Require Import Reals String Bool ZArith List.
From Verif.Model Require Import Base Num Regex Frame Arr Expand Prog.
Import ListNotations.
Local Open Scope string_scope.

(** ["additive"] or ["multiplicative"] *)
Inductive mode := Additive | Multiplicative.

(** base.py:339-347 / check of the constructor argument [effect_mode] *)
Definition check_mode (s : string) : res mode :=
  if String.eqb s "additive" then Ok Additive
  else if String.eqb s "multiplicative" then Ok Multiplicative
  else Err ValueError.

(** Attributes assigned by [BaseEffect.__init__] (base.py:85-87): [_input_feature_column_names] and
    [_is_fitted].  [None]: the attribute does not exist. *)
Record base := mkBase { b_cols : option (list string); b_fitted : option bool }.
Definition base_init : base := mkBase (Some []) (Some false).
Definition no_base : base := mkBase None None.

(** Fitted sktime [FourierFeatures] (external): pairs (period, harmonic) without repeated ratios,
    and the smallest training time of each series. *)
Record fourier_fitted := mkFF { ff_pairs : list (R * nat); ff_min : list (path * Z) }.

(** The class of an effect with its constructor parameters. *)
Inductive effect :=
| Linear (m : mode) (prior : distr) (b : base)
| Log (m : mode) (scale_prior rate_prior : distr) (b : base)
| Hill (m : mode) (half_max_prior slope_prior max_effect_prior : distr) (b : base)
| Lift (inner : effect) (table : list (Z * option R)) (prior_scale : R) (b : base) (scale : option R)
| Fourier (sp_list : list R) (terms_list : list nat) (prior_scale : R) (mode_arg : string) (b : base)
          (features : option fourier_fitted) (expand : option expander) (linear : option (mode * base)).

(** * Constructors *)
(** linear.py:33-41 *)
Definition mk_linear (m : string) (prior : distr) : res effect :=
  m <- check_mode m ;; Ok (Linear m prior base_init).
(** log.py:30-39 *)
Definition mk_log (m : string) (scale_prior rate_prior : distr) : res effect :=
  m <- check_mode m ;; Ok (Log m scale_prior rate_prior base_init).
(** hill.py:34-45 *)
Definition mk_hill (m : string) (half_max slope max_effect : distr) : res effect :=
  m <- check_mode m ;; Ok (Hill m half_max slope max_effect base_init).
(** lift_experiment.py:36-49 *)
Definition mk_lift (inner : effect) (table : list (Z * option R)) (prior_scale : R) : res effect :=
  if Rltb 0 prior_scale then Ok (Lift inner table prior_scale base_init None) else Err AssertionError.
(** fourier.py:45-58: [super().__init__] is not called, the mode is not checked. *)
Definition mk_fourier (sp_list : list R) (terms_list : list nat) (prior_scale : R) (m : string) : effect :=
  Fourier sp_list terms_list prior_scale m no_base None None None.

(** * Tags: base.py:75-83 and the [_tags] of the classes *)
Definition supports_multivariate (e : effect) : bool :=
  match e with Linear _ _ _ | Fourier _ _ _ _ _ _ _ _ => true | Log _ _ _ _ | Hill _ _ _ _ _ | Lift _ _ _ _ _ => false end.
Definition skip_if_no_match (e : effect) : bool :=
  match e with Lift _ _ _ _ _ | Fourier _ _ _ _ _ _ _ _ => false | _ => true end.

Definition get_base (e : effect) : base :=
  match e with
  | Linear _ _ b | Log _ _ _ b | Hill _ _ _ _ b | Lift _ _ _ b _ | Fourier _ _ _ _ b _ _ _ => b
  end.
Definition set_base (e : effect) (b : base) : effect :=
  match e with
  | Linear m p _ => Linear m p b
  | Log m p q _ => Log m p q b
  | Hill m p q r _ => Hill m p q r b
  | Lift i t p _ s => Lift i t p b s
  | Fourier sp tl ps m _ f x l => Fourier sp tl ps m b f x l
  end.
Definition set_cols (e : effect) (cols : list string) : effect :=
  set_base e (mkBase (Some cols) (b_fitted (get_base e))).
Definition set_fitted (e : effect) : effect := set_base e (mkBase (b_cols (get_base e)) (Some true)).

(** attribute access *)
Definition attr {A} (o : option A) : res A := match o with Some a => Ok a | None => Err AttributeError end.

(** base.py:90-93; lift_experiment.py:145-148 returns the attribute of the wrapped effect *)
Definition input_feature_column_names (e : effect) : res (list string) :=
  match e with
  | Lift inner _ _ _ _ => attr (b_cols (get_base inner))
  | _ => attr (b_cols (get_base e))
  end.

(** base.py:95-107 [should_skip_predict]: uses the effect's own attribute *)
Definition should_skip_base (skip_tag : bool) (b : base) : res bool :=
  cols <- attr (b_cols b) ;;
  match cols with [] => Ok skip_tag | _ => Ok false end.
Definition should_skip_predict (e : effect) : res bool :=
  should_skip_base (skip_if_no_match e) (get_base e).

(** [X.empty] *)
Definition frame_empty {V} (X : frame V) : bool :=
  match f_cols X, f_rows X with [], _ | _, [] => true | _, _ => false end.
(** base.py:148-151 *)
Definition columns_seen {V} (X : option (frame V)) : list string :=
  match X with
  | None => []
  | Some X => if frame_empty X then [] else f_cols X
  end.

(** base.py:141-146: [X.index.nlevels > 1] *)
Definition is_panel {V} (X : option (frame V)) : bool :=
  match X with None => false | Some X => negb (Nat.eqb (f_levels X) 0) end.

(** * sktime FourierFeatures (external) *)
(** harmonics of all periods; a ratio k/sp that occurred before is left out *)
Definition fourier_pairs (sp_list : list R) (terms_list : list nat) : list (R * nat) :=
  let all := flat_map (fun st => map (fun k => (fst st, k)) (seq 1 (snd st))) (combine sp_list terms_list) in
  fold_left (fun acc p =>
      if existsb (fun q => Reqb (INR (snd q) / fst q) (INR (snd p) / fst p)) acc then acc else (acc ++ [p])%list) all [].

Fixpoint min_time (t : Z) (l : list Z) : Z := match l with [] => t | x :: tl => min_time (Z.min t x) tl end.

(** [fit]: list lengths must agree, a period needs at least as many steps as harmonics, and the
    smallest time of no rows does not exist. *)
Definition fourier_fit (sp_list : list R) (terms_list : list nat) (X : option (frame R)) : res fourier_fitted :=
  if negb (Nat.eqb (length sp_list) (length terms_list)) then Err ValueError
  else if existsb (fun st => Rltb (fst st) (INR (snd st))) (combine sp_list terms_list) then Err ValueError
  else match X with
  | None => Err TypeError
  | Some X =>
      match f_rows X with
      | [] => Err ValueError
      | _ => Ok (mkFF (fourier_pairs sp_list terms_list)
                   (map (fun s => (fst s, match map r_time (snd s) with [] => 0%Z | t :: ts => min_time t ts end))
                        (iterate_all_series X)))
      end
  end.

(** column names; the model numbers the pairs (in sktime: "sin_7_1", ...) *)
Fixpoint bars (n : nat) : string := match n with 0 => "" | S n => "|" ++ bars n end.
Definition sin_name (i : nat) : string := "sin_" ++ bars i.
Definition cos_name (i : nat) : string := "cos_" ++ bars i.

Definition fourier_angle (pk : R * nat) (t : Z) : R := (2 * PI * INR (snd pk) * IZR t / fst pk)%R.
Definition fourier_vals (pairs : list (R * nat)) (t : Z) : list R :=
  flat_map (fun pk => [sin (fourier_angle pk t); cos (fourier_angle pk t)]) pairs.
Definition fourier_cols (pairs : list (R * nat)) : list string :=
  flat_map (fun i => [sin_name i; cos_name i]) (seq 0 (length pairs)).

(** the training minimum of a series; unknown series are an error *)
Definition find_min (l : list (path * Z)) (p : path) : res Z :=
  match find (fun x => path_eqb (fst x) p) l with Some x => Ok (snd x) | None => Err ValueError end.

Definition fourier_transform (f : fourier_fitted) (X : frame R) : res (frame R) :=
  rows <- mapM (fun r => m <- find_min (ff_min f) (r_path r) ;;
                         Ok (mkRow (r_path r) (r_time r) (fourier_vals (ff_pairs f) (r_time r - m)))) (f_rows X) ;;
  Ok (mkFrame (f_levels X) (fourier_cols (ff_pairs f)) rows).

(** * fit *)
Section WithOrder.
(** iteration order of Python sets, see Expand.v *)
Variable order : list string -> list string.
Let isna (_ : R) : bool := false.

(** what [_fit] does: base.py:156-174 nothing; fourier.py:60-94 *)
Definition inner_fit (e : effect) (X : option (frame R)) : effect * option exn :=
  match e with
  | Fourier sp tl ps m b _ x l =>
      match fourier_fit sp tl X, X with
      | Ok ff, Some X =>
          let e1 := fun x l => Fourier sp tl ps m b (Some ff) x l in
          match fourier_transform ff X with
          | Err ex => (e1 x l, Some ex)
          | Ok XF =>
              let expanded :=
                if negb (Nat.eqb (f_levels XF) 0) && Nat.ltb 1 (length (series_ids XF)) then
                  ex <- expand_fit order [".*"] XF ;;
                  '(XE, ex) <- expand_transform 0%R isna ex XF ;;
                  Ok (XE, Some ex)
                else Ok (XF, x) in
              match expanded with
              | Err err => (e1 x l, Some err)
              | Ok (XE, x') =>
                  match check_mode m with
                  | Err err => (e1 x' l, Some err)
                  | Ok mm => (e1 x' (Some (mm, mkBase (Some (columns_seen (Some XE))) (Some true))), None)
                  end
              end
          end
      | Err ex, _ => (e, Some ex)
      | Ok _, None => (e, Some TypeError)
      end
  | _ => (e, None)
  end.

(** base.py:109-154 [BaseEffect.fit] *)
Definition base_fit (e : effect) (X : option (frame R)) : effect * option exn :=
  if negb (supports_multivariate e) && is_panel X then (e, Some ValueError)
  else
    let e := set_cols e (columns_seen X) in
    let '(e, err) := inner_fit e X in
    match err with Some ex => (e, Some ex) | None => (set_fitted e, None) end.

(** [fit] of an effect object; lift_experiment.py:51-79 fits the wrapped effect first *)
Fixpoint fit (e : effect) (X : option (frame R)) (scale : R) : effect * option exn :=
  match e with
  | Lift inner table ps b s =>
      let '(inner', err) := fit inner X scale in
      match err with
      | Some ex => (Lift inner' table ps b s, Some ex)
      | None => base_fit (Lift inner' table ps b (Some scale)) X
      end
  | _ => base_fit e X
  end.

(** * transform *)
(** Prepared data. *)
Inductive edata :=
| ENothing                                        (* {} *)
| EArr (a : arr)
| ELift (inner : edata) (lift : list (option R)). (* lift divided by the scale; None is NaN *)

(** base.py:215-218: rows of the horizon *)
Definition filter_fh {V} (fh : list Z) (X : frame V) : frame V :=
  filter_rows (fun r => existsb (Z.eqb (r_time r)) fh) X.

(** jax array of a prepared frame with [k] columns: frame_to_array.py:80-96 *)
Definition arr_of_data (k : nat) (d : data3 (V := R)) : arr :=
  match d with
  | D2 rows => mkArr [length rows; k] (concat rows)
  | D3 series => mkArr [length series; match series with [] => 0 | s :: _ => length s end; k]
                       (concat (map (@concat R) series))
  end.
Definition frame_array (X : frame R) : res arr :=
  d <- series_to_tensor_or_array X ;; Ok (arr_of_data (length (f_cols X)) d).

(** base.py:208-221 for the inner linear effect of a seasonality *)
Definition linear_transform (b : base) (X : frame R) (fh : list Z) : res edata :=
  fitted <- attr (b_fitted b) ;;
  if negb fitted then Err ValueError
  else
    skip <- should_skip_base true b ;;
    if (skip : bool) then Ok ENothing
    else
      cols <- attr (b_cols b) ;;
      X <- select_columns 0%R (filter_fh fh X) cols ;;
      a <- frame_array X ;; Ok (EArr a).

(** [lift_test_results.reindex(fh)] for one column with unique dates *)
Definition lift_at (table : list (Z * option R)) (t : Z) : option R :=
  match find (fun x => Z.eqb (fst x) t) table with Some x => snd x | None => None end.

(** [_transform]: base.py:223-251, lift_experiment.py:81-109, fourier.py:96-125 *)
Fixpoint inner_transform (e : effect) (X : frame R) (fh : list Z) : res edata :=
  match e with
  | Lift inner table _ _ scale =>
      d <- inner_transform inner X fh ;;
      s <- attr scale ;;
      Ok (ELift d (map (fun t => option_map (fun v => v / s)%R (lift_at table t)) fh))
  | Fourier _ _ _ _ _ ff x l =>
      ff <- attr ff ;;
      X <- fourier_transform ff X ;;
      X <- match x with
           | None => Ok X
           | Some x => '(X, _) <- expand_transform 0%R isna x X ;; Ok X
           end ;;
      '(_, b) <- attr l ;;
      linear_transform b X fh
  | _ => a <- frame_array X ;; Ok (EArr a)
  end.

(** base.py:176-221; [X[...]] on [X = None] is a TypeError *)
Definition transform (e : effect) (X : option (frame R)) (fh : list Z) : res edata :=
  fitted <- attr (b_fitted (get_base e)) ;;
  if negb fitted then Err ValueError
  else
    skip <- should_skip_predict e ;;
    if (skip : bool) then Ok ENothing
    else
      cols <- input_feature_column_names e ;;
      match X with
      | None => Err TypeError
      | Some X =>
          X <- select_columns 0%R (filter_fh fh X) cols ;;
          inner_transform e X fh
      end.

End WithOrder.

(** * predict *)
(** algebric_operations.py:9-26: [data @ coefficients.reshape((-1, 1))] for data with last axis k *)
Definition matrix_multiplication (data : arr) (coefs : list R) : res arr :=
  match rev (a_shape data) with
  | k :: rest =>
      if Nat.eqb k (length coefs) then
        let n := prod_shape (rev rest) in
        Ok (mkArr (rev rest ++ [1]) (map (fun row => dot row coefs) (chunks k n (a_flat data))))
      else Err TypeError
  | [] => Err TypeError
  end.

(** linear.py:43-76.  With the scalar priors considered here the plate gives one coefficient per
    feature; numpyro refuses plates of size 0. *)
Definition linear_raw (prior : distr) (data : edata) : prog arr :=
  match data with
  | EArr a =>
      match rev (a_shape a) with
      | [] => Raise IndexError
      | 0 :: _ => Raise AssertionError
      | k :: _ =>
          _ <~ plate "features_plate" k ;;
          c <~ sample "coefs" prior [k] ;;
          lift_res (matrix_multiplication a (a_flat c))
      end
  | _ => Raise AttributeError
  end.

(** log.py:41-67, one entry *)
Definition log1 (scale rate x : R) : R := (scale * ln (clip_low (/ 100000000) (rate * x + 1)))%R.
Definition log_raw (scale_prior rate_prior : distr) (data : edata) : prog arr :=
  match data with
  | EArr a =>
      s <~ sample "log_scale" scale_prior [] ;;
      r <~ sample "log_rate" rate_prior [] ;;
      Ret (arr_map (log1 (nth 0 (a_flat s) 0%R) (nth 0 (a_flat r) 0%R)) a)
  | _ => Raise TypeError
  end.

(** [x ** e] for floats: defined for positive x, and for negative x when e is an integer *)
Definition float_power (x e : R) : res R :=
  if Rltb 0 x then Ok (Rpower x e)
  else if Reqb x 0 then Err NotFinite
  else if Reqb e (IZR (Rfloor e)) then Ok (powerRZ x (Rfloor e)) else Err NotFinite.
(** algebric_operations.py:29-45 [_exponent_safe], one entry *)
Definition exponent_safe (x e : R) : res R := if Reqb x 0 then Ok 0%R else float_power x e.
(** hill.py:67-73, one entry *)
Definition hill1 (half_max slope max_effect x : R) : res R :=
  if Reqb half_max 0 then Err NotFinite
  else
    p <- exponent_safe (x / half_max) (- slope) ;;
    if Reqb (1 + p) 0 then Err NotFinite else Ok (max_effect / (1 + p))%R.
Definition hill_raw (half_max_prior slope_prior max_effect_prior : distr) (data : edata) : prog arr :=
  match data with
  | EArr a =>
      h <~ sample "half_max" half_max_prior [] ;;
      s <~ sample "slope" slope_prior [] ;;
      m <~ sample "max_effect" max_effect_prior [] ;;
      vs <~ lift_res (mapM (hill1 (nth 0 (a_flat h) 0%R) (nth 0 (a_flat s) 0%R) (nth 0 (a_flat m) 0%R)) (a_flat a)) ;;
      Ret (mkArr (a_shape a) vs)
  | _ => Raise TypeError
  end.

(** base.py:347-385 [BaseAdditiveOrMultiplicativeEffect.predict] around [_predict] *)
Definition predict_mode (m : mode) (raw : prog arr) (predicted : dict arr) : prog arr :=
  trend <~ lift_res (dict_item predicted "trend") ;;
  let trend := if Nat.eqb (ndim trend) 1 then reshape_col trend else trend in
  x <~ raw ;;
  x <~ lift_res (reshape (a_shape trend) x) ;;
  match m with
  | Additive => Ret x
  | Multiplicative => lift_res (arr_zip Rmult trend x)
  end.

Definition is_some {A} (o : option A) : bool := match o with Some _ => true | None => false end.
Definition opt_or_0 (o : option R) : R := match o with Some v => v | None => 0%R end.

(** [predict]: base.py:253-280, lift_experiment.py:111-143, fourier.py:127-151.
    The masked observation has the recorded lifts as values, with an arbitrary number (0) at the
    masked places; the lift data has one column. *)
Fixpoint predict (e : effect) (data : edata) (predicted : dict arr) : prog arr :=
  match e with
  | Linear m prior _ => predict_mode m (linear_raw prior data) predicted
  | Log m sp rp _ => predict_mode m (log_raw sp rp data) predicted
  | Hill m hp sp mp _ => predict_mode m (hill_raw hp sp mp data) predicted
  | Lift inner _ ps _ _ =>
      match data with
      | ELift d lift =>
          x <~ predict inner d predicted ;;
          _ <~ observe "lift_experiment" (DMasked (map is_some lift) (DNormal x (const_arr (a_shape x) ps)))
                 [length lift; 1] (Some (mkArr [length lift; 1] (map opt_or_0 lift))) ;;
          Ret x
      | ENothing => Raise KeyError
      | EArr _ => Raise TypeError
      end
  | Fourier _ _ ps _ _ _ _ l =>
      match l with
      | None => Raise AttributeError
      | Some (m, _) => predict_mode m (linear_raw (DNormal (scalar 0) (scalar ps)) data) predicted
      end
  end.

(** [effect.clone()]: a new object with the same parameters (sktime) *)
Fixpoint clone (e : effect) : effect :=
  match e with
  | Linear m p _ => Linear m p base_init
  | Log m p q _ => Log m p q base_init
  | Hill m p q r _ => Hill m p q r base_init
  | Lift i t ps _ _ => Lift (clone i) t ps base_init None
  | Fourier sp tl ps m _ _ _ _ => mk_fourier sp tl ps m
  end.
