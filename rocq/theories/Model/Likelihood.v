(** The numpyro model functions: src/prophetverse/models.py and src/prophetverse/distributions.py. *)
From Coq Require Import Reals String Bool List.
From Verif.Model Require Import Base Num Arr Prog.
Import ListNotations.
Local Open Scope string_scope.

(** An effect as the model functions see it: called with its prepared data and the components
    computed so far (base.py:306-310 [__call__]).  [D] is the type of prepared data. *)
Definition effect_fn (D : Type) := D -> dict arr -> prog arr.

(** models.py:241-266 [_compute_mean_univariate], the loop body.  [data[name]] raises KeyError;
    [mean += effect] requires equal shapes here (numpy broadcasting is not modelled). *)
Definition apply_effect {D} (data : dict D) (mp : arr * dict arr) (ne : string * effect_fn D)
  : prog (arr * dict arr) :=
  let '(mean, predicted) := mp in
  let '(name, effect) := ne in
  d <~ lift_res (dict_item data name) ;;
  v <~ scope name (effect d predicted) ;;
  v <~ deterministic name v ;;
  mean' <~ lift_res (arr_zip Rplus mean v) ;;
  Ret (mean', dict_set predicted name v).

Fixpoint apply_effects {D} (data : dict D) (mp : arr * dict arr) (effects : dict (effect_fn D))
  : prog (arr * dict arr) :=
  match effects with
  | [] => Ret mp
  | ne :: tl => mp' <~ apply_effect data mp ne ;; apply_effects data mp' tl
  end.

(** models.py:241-266.  [trend] is [trend_model(data=trend_data, predicted_effects={})];
    [data[name]] on [data = None] cannot happen without effects and is a TypeError otherwise. *)
Definition compute_mean {D} (trend : prog arr) (data : option (dict D))
  (effects : option (dict (effect_fn D))) : prog arr :=
  t <~ trend ;;
  _ <~ deterministic "trend" t ;;
  match effects with
  | None | Some [] => Ret t
  | Some effs =>
      match data with
      | None => Raise TypeError
      | Some data => mp <~ apply_effects data (t, [("trend", t)]) effs ;; Ret (fst mp)
      end
  end.

(** models.py:210-238 [_to_positive] *)
Definition to_positive1 (smooth threshold x : R) : R :=
  clip_low threshold (if Rltb x smooth then exp (x - smooth) * smooth else x)%R.
Definition to_positive (x : arr) : arr := arr_map (to_positive1 (/ 100000) (/ 10000000000)) x.

(** distributions.py:34-44 [GammaReparametrized] *)
Definition gamma_rate (loc scale : R) : R := (loc / (scale * scale))%R.
Definition gamma_concentration (loc scale : R) : R := (loc * gamma_rate loc scale)%R.
Definition gamma_reparametrized (loc : arr) (scale : R) : distr :=
  DGamma (arr_map (fun l => gamma_concentration l scale) loc) (arr_map (fun l => gamma_rate l scale) loc).

(** the scalar drawn at a site *)
Definition item0 (a : arr) : R := nth 0 (a_flat a) 0%R.

(** [len(a)] *)
Definition len (a : arr) : res nat := match a_shape a with n :: _ => Ok n | [] => Err TypeError end.

(** models.py:89-124 [univariate_model] *)
Definition univariate_model {D} (y : option arr) (trend : prog arr) (data : option (dict D))
  (effects : option (dict (effect_fn D))) (noise_scale : R) : prog arr :=
  mean <~ compute_mean trend data effects ;;
  noise <~ sample "noise_scale" (DHalfNormal (scalar noise_scale)) [] ;;
  n <~ lift_res (len mean) ;;
  _ <~ plate "data" n ;;
  let m := reshape_col mean in
  observe "obs" (DNormal m (const_arr (a_shape m) (item0 noise))) (a_shape m) y.

(** models.py:127-164 [univariate_gamma_model] *)
Definition univariate_gamma_model {D} (y : option arr) (trend : prog arr) (data : option (dict D))
  (effects : option (dict (effect_fn D))) (noise_scale : R) : prog arr :=
  mean <~ compute_mean trend data effects ;;
  let mean := to_positive mean in
  noise <~ sample "noise_scale" (DHalfNormal (scalar noise_scale)) [] ;;
  n <~ lift_res (len mean) ;;
  _ <~ plate "data" n ;;
  let m := reshape_col mean in
  observe "obs" (gamma_reparametrized m (item0 noise)) (a_shape m) y.

(** models.py:167-207 [univariate_negbinomial_model] *)
Definition univariate_negbinomial_model {D} (y : option arr) (trend : prog arr) (data : option (dict D))
  (effects : option (dict (effect_fn D))) (noise_scale scale : R) : prog arr :=
  mean <~ compute_mean trend data effects ;;
  let mean := to_positive mean in
  let mean := arr_map (fun x => x * scale)%R mean in
  noise <~ sample "noise_scale" (DHalfNormal (scalar noise_scale)) [] ;;
  n <~ lift_res (len mean) ;;
  _ <~ plate "data" n ;;
  let m := reshape_col mean in
  observe "obs" (DNegBinomial2 m (const_arr (a_shape m) (item0 noise * scale)%R)) (a_shape m) y.

(** models.py:13-86 [multivariate_model].  The values of LKJCholesky are n x n matrices.  The plate
    "time" has size [mean.shape[-1]] and dimension -2, which adds a leading axis of length one to
    the multivariate normal. *)
Definition multivariate_model {D} (y : option arr) (trend : prog arr) (data : option (dict D))
  (effects : option (dict (effect_fn D))) (noise_scale concentration : R) (is_single_series : bool)
  : prog arr :=
  mean <~ compute_mean trend data effects ;;
  y <~ match y with
       | None => Ret None
       | Some y => s <~ lift_res (squeeze_last y) ;; Ret (Some (transpose s))
       end ;;
  if is_single_series then
    let m := reshape_col mean in
    std <~ sample "std_observation" (DHalfNormal (scalar noise_scale)) [] ;;
    _ <~ plate "time" 1 ;;
    observe "obs" (DNormal m (const_arr (a_shape m) (item0 std))) (a_shape m) y
  else
    n <~ lift_res (shape_at mean 0) ;;
    std <~ sample "std_observation" (DHalfNormal (const_arr [n] noise_scale)) [n] ;;
    corr <~ sample "corr_matrix" (DLKJCholesky n concentration) [n; n] ;;
    half <~ lift_res (matmul (diag std) corr) ;;
    cov <~ lift_res (matmul half (diag std)) ;;
    t <~ lift_res (shape_at mean 1) ;;
    _ <~ plate "time" (last (a_shape mean) 0) ;;
    loc <~ lift_res (squeeze_last mean) ;;
    observe "obs" (DMvNormal (transpose loc) (tile0 t cov)) (1 :: a_shape (transpose loc)) y.
