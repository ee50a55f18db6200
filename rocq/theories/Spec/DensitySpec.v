(** The joint density which inference works on. *)
From Coq Require Import Reals String Bool List.
From Verif.Model Require Import Base Num Frame Arr Prog Effect Trend TrendProg Forecaster.
From Verif.Spec Require Import FrameSpec ProgSpec.
Import ListNotations.
Local Open Scope string_scope.

(** the values drawn at the latent site [n] *)
Definition drawn (e : env) (n : string) (sh : list nat) : arr := mkArr sh (map (e n) (seq 0 (prod_shape sh))).

(** [e] and [e'] give the same values to all latent sites outside the scope [name] *)
Definition agree_outside (name : string) (e e' : env) : Prop := forall n, (forall x, n <> name ++ "/" ++ x) -> forall j, e n j = e' n j.

Section Density.
(** log densities of the distributions *)
Variable logpdf : distr -> arr -> R.

(** [p], run alone, returns [v], and the log densities of its sample statements add up to [r] *)
Definition has_density {A} (e : env) (p : prog A) (v : A) (r : R) : Prop :=
  exists tr, run e [] p = Ok (v, tr) /\ log_joint logpdf tr = r.

(** log prior of the parameters of the noise, for [n] series *)
Definition noise_prior (c : config) (single : bool) (n : nat) (e : env) : R :=
  (if c_hier c then
     if single then logpdf (DHalfNormal (scalar (c_noise c))) (drawn e "std_observation" [])
     else logpdf (DHalfNormal (const_arr [n] (c_noise c))) (drawn e "std_observation" [n]) +
          logpdf (DLKJCholesky n (c_concentration c)) (drawn e "corr_matrix" [n; n])
   else logpdf (DHalfNormal (scalar (c_noise c))) (drawn e "noise_scale" []))%R.

(** The log density of a run is the sum of those of the trend alone ([rt]), of each effect alone given the
    value of the trend ([rs]), of the noise, and of the observations. *)
Definition decomposes (c : config) (p : prepared) (t : trend) (td : tdata) (data : dict edata) (e : env) (tr : trace) : Prop :=
  exists tv rt rs n d v b,
    dict_get tr "trend" = Some (SDet tv) /\ has_density e (trend_predict t td) tv rt /\
    Forall2 (fun ne r => exists x w, dict_get data (fst ne) = Some x /\ dict_get tr (fst ne) = Some (SDet w) /\
        has_density (own_env e (fst ne)) (predict (snd ne) x [("trend", tv)]) w r) (p_effects p) rs /\
    (c_hier c = true -> p_single p = false -> nth_error (a_shape tv) 0 = Some n) /\
    dict_get tr "obs" = Some (SSample d v b) /\
    log_joint logpdf tr = (rt + Rsum rs + noise_prior c (p_single p) n e + logpdf d v)%R.
End Density.

(** * Effects without data *)
(** a linear or logarithmic effect *)
Definition plain_effect (ef : effect) : Prop := match ef with Linear _ _ _ | Log _ _ _ _ => True | _ => False end.

(** prepared data with [k] columns in which every entry is zero *)
Definition all_zero (k : nat) (x : edata) : Prop := exists a, x = EArr a /\ last (a_shape a) 0 = k /\ forall v, In v (a_flat a) -> v = 0%R.

(** log prior of the parameters of such an effect; [k] is the number of columns *)
Definition own_prior (logpdf : distr -> arr -> R) (ef : effect) (k : nat) (e : env) : R :=
  match ef with
  | Linear _ prior _ => logpdf prior (drawn e "coefs" [k])
  | Log _ scale_prior rate_prior _ => (logpdf scale_prior (drawn e "log_scale" []) + logpdf rate_prior (drawn e "log_rate" []))%R
  | _ => 0%R
  end.

(** no row of [X] has anything but zero in the columns of [cols] *)
Definition zero_columns (cols : list string) (X : frame R) : Prop :=
  forall r n v, In r (f_rows X) -> In n cols -> value_of (f_cols X) (r_vals r) n = Some v -> v = 0%R.
