(** Specification vocabulary: inputs for which fitting and forecasting should succeed. *)
From Coq Require Import Reals String Bool ZArith List Sorted.
From Verif.Model Require Import Base Num Frame Arr Regex Scale Prog Effect Trend TrendProg Forecaster.
From Verif.Spec Require Import FrameSpec ScaleSpec TrendSpec ProgSpec ForecasterSpec LineSpec.
Import ListNotations.
Local Open Scope string_scope.

(** The effect can be evaluated on data with the columns [cols]. *)
Fixpoint applicable (cols : list string) (e : effect) : Prop :=
  match e with
  | Linear _ _ _ => cols <> []
  | Log _ _ _ _ | Hill _ _ _ _ _ => List.length cols = 1
  | Lift inner _ _ _ _ => applicable cols inner
  | Fourier sp terms _ m _ _ _ _ =>
      List.length sp = List.length terms /\ (forall s n, In (s, n) (combine sp terms) -> (INR n <= s)%R) /\
      (exists n, In n terms /\ n <> 0) /\ (m = "additive" \/ m = "multiplicative")
  end.
(** or it is left out because it has no columns *)
Definition usable (cols : list string) (e : effect) : Prop :=
  (cols = [] /\ skip_if_no_match e = true) \/ applicable cols e.

(** Hill effects need non-negative data and a positive half-max *)
Fixpoint has_hill (e : effect) : bool :=
  match e with Hill _ _ _ _ _ => true | Lift inner _ _ _ _ => has_hill inner | _ => false end.
Definition non_negative (X : frame R) (c : string) : Prop :=
  forall r v, In r (f_rows X) -> value_of (f_cols X) (r_vals r) c = Some v -> (0 <= v)%R.

(** a single series of exogenous data with one row for each of the given dates (and possibly others) *)
Definition covers (X : frame R) (times : list Z) : Prop :=
  frame_wf X /\ f_levels X = 0 /\ NoDup (map r_time (f_rows X)) /\ forall t, In t times -> In t (map r_time (f_rows X)).

(** the columns of the exogenous data *)
Definition exog_cols (X : option (frame R)) : list string := match X with None => [] | Some X => f_cols X end.
(** the least squares line of the target over time is positive on the target's dates *)
Definition positive_line (y : frame R) : Prop :=
  exists a b, least_squares a b (series_points y []) /\ forall r, In r (f_rows y) -> (0 < a + b * IZR (r_time r))%R.

(** A well-posed problem for Prophetverse: a target with one column and at least two dates in increasing
    order; a known likelihood and a named trend (for the logistic one, the line through the target is
    positive); exogenous data, if any, for all dates of the target; effects which can use the columns they
    match; a default effect which can use the others; a positive scale. *)
Record well_posed (ns_of : Z -> Z) (c : config) (y : frame R) (X : option (frame R)) : Prop := {
  wp_class : c_hier c = false;
  wp_likelihood : In (c_likelihood c) ["normal"; "gamma"; "negbinomial"];
  wp_target : frame_wf y /\ f_levels y = 0 /\ List.length (f_cols y) = 1 /\ 2 <= List.length (f_rows y);
  wp_dates : StronglySorted Z.lt (map r_time (f_rows y));
  wp_clock : increasing (map (fun t => days_since_epoch (ns_of t)) (map r_time (f_rows y)));
  wp_interval : (0 < c_interval c)%R;
  wp_range : (0 < c_range c)%R;
  wp_trend : exists name, c_trend c = TrendName name /\
    (In name ["linear"; "linear_raw"; "flat"] \/ name = "logistic" /\ positive_line y);
  wp_scale : match c_scale c with
             | None => discrete c = true \/ exists r v, In r (f_rows y) /\ In v (r_vals r) /\ v <> 0%R
             | Some (SFloat k) => (0 < k)%R
             | Some (SInt z) => discrete c = true /\ (0 < z)%Z
             | Some _ => False
             end;
  wp_exog : match X with None => True | Some X => covers X (map r_time (f_rows y)) end;
  wp_effects : forall l, In l (effects_of c) -> exists cols, match_columns (exog_cols X) (l_regex l) = Ok cols /\ usable cols (l_effect l);
  wp_default : forall cs, cs <> [] -> NoDup cs -> (forall x, In x cs <-> In x (exog_cols X) /\ forall l, In l (effects_of c) -> ~ matched (l_regex l) x) ->
    usable cs (default_of (c_default c)) }.

(** the data of Hill effects is not negative *)
Definition hill_data (c : config) (X : option (frame R)) : Prop :=
  match X with
  | None => True
  | Some X =>
      (forall l x, In l (effects_of c) -> has_hill (l_effect l) = true -> matched (l_regex l) x -> non_negative X x) /\
      (has_hill (default_of (c_default c)) = true -> forall x, (forall l, In l (effects_of c) -> ~ matched (l_regex l) x) -> non_negative X x)
  end.
(** the half-max values of Hill effects are positive *)
Definition hill_values_positive (c : config) (e : env) : Prop :=
  (forall l, In l (effects_of c) -> has_hill (l_effect l) = true -> (0 < e (l_name l ++ "/" ++ "half_max") 0%nat)%R) /\
  (has_hill (default_of (c_default c)) = true -> (0 < e (default_name ++ "/" ++ "half_max") 0%nat)%R).

(** names and shapes of the sites of a run, in the order they are recorded *)
Definition site_shape (s : site) : list nat := match s with SSample _ v _ | SDet v => a_shape v | SPlate n => [n] end.
Definition layout (tr : trace) : list (string * list nat) := map (fun x => (fst x, site_shape (snd x))) tr.
(** the sites that the predictive returns: all but plates and latent variables *)
Definition returned (latent : list string) (x : string * site) : bool :=
  match snd x with SSample _ _ _ => negb (existsb (String.eqb (fst x)) latent) | SDet _ => true | SPlate _ => false end.
