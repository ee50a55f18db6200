(** Specification vocabulary for the correspondence of exogenous rows with series and dates. *)
From Coq Require Import Reals String Bool ZArith List Sorted.
From Verif.Model Require Import Base Num Frame Arr Prog Effect Expand Aggregate Trend TrendProg Forecaster.
From Verif.Spec Require Import FrameSpec ScaleSpec ProgSpec ForecasterSpec.
Import ListNotations.
Local Open Scope string_scope.

(** effects whose data are the values of their columns *)
Definition plain (e : effect) : bool := match e with Linear _ _ _ | Log _ _ _ _ | Hill _ _ _ _ _ => true | _ => false end.

(** The rows of the array [a] are the rows of [X] with the labels [L], in this order; its columns are
    [cols]. *)
Definition data_at (X : frame R) (cols : list string) (L : list (path * Z)) (a : arr) : Prop :=
  List.length (a_flat a) = List.length L * List.length cols /\
  forall q p t, nth_error L q = Some (p, t) -> exists r, In r (f_rows X) /\ r_path r = p /\ r_time r = t /\
    forall j c, nth_error cols j = Some c -> value_of (f_cols X) (r_vals r) c = Some (entry a (q * List.length cols + j)).

(** every plain effect of the model gets the rows of [X] with the labels [L] *)
Definition effects_at (X : frame R) (L : list (path * Z)) (p : prepared) (data : dict edata) : Prop :=
  forall n e, dict_get (p_effects p) n = Some e -> plain e = true ->
    exists f a, In f (p_fitted p) /\ fe_name f = n /\ fe_effect f = e /\ fe_cols f <> [] /\
      dict_get data n = Some (EArr a) /\ data_at X (fe_cols f) L a.

(** strictly ascending labels *)
Definition ascending (L : list (path * Z)) : Prop := StronglySorted (fun a b => label_leb a b = true) L /\ NoDup L.

(** a piecewise linear or logistic trend with one changepoint interval and range for all series *)
Definition scalar_piecewise (t : trend) : Prop :=
  match t with TPiecewise p _ _ _ => (exists a, pw_interval p = Scalar a) /\ (exists r, pw_range p = Scalar r) | _ => False end.
