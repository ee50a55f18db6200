(** What a feature transformer is given, and when the table it returns can be used. *)
From Coq Require Import Reals String Bool ZArith List.
From Verif.Model Require Import Base Num Frame Arr Expand Aggregate Scale Predict Prog Likelihood Trend Effect
  TrendProg Engine Forecaster.
From Verif.Spec Require Import FrameSpec ForecasterSpec AlignSpec TotalSpec.
Import ListNotations.

(** A table for [y] if the user gives none: HierarchicalProphet works with the aggregated target and
    only reads tables with columns. *)
Definition given_table (keep : path -> bool) (c : config) (y : frame R) (X : option (frame R)) : frame R :=
  let bare := if c_hier c then empty_frame (f_levels y) (index_of (aggregate keep y))
              else empty_frame (f_levels y) (index_of y) in
  match X with
  | None => bare
  | Some X => if c_hier c && no_columns X then bare else X
  end.
Definition given_future (keep : path -> bool) (c : config) (y : frame R) (times : list Z) (X : option (frame R)) : frame R :=
  let bare := if c_hier c then aggregate keep (empty_frame (f_levels y) (map fst (reindex_time_series y times)))
              else empty_frame 0 (map (fun t => ([], t)) times) in
  match X with
  | None => bare
  | Some X => if c_hier c && no_columns X then bare else X
  end.

(** The transformer sees the rows of the bottom series only. *)
Definition transformer_input (c : config) (T : frame R) : res (frame R) :=
  if c_hier c then loc_bottom_series T else Ok T.

(** [X1], made from [X0], has the rows of [X0] *)
Definition keeps_rows (X0 X1 : frame R) : Prop :=
  f_levels X1 = f_levels X0 /\ labels X1 = labels X0 /\ frame_wf X1.

(** Prophetverse fits its trend on the table of the user, so the columns of that must remain;
    HierarchicalProphet needs the rows and some column. *)
Definition usable_table (c : config) (seen : list string) (X0 X1 : frame R) : Prop :=
  if c_hier c then keeps_rows X0 X1 /\ f_cols X1 <> []
  else forall col, In col seen -> In col (f_cols X1).

Definition without_transformer {TS} (ob : objects (TS := TS)) : objects (TS := TS) := mkObjects (o_trend ob) None.

(** equal but for the recorded names of columns *)
Definition forget_columns (t : trend) : trend :=
  match t with
  | TPiecewise p d b f => TPiecewise p d (mkBase None (b_fitted b)) f
  | TFlat s b f => TFlat s (mkBase None (b_fitted b)) f
  | TEffect e => TEffect e
  end.

(** the dates asked for *)
Definition asked {P} (c : config) (f : fitted (P := P)) (y : frame R) (fh : horizon) : res (list Z) :=
  cutoff <- max_time (if c_hier c then map snd (p_index (ft_prepared f)) else map r_time (f_rows y)) ;;
  Ok (to_absolute cutoff fh).

(** Fitting with a transformer: it is given the table, and returns the usable table [X1] and its state [tr'].
    (For Prophetverse the trend is not an effect object, which could read the untransformed table.) *)
Definition fit_transformed (keep : path -> bool) {TS} (tr_fit_transform : TS -> frame R -> TS * res (frame R))
  (c : config) (ob : objects (TS := TS)) (y : frame R) (X : option (frame R)) (tr' : TS) (X1 : frame R) : Prop :=
  exists tr X0, o_transformer ob = Some tr /\ (c_hier c = false -> forall e, get_trend_model c ob <> Ok (TEffect e)) /\
  frame_wf (given_table keep c y X) /\ transformer_input c (given_table keep c y X) = Ok X0 /\
  tr_fit_transform tr X0 = (tr', Ok X1) /\ usable_table c (exog_cols X) X0 X1.

(** Forecasting with it: it returns the usable table [X21] for the dates asked for. *)
Definition future_transformed (keep : path -> bool) {TS} (tr_transform : TS -> frame R -> res (frame R)) {P}
  (c : config) (f : fitted (P := P)) (y : frame R) (X : option (frame R)) (X1 : frame R) (tr : TS)
  (X2 : option (frame R)) (fh : horizon) (X21 : frame R) : Prop :=
  exists times X20, asked c f y fh = Ok times /\ frame_wf (given_future keep c y times X2) /\
  transformer_input c (given_future keep c y times X2) = Ok X20 /\ tr_transform tr X20 = Ok X21 /\
  usable_table c (exog_cols X ++ f_cols X1) X20 X21.
