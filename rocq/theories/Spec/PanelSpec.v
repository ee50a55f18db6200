(** Specification vocabulary: panels for which fitting and forecasting should succeed. *)
From Coq Require Import Reals String Bool ZArith List Sorted.
From Verif.Model Require Import Base Num Frame Arr Regex Scale Prog Effect Trend TrendProg Forecaster.
From Verif.Spec Require Import FrameSpec ScaleSpec TrendSpec ProgSpec ForecasterSpec LineSpec TotalSpec.
Import ListNotations.
Local Open Scope string_scope.

(** One row for each of the given series at each of the given dates; rows of totals may be there as well. *)
Definition total_path (p : path) : Prop := last p "" = "__total".
Definition panel (ids : list path) (times : list Z) (X : frame R) : Prop :=
  frame_wf X /\ f_levels X <> 0 /\ NoDup (labels X) /\
  forall p t, ~ total_path p -> (In (p, t) (labels X) <-> In p ids /\ In t times).

(** [p] is the total of some levels above the series [q]: all levels from some level on are "__total". *)
Definition total_of (p q : path) : Prop := exists k, k < List.length q /\ p = (firstn k q ++ repeat "__total" (List.length q - k))%list.
(** the rows without totals *)
Definition without_totals (y : frame R) : frame R :=
  mkFrame (f_levels y) (f_cols y) (filter (fun r => if in_dec string_dec "__total" (r_path r) then false else true) (f_rows y)).
(** One row for each of the series and each total kept by the aggregation at each of the given dates, and no
    other rows. *)
Definition full_panel (keep : path -> bool) (ids : list path) (times : list Z) (X : frame R) : Prop :=
  frame_wf X /\ f_levels X <> 0 /\ NoDup (labels X) /\
  forall p t, In (p, t) (labels X) <-> (In p ids \/ keep p = true /\ exists q, In q ids /\ total_of p q) /\ In t times.

(** Linear effects and seasonalities are made for panels; the other effects reject them. *)
Definition panel_effect (e : effect) : Prop :=
  match e with
  | Linear _ _ _ => True
  | Fourier _ _ _ _ _ _ _ _ => applicable [] e
  | _ => False
  end.

(** a table without columns counts as none *)
Definition given (X : option (frame R)) : option (frame R) :=
  match X with None => None | Some X => if no_columns X then None else Some X end.

Definition compiles (s : string) : Prop := exists r, compile s = Some r.

(** A well-posed problem for HierarchicalProphet: at least two series [ids] with the same, at least two,
    dates [times]; a piecewise linear or logistic trend (for the latter, the line through each series is
    positive); the target may contain totals of these series; exogenous data, if any, for all series and at least these dates, with column names which are
    valid as regular expressions unless the column is shared; only effects which are made for panels. *)
Record well_posed_panel (ns_of : Z -> Z) (c : config) (ids : list path) (times : list Z) (y : frame R) (X : option (frame R)) : Prop := {
  pp_class : c_hier c = true;
  pp_scale : c_scale c = None;
  pp_ids : NoDup ids /\ 2 <= List.length ids /\ (forall p, In p ids -> ~ total_path p);
  pp_times : StronglySorted Z.lt times /\ 2 <= List.length times;
  pp_target : panel ids times y /\ List.length (f_cols y) = 1 /\
    forall r, In r (f_rows y) -> In "__total" (r_path r) -> (exists q, In q ids /\ total_of (r_path r) q) /\ In (r_time r) times;
  pp_clock : increasing (map (fun t => days_since_epoch (ns_of t)) times);
  pp_interval : (0 < c_interval c)%R;
  pp_range : (0 < c_range c)%R;
  pp_trend : exists name, c_trend c = TrendName name /\
    (In name ["linear"; "linear_raw"] \/ name = "logistic" /\
       forall p, In p ids -> exists a b, least_squares a b (series_points y p) /\ forall t, In t times -> (0 < a + b * IZR t)%R);
  pp_exog : match given X with
            | None => True
            | Some X => (exists times', panel ids times' X /\ forall t, In t times -> In t times') /\
                (forall col, In col (f_cols X) -> ~ In col (match c_shared c with None => [] | Some l => l end) -> compiles col)
            end;
  pp_effects : forall l, In l (effects_of c) -> match l_regex l with None => True | Some s => compiles s end /\ panel_effect (l_effect l);
  pp_default : panel_effect (default_of (c_default c)) }.

(** the exogenous columns that are used *)
Definition used_cols (X : option (frame R)) : list string := match given X with None => [] | Some X => f_cols X end.

(** Data for the dates of a forecast: a table for all series, with at least these dates and the columns [cols]
    used in the fit; or none, if none were used and the series have no gaps ([full_crossing], see C55). *)
Definition panel_future (ids : list path) (cols : list string) (y : frame R) (horizon : list Z) (X : option (frame R)) : Prop :=
  match given X with
  | None => cols = [] /\ full_crossing (without_totals y)
  | Some X => (exists times, panel ids times X /\ forall t, In t horizon -> In t times) /\ forall c, In c cols -> In c (f_cols X)
  end.
