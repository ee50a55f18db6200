(** The table the effects of a fit are given. *)
From Coq Require Import Reals String Bool ZArith List.
From Verif.Model Require Import Base Num Frame Expand Aggregate Trend Effect Forecaster.
From Verif.Spec Require Import TransformerSpec.
Import ListNotations.

(** [X0] is what the user gave (or a table without columns for the dates of the target), [X1] what the feature transformer
    makes of it.  Prophetverse takes the rows of the target's dates, HierarchicalProphet expands the columns that are not shared. *)
Definition effects_table (order : list string -> list string) (keep : path -> bool) {TS} (tr_fit_transform : TS -> frame R -> TS * res (frame R))
  (c : config) (ob ob' : objects (TS := TS)) (y : frame R) (X : option (frame R)) (Xe : frame R) : Prop :=
  exists X0 X1, transformer_input c (given_table keep c y X) = Ok X0 /\
    match o_transformer ob with
    | None => X1 = X0 /\ o_transformer ob' = None
    | Some tr => exists tr', tr_fit_transform tr X0 = (tr', Ok X1) /\ o_transformer ob' = Some tr'
    end /\
    if c_hier c then
      if no_columns X1 then Xe = X1
      else exists ex, expand_bottom 0%R (fun _ => false) order (match c_shared c with None => [] | Some l => l end) X1 = Ok (Xe, ex)
    else loc_index X1 (index_of y) = Ok Xe.
