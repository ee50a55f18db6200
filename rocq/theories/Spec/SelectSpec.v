(** Patterns that select the same columns. *)
From Coq Require Import Reals String ZArith List.
From Verif.Model Require Import Base Num XFloat Regex Frame Arr Prog Likelihood Effect TrendProg Engine Predict Forecaster.
From Verif.Spec Require Import ForecasterSpec IdleSpec.
Import ListNotations.

(** some effect of the fitted forecaster, the default one included, reads this column *)
Definition used {P} (f : fitted (P := P)) (d : string) : Prop := exists g, In g (p_fitted (ft_prepared f)) /\ In d (fe_cols g).

(** the same effect under the same name, with a pattern that agrees on the columns [cols]: the same or another one *)
Definition same_selection (cols : string -> Prop) (l l' : listed) : Prop :=
  l_name l' = l_name l /\ l_effect l' = l_effect l /\ (l_regex l' = l_regex l \/ readable (l_regex l')) /\ forall d, cols d -> matched (l_regex l') d <-> matched (l_regex l) d.
