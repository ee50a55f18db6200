(** A frame whose columns are not in alphabetical order. *)
From Coq Require Import Reals String ZArith List.
From Verif.Model Require Import Base Num Frame.
Import ListNotations.
Local Open Scope string_scope.

Definition Xw : frame R := mkFrame 0 ["web"; "tv"] [mkRow [] 0 [10; 1]; mkRow [] 1 [20; 2]; mkRow [] 7 [30; 3]]%R.
