(** C85, continued: exact errors of scales, column patterns, elementwise operations and tables of samples. *)
From Coq Require Import Reals String Bool ZArith List Lia.
From Verif.Model Require Import Base Num XFloat Regex Arr Frame Expand Aggregate Scale Predict.
From Verif.Facts Require Import RaiseScale.
Import ListNotations.
Local Open Scope string_scope.

(** base.py:469-482 [_set_y_scales]: no given scale and a series without values *)
Theorem C85_scales : forall user (y : frame R) e, set_y_scales user y = Err e <->
  e = ValueError /\ user = None /\
  ((f_levels y = 0%nat /\ forall r, In r (f_rows y) -> r_vals r = []) \/
   (f_levels y <> 0%nat /\ exists p, In p (series_ids y) /\ forall r, In r (rows_of y p) -> r_vals r = [])).
Proof. exact raise_scales. Qed.

(** base.py:511-518, 547-553: an integer scale (the replacement of a zero scale, or given by the user);
    scales per series for a table without series levels; a series without scale; a pandas Series of
    scales, whose values act per column *)
Theorem C85_scaling : forall op discrete s (y : frame R) e, apply_scale op discrete s y = Err e <->
  discrete = false /\
  ((e = AttributeError /\ exists z, s = SInt z) \/
   exists tab, (s = STable tab \/ s = SSeries tab) /\
     ((e = ValueError /\ f_levels y = 0%nat) \/
      (e = KeyError /\ f_levels y <> 0%nat /\ exists r, In r (f_rows y) /\ ~ In (r_path r) (map fst tab)) \/
      (e = ValueError /\ s = SSeries tab /\ f_levels y <> 0%nat /\ (forall r, In r (f_rows y) -> In (r_path r) (map fst tab)) /\
        List.length (f_rows y) <> List.length (f_cols y)))).
Proof. exact raise_scaling_in. Qed.

(** sktime/base.py:1088-1115: a pattern that does not compile, whatever the columns *)
Theorem C85_pattern : forall columns re e, match_columns columns (Some re) = Err e <-> e = ValueError /\ compile re = None.
Proof. exact raise_match. Qed.
Theorem C85_pattern_column : forall re c e, col_match re c = Err e <-> e = ValueError /\ compile re = None.
Proof. exact raise_col_match. Qed.

Theorem C85_elementwise : forall f a b e, arr_zip f a b = Err e <-> e = TypeError /\ a_shape a <> a_shape b.
Proof. exact raise_zip. Qed.

(** base.py:431-446 [predict_samples]: a posterior predictive without observations, or observations without a sample axis *)
Theorem C85_samples_site : forall lb times draws, (forall a, ~ In ("obs", a) draws) -> predict_samples_base lb times draws = Err KeyError.
Proof. intros lb times draws N. apply raise_samples_site. now apply no_obs. Qed.
Theorem C85_samples_axis : forall lb times draws a, dict_get draws "obs" = Some a -> a_shape a = [] ->
  predict_samples_base lb times draws = Err IndexError.
Proof. exact raise_samples_axis. Qed.

(** base.py:382-413 [predict_all_sites_samples], every site with the same number of samples *)
Theorem C85_all_sites_samples : forall lb times draws index e n, periodindex_to_multiindex lb times = Ok index ->
  (forall k v, In (k, v) draws -> exists sh, a_shape v = n :: sh) ->
  predict_all_sites_samples lb times draws = Err e <->
  e = ValueError /\ (draws = [] \/ exists k v, In (k, v) draws /\ List.length (a_flat v) <> (n * List.length index)%nat).
Proof. exact raise_all_sites_samples. Qed.

Print Assumptions C85_scales.
Print Assumptions C85_scaling.
Print Assumptions C85_pattern.
Print Assumptions C85_elementwise.
Print Assumptions C85_samples_site.
Print Assumptions C85_samples_axis.
Print Assumptions C85_all_sites_samples.

(** two series "a", "b"; scales of "a" only; a Series of two scales for two rows and one column *)
Example C85_scaling_nonvacuous :
  let y := mkFrame 1 ["y"] [mkRow ["a"] 0%Z [2%R]; mkRow ["b"] 0%Z [3%R]] in
  apply_scale Rdiv false (STable [(["a"], 2%R)]) y = Err KeyError /\
  apply_scale Rdiv false (SSeries [(["a"], 2%R); (["b"], 3%R)]) y = Err ValueError /\
  apply_scale Rdiv false (SInt 1) y = Err AttributeError /\ apply_scale Rdiv true (SInt 1) y = Ok y /\
  (exists z, apply_scale Rdiv false (STable [(["a"], 2%R); (["b"], 3%R)]) y = Ok z) /\
  set_y_scales None (mkFrame 1 ["y"] [mkRow ["a"] 0%Z []]) = Err ValueError /\ (exists s, set_y_scales None y = Ok s).
Proof. cbv zeta. repeat split; eexists; reflexivity. Qed.
Example C85_pattern_nonvacuous : match_columns ["x"] (Some "(") = Err ValueError /\ match_columns ["x"; "y"] (Some "x") = Ok ["x"] /\
  arr_zip Rplus (scalar 1) (mkArr [1] [1%R]) = Err TypeError.
Proof. repeat split. Qed.
Example C85_all_sites_samples_nonvacuous : exists lb index, periodindex_to_multiindex lb [0%Z] = Ok index /\ List.length index = 1%nat /\
  predict_all_sites_samples lb [0%Z] [("obs", mkArr [2; 1] [1; 2]%R); ("z", mkArr [2; 2] [1; 2; 3; 4]%R)] = Err ValueError /\
  (exists t, predict_all_sites_samples lb [0%Z] [("obs", mkArr [2; 1] [1; 2]%R)] = Ok t) /\
  predict_samples_base lb [0%Z] [("z", scalar 1)] = Err KeyError /\ predict_samples_base lb [0%Z] [("obs", scalar 1)] = Err IndexError.
Proof. exists (mkLab 0 [([], 0%Z)] false (SFloat 1) false). eexists. split; [reflexivity|]. split; [reflexivity|]. repeat split. eexists. reflexivity. Qed.
