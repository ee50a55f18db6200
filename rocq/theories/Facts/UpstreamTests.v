(** Conformance: the project's own unit tests (/repo/tests) with concrete expected values, as statements
    about the model.  Tests of Python types, attributes, plotting or random draws have no counterpart.
    Not covered: NaN in the data of the logistic suggestion (test_piecewise.py:205-210) and a lookup by a
    label which includes the time (test_frame_to_array.py:41-45), which the model cannot express. *)
From Coq Require Import Reals String Bool ZArith List Lia Lra.
From Verif.Model Require Import Base Num XFloat Regex Frame Arr Expand Aggregate Trend Predict Prog Likelihood Effect TrendProg Engine Forecaster Params Estimator Tensors.
From Verif.Facts Require Import BaseFacts NumFacts LikelihoodFacts TrendFacts TrendExamples EffectExamples ForecasterExamples.
Import ListNotations.
Local Open Scope string_scope.
Local Open Scope R_scope.

(** * trend/test_piecewise.py *)
(** an entry of the changepoint matrix with integer times *)
Lemma entry_Z t c : changepoint_entry (IZR t) (IZR c) = IZR (Z.max 0 ((if (c <=? t)%Z then t else 0) - c + 1)).
Proof.
  unfold changepoint_entry, clip_low. destruct (Z.leb_spec c t) as [H|H].
  - apply IZR_le in H as H'. rewrite (proj2 (Rleb_true (IZR c) (IZR t)) H'). rewrite Z.max_r by lia. rewrite plus_IZR, minus_IZR. rewrite Rmax_right; lra.
  - apply IZR_lt in H as H'. rewrite (proj2 (Rleb_false (IZR c) (IZR t))) by lra.
    destruct (Z_le_dec (0 - c + 1) 0) as [G|G].
    + rewrite Z.max_l by lia. apply IZR_le in G as G'. rewrite plus_IZR, minus_IZR in G'. rewrite Rmax_left; lra.
    + rewrite Z.max_r by lia. rewrite plus_IZR, minus_IZR. assert (G' : (0 <= 0 - c + 1)%Z) by lia. apply IZR_le in G'. rewrite plus_IZR, minus_IZR in G'. rewrite Rmax_right; lra.
Qed.

(** lines 156-164 *)
Example test_get_changepoint_matrix :
  map (changepoint_row [5]) (map IZR [0; 1; 2; 3; 4; 5; 6; 7; 8; 9]%Z) = [[0]; [0]; [0]; [0]; [0]; [1]; [2]; [3]; [4]; [5]].
Proof. cbn [map]. unfold changepoint_row. cbn [map]. rewrite !entry_Z. reflexivity. Qed.

(** lines 117-133 *)
Example test_single_series_matrix :
  multi_changepoint_matrix [[2; 5]] (map IZR [0; 1; 2; 3; 4; 5; 6]%Z) =
  [[[0; 0]; [0; 0]; [1; 0]; [2; 0]; [3; 0]; [4; 1]; [5; 2]]].
Proof. unfold multi_changepoint_matrix. cbn. rewrite !entry_Z. cbn. rewrite !Rmult_1_l. reflexivity. Qed.

(** lines 136-153 *)
Example test_multiple_series_matrix :
  multi_changepoint_matrix [[5]; [3]] (map IZR [0; 1; 2; 3; 4; 5; 6; 7; 8; 9]%Z) =
  [[[0; 0]; [0; 0]; [0; 0]; [0; 0]; [0; 0]; [1; 0]; [2; 0]; [3; 0]; [4; 0]; [5; 0]];
   [[0; 0]; [0; 0]; [0; 0]; [0; 1]; [0; 2]; [0; 3]; [0; 4]; [0; 5]; [0; 6]; [0; 7]]].
Proof. unfold multi_changepoint_matrix. cbn. rewrite !entry_Z. cbn. rewrite !Rmult_1_l, !Rmult_0_l. reflexivity. Qed.

(** lines 84-91 *)
Example test_to_list_if_scalar : to_list_if_scalar (Scalar 5) 3 = [5; 5; 5] /\ to_list_if_scalar (PerSeries [5; 6]) 3 = [5; 6].
Proof. split; reflexivity. Qed.

Lemma ceil_Z z : Rceil (IZR z) = z.
Proof. destruct (Rceil_spec (IZR z)) as (A & B). apply le_IZR in B. rewrite <- (minus_IZR _ 1) in A. apply lt_IZR in A. lia. Qed.

(** lines 99-103: t = 0, 1, ..., 100, interval 10, range 50 *)
Example test_changepoint_timeindexes : List.length (changepoint_times 100 10 50) = 5%nat.
Proof.
  unfold changepoint_times, changepoint_limit. rewrite (proj2 (Rltb_false 50 1)) by lra. cbn [andb]. rewrite (proj2 (Rleb_true 1 50)) by lra.
  rewrite arange0_length. replace (50 / 10) with (IZR 5) by lra. now rewrite ceil_Z.
Qed.

(** lines 106-114: 100 days, interval 10, range 90; nine changepoints, shape (100, 9) *)
Example test_changepoint_matrix_shape : exists m,
  get_changepoint_matrix true [changepoint_times 99 10 90] (map INR (seq 0 100)) = D2 m /\
  List.length m = 100%nat /\ Forall (fun r => List.length r = 9%nat) m.
Proof.
  assert (L : List.length (changepoint_times 99 10 90) = 9%nat).
  { unfold changepoint_times, changepoint_limit. rewrite (proj2 (Rltb_false 90 1)) by lra. cbn [andb]. rewrite (proj2 (Rleb_true 1 90)) by lra.
    rewrite arange0_length. replace (90 / 10) with (IZR 9) by lra. now rewrite ceil_Z. }
  assert (T : List.length (map INR (seq 0 100)) = 100%nat) by now rewrite map_length, seq_length.
  generalize dependent (map INR (seq 0 100)). generalize dependent (changepoint_times 99 10 90). intros cps L ts T.
  unfold get_changepoint_matrix, multi_changepoint_matrix. cbn [List.length seq map concat]. rewrite app_nil_r.
  eexists. split; [reflexivity|]. split; [now rewrite map_length|].
  apply Forall_forall. intros r I. apply in_map_iff in I as (t & <- & _). rewrite map_length, combine_length, seq_length, L. reflexivity.
Qed.

(** * models/test_to_positive.py: smooth, threshold as in models.py *)
Example test_to_positive : Forall (fun x => Forall (fun v => 0 < v) (a_flat (to_positive (scalar x)))) [10000000000; 1000; 1; -1; -1000; -10000000000].
Proof. apply Forall_forall. intros x _. apply Forall_forall. intros v. apply to_positive_pos. Qed.

(** * test_engine.py *)
Example test_raises_error_when_nan_loss : nan_loss [XF 1; XF 2; XNaN] = Ok true /\ nan_loss [XF 1; XF 2; XF 3] = Ok false.
Proof. split; reflexivity. Qed.

(** * distributions/test_gamma.py: mean and variance of Gamma(concentration, rate) *)
Example test_gamma_moments : Forall (fun ls => let c := gamma_concentration (fst ls) (snd ls) in let r := gamma_rate (fst ls) (snd ls) in
  c / r = fst ls /\ c / (r * r) = snd ls * snd ls) [(1, 1); (10, 1); (5, 2)].
Proof. repeat constructor; unfold gamma_concentration, gamma_rate; cbn [fst snd]; field. Qed.

(** * effects/test_base.py *)
Example test_bad_effect_mode : check_mode "bad_mode" = Err ValueError.
Proof. reflexivity. Qed.
Example test_not_fitted : Forall (fun e => transform e (Some (mkFrame 0 [] [])) [] = Err ValueError)
  [Linear Additive (DUser 0) base_init; Log Additive (DUser 0) (DUser 1) base_init; Hill Additive (DUser 0) (DUser 1) (DUser 2) base_init].
Proof. repeat constructor. Qed.

(** * effects/test_linear.py: coefficients 1 *)
Definition ones : env := fun _ _ => 1.
Definition col (l : list R) : arr := mkArr [List.length l; 1%nat] l.
Definition result (e : env) (p : prog arr) : res arr := r <- run e [] p ;; Ok (fst r).
Definition lin_data : edata := EArr (mkArr [3; 2]%nat [1; 2; 2; 3; 3; 4]).

Example test_linear_multiplicative :
  result ones (predict (Linear Multiplicative (DUser 0) base_init) lin_data [("trend", col [1; 2; 3])]) = Ok (col [1 * (1 + 2); 2 * (2 + 3); 3 * (3 + 4)]).
Proof. cbv -[Rplus Rmult IZR]. do 2 f_equal. repeat f_equal; ring. Qed.
Example test_linear_additive :
  result ones (predict (Linear Additive (DUser 0) base_init) lin_data [("trend", col [1; 2; 3])]) = Ok (col [1 + 2; 2 + 3; 3 + 4]).
Proof. cbv -[Rplus Rmult IZR]. do 2 f_equal. repeat f_equal; ring. Qed.

(** * effects/test_hill.py *)
Definition hill_env : env := fun n _ => if String.eqb n "half_max" then 1 / 2 else if String.eqb n "slope" then 1 else 3 / 2.
Lemma hill_value x : 0 < x -> hill1 (1 / 2) 1 (3 / 2) x = Ok (3 / 2 / (1 + / (x / (1 / 2)))).
Proof.
  intros P. unfold hill1, exponent_safe, float_power. rewrite (proj2 (Reqb_false (1 / 2) 0)) by lra.
  rewrite (proj2 (Reqb_false (x / (1 / 2)) 0)) by lra. rewrite (proj2 (Rltb_true 0 (x / (1 / 2)))) by lra. cbn [bind].
  rewrite Rpower_Ropp, Rpower_1 by lra. assert (0 < / (x / (1 / 2))) by (apply Rinv_0_lt_compat; lra).
  rewrite (proj2 (Reqb_false _ 0)) by lra. reflexivity.
Qed.
Lemma test_hill m : result hill_env (predict (Hill m (DUser 0) (DUser 1) (DUser 2) base_init) (EArr (col [1 / 2; 1; 3 / 2])) [("trend", col [1; 2; 3])]) =
  Ok (col (match m with Additive => map (fun x => 3 / 2 / (1 + / (x / (1 / 2)))) [1 / 2; 1; 3 / 2]
           | Multiplicative => map (fun tx => fst tx * (3 / 2 / (1 + / (snd tx / (1 / 2))))) [(1, 1 / 2); (2, 1); (3, 3 / 2)] end)).
Proof.
  unfold result, predict, predict_mode, hill_raw. cbn. unfold hill_env. cbn. rewrite !hill_value by lra. cbn. destruct m; reflexivity.
Qed.
(** the numbers of the tests: 3/4, 1, 9/8 (additive) *)
Example test_hill_additive : result hill_env (predict (Hill Additive (DUser 0) (DUser 1) (DUser 2) base_init) (EArr (col [1 / 2; 1; 3 / 2])) [("trend", col [1; 2; 3])]) =
  Ok (col [3 / 4; 1; 9 / 8]).
Proof. rewrite test_hill. cbn [map]. unfold col. cbn [List.length]. do 2 f_equal. repeat (apply (f_equal2 cons); [field|]). reflexivity. Qed.
Example test_hill_multiplicative : result hill_env (predict (Hill Multiplicative (DUser 0) (DUser 1) (DUser 2) base_init) (EArr (col [1 / 2; 1; 3 / 2])) [("trend", col [1; 2; 3])]) =
  Ok (col [3 / 4; 2; 27 / 8]).
Proof. rewrite test_hill. cbn [map fst snd]. unfold col. cbn [List.length]. do 2 f_equal. repeat (apply (f_equal2 cons); [field|]). reflexivity. Qed.

(** * effects/test_log.py: scale 1/2, rate 2 *)
Definition log_env : env := fun n _ => if String.eqb n "log_scale" then 1 / 2 else 2.
Definition log_expected (x : R) : R := 1 / 2 * ln (2 * x + 1).
Lemma log_value x : 0 <= x -> log1 (1 / 2) 2 x = log_expected x.
Proof. intros P. unfold log1, log_expected, clip_low. rewrite Rmax_right by lra. reflexivity. Qed.
Lemma test_log m : result log_env (predict (Log m (DUser 0) (DUser 1) base_init) (EArr (col [1; 2; 3])) [("trend", col [1; 2; 3])]) =
  Ok (col (match m with Additive => map log_expected [1; 2; 3] | Multiplicative => [1 * log_expected 1; 2 * log_expected 2; 3 * log_expected 3] end)).
Proof. unfold result, predict, predict_mode, log_raw. cbn. unfold log_env. cbn. rewrite !log_value by lra. destruct m; reflexivity. Qed.
(** vectors; the result is a column, the comparison in the test broadcasts *)
Example test_log_zero_data : result log_env (predict (Log Multiplicative (DUser 0) (DUser 1) base_init) (EArr (mkArr [3%nat] [0; 0; 0])) [("trend", mkArr [3%nat] [1; 2; 3])]) =
  Ok (col [0; 0; 0]).
Proof.
  unfold result, predict, predict_mode, log_raw. cbn. unfold log_env. cbn. rewrite !log_value by lra. unfold log_expected.
  replace (2 * 0 + 1) with 1 by lra. rewrite ln_1. unfold col. cbn [List.length]. do 2 f_equal. repeat (apply (f_equal2 cons); [lra|]). reflexivity.
Qed.
Example test_log_empty_data : result log_env (predict (Log Multiplicative (DUser 0) (DUser 1) base_init) (EArr (mkArr [0%nat] [])) [("trend", mkArr [0%nat] [])]) = Ok (col []).
Proof. reflexivity. Qed.

(** * effects/test_lift_experiment.py: coefficient 2 *)
Definition lift_X : frame R := mkFrame 0 ["exog"] (map (fun k => mkRow [] (Z.of_nat k) [INR (10 * (k + 1))]) (seq 0 6)).
Definition lift_table : list (Z * option R) := map (fun k => (Z.of_nat k, Some (INR (k + 1)))) (seq 0 6).
Definition lift_trend : arr := mkArr [6%nat] [1; 2; 3; 4; 5; 6].
Definition lift_effect : effect := Lift (Linear Multiplicative (DUser 0) base_init) lift_table 1 base_init None.
Definition fh6 : list Z := [0; 1; 2; 3; 4; 5]%Z.
Example test_lift_predict : exists inner e d di v,
  fit (fun l => l) lift_effect (Some lift_X) 1 = (e, None) /\ (exists t p b s, e = Lift inner t p b s /\ s = Some 1) /\
  transform e (Some lift_X) fh6 = Ok d /\ transform inner (Some lift_X) fh6 = Ok di /\
  result (fun _ _ => 2) (predict e d [("trend", lift_trend)]) = Ok v /\ result (fun _ _ => 2) (predict inner di [("trend", lift_trend)]) = Ok v.
Proof.
  eexists _, _, _, _, _. split; [reflexivity|]. split; [eexists _, _, _, _; split; reflexivity|].
  split; [reflexivity|]. split; [reflexivity|]. split; reflexivity.
Qed.

(** * trend/test_flat.py: values 0, 1, ..., 9 on ten days *)
Definition ten : frame R := mkFrame 0 ["data"] (map (fun k => mkRow [] (Z.of_nat k) [INR k]) (seq 0 10)).
Definition ten_index : frame R := mkFrame 0 [] (map (fun k => mkRow [] (Z.of_nat k) []) (seq 0 10)).
Example test_flat_initialize : flat_fit ten = 45 / 10.
Proof. unfold flat_fit. cbn. unfold Rmean, Rsum. cbn. field. Qed.
Example test_flat_fit : exists t, trend_fit day_ns (fun l => l) (TFlat (1 / 10) base_init None) None ten 1 = (t, None) /\
  trend_transform day_ns t ten_index (map Z.of_nat (seq 0 10)) = Ok (TArray (col (repeat 1 10))).
Proof. eexists. split; reflexivity. Qed.
Example test_flat_compute_trend c :
  result (fun _ _ => c) (trend_predict (TFlat (1 / 10) base_init (Some (45 / 10))) (TArray (col (repeat 1 10)))) = Ok (col (repeat (1 * c) 10)).
Proof. reflexivity. Qed.

(** * sktime/test_base.py, second case: [effect1__prior] changes the effect in place and keeps name and pattern *)
Example test_set_params :
  set_param "effect1" (Linear Multiplicative (DLaplace (scalar 0) (scalar 1)) base_init)
    (Some [("effect1", Linear Multiplicative (DNormal (scalar 10) (scalar 2)) base_init, Some "(x1).*")]) =
  Ok [("effect1", Linear Multiplicative (DLaplace (scalar 0) (scalar 1)) base_init, Some "(x1).*")].
Proof. reflexivity. Qed.

(** * sktime/test_seasonality.py *)
Definition accepted {A} (r : res A) : bool := match r with Ok _ => true | Err _ => false end.
Example test_seasonal_transformer :
  accepted (seasonal_transformer "D" (PyBool true) (PyBool true)) = true /\
  accepted (seasonal_transformer "D" (PyInt 12) (PyInt 4)) = true /\
  seasonal_transformer "D" PyOther (PyInt 3) = Err ValueError /\ seasonal_transformer "D" (PyInt 10) PyOther = Err ValueError /\
  accepted (seasonal_transformer "D" (PyBool false) (PyBool false)) = true /\
  seasonal_transformer "D" (PyBool true) PyOther = Err ValueError /\ seasonal_transformer "D" PyOther (PyBool true) = Err ValueError /\
  (exists a, seasonal_transformer "M" (PyBool false) (PyBool false) = Ok a /\ fa_freq a = "M").
Proof. repeat split; try reflexivity. eexists. split; reflexivity. Qed.

(** * sktime/test_expand_column_per_level.py *)
Definition expand_X : frame Z := mkFrame 1 ["value1"; "value2"; "other"]
  [mkRow ["series1"] 1 [1; 4; 10]%Z; mkRow ["series1"] 2 [2; 3; 20]%Z; mkRow ["series2"] 1 [3; 2; 30]%Z; mkRow ["series2"] 2 [4; 1; 40]%Z].
Definition expanded : res (frame Z) :=
  e <- expand_fit (fun l => l) ["value"] expand_X ;; '(X, _) <- expand_transform 0%Z (fun _ => false) e expand_X ;; Ok X.
Definition iloc (f : frame Z) (c : string) (k : nat) : option Z :=
  match col_pos (f_cols f) c, nth_error (f_rows f) k with Some i, Some r => nth_error (r_vals r) i | _, _ => None end.
Example test_fit_identifies_matched_columns : exists e, expand_fit (fun l => l) ["value"] expand_X = Ok e /\ ex_matched e = ["value1"; "value2"].
Proof. eexists. split; vm_compute; reflexivity. Qed.
Example test_fit_identifies_matched_columns_flat : exists e,
  expand_fit (fun l => l) ["value"] (mkFrame 0 (f_cols expand_X) (map (fun r => mkRow [] (r_time r) (r_vals r)) (rows_of expand_X ["series1"]))) = Ok e /\
  ex_matched e = ["value1"; "value2"].
Proof. eexists. split; vm_compute; reflexivity. Qed.
Example test_transform : exists f, expanded = Ok f /\
  incl ["value1_dup_series1"; "value1_dup_series2"; "value2_dup_series1"; "value2_dup_series2"; "other"] (f_cols f) /\
  iloc f "value1_dup_series1" 0 = Some 1%Z /\ iloc f "value2_dup_series1" 0 = Some 4%Z /\
  iloc f "value1_dup_series2" 2 = Some 3%Z /\ iloc f "value2_dup_series2" 2 = Some 2%Z /\
  iloc f "value1_dup_series1" 2 = Some 0%Z /\ iloc f "value2_dup_series1" 2 = Some 0%Z /\
  List.length (filter (Z.eqb 0) (concat (map r_vals (f_rows f)))) = 8%nat.
Proof.
  destruct expanded as [f|] eqn:E; vm_compute in E; [|discriminate]. injection E as <-. eexists. split; [reflexivity|].
  split; [|vm_compute; repeat split; reflexivity]. intros c I. vm_compute. vm_compute in I. intuition.
Qed.

(** * sktime/test_univariate.py *)
Example test_raise_error_when_passing_parameters : Forall (fun kw => construct false prophetverse kw = Err ValueError)
  [[("trend", PStr "bad_trend")]; [("likelihood", PStr "bad_likelihood")]; [("offset_prior_scale", num (-1))];
   [("capacity_prior_scale", num (-1))]; [("changepoint_interval", num (-1))]].
Proof.
  assert (P : forall x, 0 < x -> Rleb x 0 = false) by (intros x H; apply Rleb_false; lra).
  assert (N : Rleb (-1) 0 = true) by (apply Rleb_true; lra).
  repeat (apply Forall_cons; [lazy -[Rleb IZR Rplus Rmult Rdiv Ropp Rinv]; repeat first [rewrite N|rewrite P by lra]; reflexivity|]). apply Forall_nil.
Qed.

(** * models/multivariate_model/test_multiindex.py *)
Definition two_groups (V : Type) (v : V) (n : nat) : frame V :=
  mkFrame 1 ["value1"; "value2"] (flat_map (fun g => map (fun k => mkRow [g] (Z.of_nat k) [v; v]) (seq 0 n)) ["A"; "B"]).
Example test_reindex_timeseries : map fst (reindex_time_series (two_groups nat 0%nat 5) (map Z.of_nat (seq 0 10))) =
  flat_map (fun g => map (fun k => ([g], Z.of_nat k)) (seq 0 10)) ["A"; "B"].
Proof. vm_compute. reflexivity. Qed.

(** * models/multivariate_model/test_frame_to_array.py *)
Definition sample_data : frame nat := two_groups nat 0%nat 3.
Example test_get_bottom_series_idx : get_bottom_series_idx sample_data = Ok [["A"]; ["B"]].
Proof. reflexivity. Qed.
Example test_get_bottom_series_idx_raises_error : get_bottom_series_idx (mkFrame 0 ["A"] [mkRow [] 1 [1%nat]; mkRow [] 2 [2%nat]; mkRow [] 3 [3%nat]]) = Err ValueError.
Proof. reflexivity. Qed.
Example test_iterate_all_series : Forall (fun s => List.length (snd s) = 3%nat) (iterate_all_series sample_data).
Proof. repeat constructor. Qed.
Example test_series_to_tensor : exists t, series_to_tensor sample_data = Ok t /\ List.length t = 2%nat /\
  Forall (fun s => List.length s = 3%nat /\ Forall (fun r => List.length r = 2%nat) s) t.
Proof. eexists. split; [reflexivity|]. split; [reflexivity|]. repeat constructor. Qed.
Example test_convert_dataframe_to_tensors : exists t x, convert_dataframe_to_tensors day_ns sample_data = Ok (t, x).
Proof. eexists _, _. reflexivity. Qed.

(** all aggregate nodes kept ([flatten_single_levels=False]) *)
Fixpoint nodes (levels : list nat) : list path :=
  match levels with
  | [] => [[]]
  | n :: tl => flat_map (fun k => map (cons (nth k ["a"; "b"; "c"; "d"] "e")) (nodes tl)) (seq 0 n)
  end.
Definition make_hierarchical (v : nat -> R) (levels : list nat) (times : nat) : frame R :=
  mkFrame (List.length levels) ["c0"] (map (fun ipk => mkRow (fst (snd ipk)) (snd (snd ipk)) [v (fst ipk)])
    (let l := flat_map (fun p => map (fun k => (p, Z.of_nat k)) (seq 0 times)) (nodes levels) in combine (seq 0 (List.length l)) l)).
Definition bottom_of_aggregate (f : frame R) : res (frame R) := g <- loc_bottom_series (aggregate (fun _ => true) f) ;; Ok (sort_index g).
Example test_loc_bottom_series v : Forall (fun levels => let f := make_hierarchical v levels 12 in bottom_of_aggregate f = Ok (sort_index f)) [[2; 4; 4]; [2]]%nat.
Proof. repeat constructor; vm_compute; reflexivity. Qed.

(** * sktime/test_utils.py: two levels, three bottom series *)
Definition bottom_hier (v : nat -> R) : frame R := aggregate (fun _ => true) (make_hierarchical v [1; 3]%nat 12).
Example test_utils_bottom_idx v : exists l, get_bottom_series_idx (bottom_hier v) = Ok l /\ List.length l = 3%nat.
Proof. destruct (get_bottom_series_idx (bottom_hier v)) as [l|] eqn:E; vm_compute in E; [|discriminate]. injection E as <-. eexists. split; reflexivity. Qed.
Example test_utils_loc v : exists g, get_multiindex_loc (bottom_hier v) [["a"; "a"]] = Ok g /\
  f_rows g = filter (fun r => path_eqb (r_path r) ["a"; "a"]) (f_rows (bottom_hier v)) /\ List.length (f_rows g) = 12%nat.
Proof. eexists. split; [reflexivity|]. split; vm_compute; reflexivity. Qed.
Example test_utils_loc_bottom v : exists g, loc_bottom_series (bottom_hier v) = Ok g /\
  f_rows g = filter (fun r => existsb (path_eqb (r_path r)) [["a"; "a"]; ["a"; "b"]; ["a"; "c"]]) (f_rows (bottom_hier v)) /\ List.length (f_rows g) = 36%nat.
Proof.
  destruct (loc_bottom_series (bottom_hier v)) as [g|] eqn:E; vm_compute in E; [|discriminate]. injection E as <-. eexists.
  split; [reflexivity|]. split; vm_compute; reflexivity.
Qed.
Example test_utils_iterate v : List.length (iterate_all_series (bottom_hier v)) = List.length (series_ids (bottom_hier v)).
Proof. vm_compute. reflexivity. Qed.
Example test_utils_days : List.length (map (fun k => days_since_epoch (day_ns (18262 + Z.of_nat k))) (seq 0 5)) = 5%nat.
Proof. reflexivity. Qed.

(** * sktime/test_univariate.py, sktime/test_multivariate.py: the listed effects of [HYPERPARAMS], two of
    them with the same columns, one without any; with random, no and empty exogenous data *)
Definition listed_effects : list listed :=
  [("lineareffect1", lin, Some "(x1).*"); ("lineareffect1_repeated", lin, Some "(x1).*"); ("lineareffect2", lin, Some "(x2).*"); ("lineareffect_no_match", lin, Some "(x10).*")].
Definition rename (cols : list string) (X : frame R) : frame R := mkFrame (f_levels X) cols (f_rows X).
Definition fit_listed (hier : bool) (y : frame R) (s : Scale.scale) (X : option (frame R)) :=
  fit_data ex_ns (fun l => l) keep_all ex_fit_transform (flat_config hier listed_effects) (no_objects None) s y X.
Definition no_columns (X : frame R) : frame R := mkFrame (f_levels X) [] (map (fun r => mkRow (r_path r) (r_time r) []) (f_rows X)).
Example test_hyperparams_univariate : Forall (fun X => succeeds (fit_listed false ex_y (Scale.SFloat 2) X) = true)
  [Some (rename ["x1"; "x2"] Xu); None; Some (no_columns Xu)].
Proof. repeat (apply Forall_cons; [vm_compute; reflexivity|]). apply Forall_nil. Qed.
Example test_hyperparams_hierarchical :
  Forall (fun X => succeeds (fit_listed true ex_yh (Scale.STable [(["__total"], 1); (["a"], 1); (["b"], 1)]) X) = true)
  [Some (rename ["x1"; "x2"] ex_Xh); None; Some (no_columns ex_Xh)].
Proof. repeat (apply Forall_cons; [vm_compute; reflexivity|]). apply Forall_nil. Qed.
