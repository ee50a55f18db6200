(** Properties C23, C25-C35: the effects. *)
From Coq Require Import Reals String Bool ZArith List Permutation.
From Verif.Model Require Import Base Num Frame Arr Prog Effect.
From Verif.Spec Require Import FrameSpec ProgSpec EffectSpec.
From Verif.Facts Require Import EffectFacts EffectPredict EffectFourier EffectProps EffectExamples.
Import ListNotations.
Local Open Scope string_scope.

(** * C23 Full statement: transform of an effect that was not fitted raises ValueError, for every
    class.  LinearFourierSeasonality raises AttributeError instead. *)
Theorem C23_unfitted_partial : forall e X fh, constructed e -> is_fourier e = false -> transform e X fh = Err ValueError.
Proof. exact unfitted_valueerror. Qed.
Print Assumptions C23_unfitted_partial.

(** the same for any object whose flag says it was not fitted (e.g. after a rejected fit) *)
Theorem C23_flag : forall e X fh, b_fitted (get_base e) = Some false -> transform e X fh = Err ValueError.
Proof. exact unfitted_flag. Qed.
Print Assumptions C23_flag.

Theorem C23_clone_partial : forall e X fh, no_fourier e = true -> transform (clone e) X fh = Err ValueError.
Proof. exact unfitted_clone. Qed.
Print Assumptions C23_clone_partial.

Theorem C23_fourier_refuted : forall e X fh, constructed e -> is_fourier e = true -> transform e X fh = Err AttributeError.
Proof. exact fourier_unfitted_constructed. Qed.
Print Assumptions C23_fourier_refuted.

Example C23_nonvacuous : constructed lin /\ constructed (mk_fourier [7%R] [3] 1 "additive") /\ is_fourier (mk_fourier [7%R] [3] 1 "additive") = true.
Proof. split; [exact (c_linear "multiplicative" (DUser 0) lin eq_refl)|]. split; [constructor|reflexivity]. Qed.

(** * C24 (effects; the forecaster's part is in PropForecaster) *)
(** an effect records no columns iff it was given no table, a table without columns or a table without rows; otherwise it records them all *)
Theorem C24_no_columns : forall (X : option (frame R)), columns_seen X = [] <-> forall X', X = Some X' -> f_cols X' = [] \/ f_rows X' = [].
Proof.
  intros [[l cs rs]|]; cbn; [|split; [discriminate|reflexivity]]. unfold frame_empty. cbn. split.
  - intros H X' [= <-]. cbn. destruct cs; [now left|]. destruct rs; [now right|discriminate H].
  - intros H. destruct (H _ eq_refl) as [E|E]; cbn in E; subst; [reflexivity|]. destruct cs; reflexivity.
Qed.
Theorem C24_all_columns : forall (X : frame R), f_rows X <> [] -> columns_seen (Some X) = f_cols X.
Proof. intros [l cs [|r rs]] H; cbn in *; [congruence|]. unfold frame_empty. cbn. now destruct cs. Qed.
Print Assumptions C24_no_columns.
Print Assumptions C24_all_columns.

Theorem C24_skipped : forall order e X s e' fh, fit order e X s = (e', None) -> columns_seen X = [] ->
  skip_if_no_match e = true -> should_skip_predict e' = Ok true /\ forall X', transform e' X' fh = Ok ENothing.
Proof. exact c24_skip. Qed.
Print Assumptions C24_skipped.

Theorem C24_take_part : forall order e X s e', fit order e X s = (e', None) -> columns_seen X <> [] \/ skip_if_no_match e = false ->
  should_skip_predict e' = Ok false.
Proof. exact c24_take_part. Qed.
Print Assumptions C24_take_part.

Theorem C24_classes : forall e, skip_if_no_match e = false <->
  (exists i t p b s, e = Lift i t p b s) \/ is_fourier e = true.
Proof.
  intros e. split.
  - destruct e; simpl; try discriminate; intros _; [left; repeat eexists|right; reflexivity].
  - intros [(i & t & p & b & s & ->)|H]; [reflexivity|]. destruct e; try discriminate H. reflexivity.
Qed.
Print Assumptions C24_classes.

Example C24_nonvacuous : fit sorted_sets lin (Some Xnone) 1 = (Linear Multiplicative (DUser 0) (mkBase (Some []) (Some true)), None) /\
  columns_seen (Some Xnone) = [] /\ skip_if_no_match lin = true /\ columns_seen (Some Xu) <> [] /\
  fit sorted_sets lin (Some Xu) 1 = (lin_fitted, None).
Proof. repeat split; discriminate. Qed.
Example C24_columns_nonvacuous : columns_seen (Some (mkFrame 0 ["price"] [] : frame R)) = [] /\ f_rows Xu <> [] /\ f_cols Xu <> [].
Proof. repeat split; discriminate. Qed.

(** * C25 *)
Theorem C25_data_seen : forall order e X0 s e' fh (X X' : frame R),
  fit order e X0 s = (e', None) -> frame_wf X -> frame_wf X' -> f_levels X = f_levels X' ->
  seen (columns_seen X0) fh X = seen (columns_seen X0) fh X' -> transform e' (Some X) fh = transform e' (Some X') fh.
Proof. exact fitted_transform_seen. Qed.
Print Assumptions C25_data_seen.

Theorem C25_columns_permuted : forall order e X0 s e' fh (X X' : frame R),
  fit order e X0 s = (e', None) -> frame_wf X -> frame_wf X' -> f_levels X = f_levels X' ->
  NoDup (f_cols X) -> NoDup (f_cols X') -> Permutation (f_cols X) (f_cols X') ->
  Forall2 (fun r r' => r_path r = r_path r' /\ r_time r = r_time r' /\
             Permutation (combine (f_cols X) (r_vals r)) (combine (f_cols X') (r_vals r'))) (f_rows X) (f_rows X') ->
  transform e' (Some X) fh = transform e' (Some X') fh.
Proof.
  intros order e X0 s e' fh X X' F W W' L N N' P R.
  exact (fitted_transform_seen order e X0 s e' fh X X' F W W' L (seen_perm _ fh X X' W W' N N' P R)).
Qed.
Print Assumptions C25_columns_permuted.

(** what the linear, log and Hill effects get for a single series: the values of the columns in the
    order of fitting *)
Theorem C25_order_of_fit : forall order e X0 s e' fh (X : frame R) rows,
  fit order e X0 s = (e', None) -> no_fourier e = true -> is_fourier e = false -> (forall i t p b sc, e <> Lift i t p b sc) ->
  frame_wf X -> f_levels X = 0 -> columns_seen X0 <> [] -> seen (columns_seen X0) fh X = Some rows ->
  transform e' (Some X) fh =
  Ok (EArr (mkArr [List.length rows; List.length (columns_seen X0)]
                  (concat (map (fun x => map (fun o => match o with Some v => v | None => 0%R end) (snd x)) rows)))).
Proof. exact plain_transform. Qed.
Print Assumptions C25_order_of_fit.

(** exchanged columns, an additional column and an additional row make no difference *)
Example C25_nonvacuous : fit sorted_sets lin (Some Xu) 1 = (lin_fitted, None) /\ frame_wf Xu /\ frame_wf Xv /\
  seen ["tv"; "web"] [0; 7; 1]%Z Xu = seen ["tv"; "web"] [0; 7; 1]%Z Xv /\
  transform lin_fitted (Some Xv) [0; 7; 1]%Z = Ok (EArr (mkArr [3; 2] [1; 10; 2; 20; 3; 30]%R)).
Proof. exact (conj (proj1 ex_fit) (conj Xu_wf (conj Xv_wf ex_seen))). Qed.

(** * C26 Full statement: additive effects contribute their raw value, multiplicative ones the raw
    value times the trend; any other mode is rejected at construction.  The last part fails for
    LinearFourierSeasonality, which accepts any mode and rejects it when fitted. *)
Theorem C26_additive : forall env raw pe v t, dict_get pe "trend" = Some t -> yields env (predict_mode Additive raw pe) v ->
  exists x, yields env raw x /\ a_shape v = a_shape (trend_column t) /\ a_flat v = a_flat x.
Proof. exact mode_additive. Qed.
Print Assumptions C26_additive.

Theorem C26_multiplicative : forall env raw pe v t, arr_wf t -> dict_get pe "trend" = Some t -> yields env (predict_mode Multiplicative raw pe) v ->
  exists x, yields env raw x /\ a_shape v = a_shape (trend_column t) /\ List.length (a_flat v) = List.length (a_flat x) /\
    forall k, k < List.length (a_flat x) -> entry v k = (entry t k * entry x k)%R.
Proof. exact mode_multiplicative. Qed.
Print Assumptions C26_multiplicative.

(** all classes with a mode are of this form *)
Theorem C26_classes : forall e d pe, match e with
  | Linear m p _ => predict e d pe = predict_mode m (linear_raw p d) pe
  | Log m p q _ => predict e d pe = predict_mode m (log_raw p q d) pe
  | Hill m p q r _ => predict e d pe = predict_mode m (hill_raw p q r d) pe
  | Fourier _ _ ps _ _ _ _ (Some (m, _)) => predict e d pe = predict_mode m (linear_raw (DNormal (scalar 0) (scalar ps)) d) pe
  | _ => True
  end.
Proof. intros [| | | |? ? ? ? ? ? ? [[]|]] d pe; exact I || reflexivity. Qed.
Print Assumptions C26_classes.

Theorem C26_invalid_mode_partial : forall m p q r, m <> "additive" -> m <> "multiplicative" ->
  mk_linear m p = Err ValueError /\ mk_log m p q = Err ValueError /\ mk_hill m p q r = Err ValueError.
Proof.
  intros m p q r H1 H2. unfold mk_linear, mk_log, mk_hill. rewrite (check_mode_err m H1 H2). repeat split.
Qed.
Print Assumptions C26_invalid_mode_partial.

Theorem C26_fourier_invalid_mode_partial : forall order sp n ps m b f x l X s e', m <> "additive" -> m <> "multiplicative" ->
  fit order (Fourier sp n ps m b f x l) X s <> (e', None).
Proof. exact fourier_bad_mode. Qed.
Print Assumptions C26_fourier_invalid_mode_partial.

Theorem C26_fourier_constructor_refuted : forall sp n ps, constructed (mk_fourier sp n ps "multiplcative").
Proof. exact (fun sp n ps => c_fourier sp n ps "multiplcative"). Qed.
Print Assumptions C26_fourier_constructor_refuted.

Example C26_nonvacuous : exists v, yields env0 (predict lin_fitted (EArr (mkArr [3; 2] [1; 10; 2; 20; 3; 30]%R)) [("trend", tr3)]) v /\
  a_shape v = [3; 1] /\ entry v 1 = (6 * (2 * 2 + 20 * 3))%R.
Proof. exact ex_linear. Qed.

(** * C27 *)
Theorem C27_dot_product : forall e prior k rest a x, a_shape a = (rest ++ [k])%list /\ arr_wf a ->
  yields e (linear_raw prior (EArr a)) x ->
  a_shape x = (rest ++ [1])%list /\ List.length (a_flat x) = prod_shape rest /\
  forall i, i < prod_shape rest -> entry x i = Rsum (map (fun j => (entry a (i * k + j) * e "coefs" j)%R) (seq 0 k)).
Proof. exact c27_dot. Qed.
Print Assumptions C27_dot_product.

Theorem C27_additive : forall e prior k rest a b c x y z,
  a_shape a = (rest ++ [k])%list /\ arr_wf a -> a_shape b = (rest ++ [k])%list /\ arr_wf b -> a_shape c = (rest ++ [k])%list /\ arr_wf c ->
  (forall i, i < List.length (a_flat a) -> entry c i = (entry a i + entry b i)%R) ->
  yields e (linear_raw prior (EArr a)) x -> yields e (linear_raw prior (EArr b)) y -> yields e (linear_raw prior (EArr c)) z ->
  forall i, i < prod_shape rest -> entry z i = (entry x i + entry y i)%R.
Proof. exact c27_additive. Qed.
Print Assumptions C27_additive.

Theorem C27_homogeneous : forall e prior k rest q a c x z,
  a_shape a = (rest ++ [k])%list /\ arr_wf a -> a_shape c = (rest ++ [k])%list /\ arr_wf c ->
  (forall i, i < List.length (a_flat a) -> entry c i = (q * entry a i)%R) ->
  yields e (linear_raw prior (EArr a)) x -> yields e (linear_raw prior (EArr c)) z ->
  forall i, i < prod_shape rest -> entry z i = (q * entry x i)%R.
Proof. exact c27_homogeneous. Qed.
Print Assumptions C27_homogeneous.

Theorem C27_zero_features : forall e prior k rest a x i, a_shape a = (rest ++ [k])%list /\ arr_wf a ->
  yields e (linear_raw prior (EArr a)) x -> i < prod_shape rest ->
  (forall j, j < k -> entry a (i * k + j) = 0%R) -> entry x i = 0%R.
Proof. exact c27_zero. Qed.
Print Assumptions C27_zero_features.

Theorem C27_permuted : forall e prior k rest e' (p : nat -> nat) a b x y, Permutation (map p (seq 0 k)) (seq 0 k) ->
  a_shape a = (rest ++ [k])%list /\ arr_wf a -> a_shape b = (rest ++ [k])%list /\ arr_wf b ->
  (forall i j, i < prod_shape rest -> j < k -> entry b (i * k + j) = entry a (i * k + p j)) ->
  (forall j, j < k -> e' "coefs" j = e "coefs" (p j)) ->
  yields e (linear_raw prior (EArr a)) x -> yields e' (linear_raw prior (EArr b)) y ->
  forall i, i < prod_shape rest -> entry y i = entry x i.
Proof. exact c27_permuted. Qed.
Print Assumptions C27_permuted.

(** any data with at least one column gives a value *)
Theorem C27_total : forall env prior a k rest x, a_shape a = (rest ++ [k])%list -> arr_wf a -> k <> 0 ->
  a_shape x = (rest ++ [1])%list -> List.length (a_flat x) = prod_shape rest ->
  (forall i, i < prod_shape rest -> entry x i = Rsum (map (fun j => (entry a (i * k + j) * env "coefs" j)%R) (seq 0 k))) ->
  yields env (linear_raw prior (EArr a)) x.
Proof.
  intros env prior a k rest x H1 H2 H3 H4 H5 H6.
  exact (proj2 (linear_raw_yields env prior a k rest x H1 H2) (conj H3 (conj H4 (conj H5 H6)))).
Qed.
Print Assumptions C27_total.

Example C27_nonvacuous : exists v, yields env0 (predict lin_fitted (EArr (mkArr [3; 2] [1; 10; 2; 20; 3; 30]%R)) [("trend", tr3)]) v /\
  a_shape v = [3; 1] /\ entry v 1 = (6 * (2 * 2 + 20 * 3))%R.
Proof. exact ex_linear. Qed.

(** * C28 (the smallest argument of the logarithm is 1e-8) *)
Theorem C28_formula : forall env i sp rp b a pe v, yields env (predict (Log Additive sp rp b) (EArr a) pe) v -> i < List.length (a_flat a) ->
  entry v i = (env "log_scale" 0%nat * ln (Rmax (/ 100000000) (env "log_rate" 0%nat * entry a i + 1)))%R.
Proof. exact log_predict_entry. Qed.
Print Assumptions C28_formula.

Theorem C28_non_negative_input : forall env i sp rp b a pe v, yields env (predict (Log Additive sp rp b) (EArr a) pe) v -> i < List.length (a_flat a) ->
  (0 <= env "log_rate" 0%nat)%R -> (0 <= entry a i)%R ->
  entry v i = (env "log_scale" 0%nat * ln (env "log_rate" 0%nat * entry a i + 1))%R.
Proof.
  intros env i sp rp b a pe v Y Hi Hr Hx.
  exact (eq_trans (log_predict_entry env i sp rp b a pe v Y Hi) (log1_formula _ _ _ Hr Hx)).
Qed.
Print Assumptions C28_non_negative_input.

Theorem C28_zero : forall env i sp rp b a pe v, yields env (predict (Log Additive sp rp b) (EArr a) pe) v -> i < List.length (a_flat a) ->
  entry a i = 0%R -> entry v i = 0%R.
Proof.
  intros env i sp rp b a pe v Y Hi Hx. rewrite (log_predict_entry env i sp rp b a pe v Y Hi), Hx.
  exact (log1_zero _ _).
Qed.
Print Assumptions C28_zero.

Theorem C28_monotone : forall env i j sp rp b a pe v, yields env (predict (Log Additive sp rp b) (EArr a) pe) v ->
  i < List.length (a_flat a) -> j < List.length (a_flat a) ->
  (0 <= env "log_scale" 0%nat)%R -> (0 <= env "log_rate" 0%nat)%R -> (entry a i <= entry a j)%R -> (entry v i <= entry v j)%R.
Proof.
  intros env i j sp rp b a pe v Y Hi Hj Hs Hr H.
  rewrite (log_predict_entry env i sp rp b a pe v Y Hi), (log_predict_entry env j sp rp b a pe v Y Hj).
  exact (log1_mono _ _ _ _ Hs Hr H).
Qed.
Print Assumptions C28_monotone.

Example C28_nonvacuous : exists v, yields env0 (predict (Log Additive (DUser 0) (DUser 1) base_init) (EArr (mkArr [3; 1] [0; 1; 5]%R)) [("trend", tr3)]) v.
Proof. exact (log_total env0 Additive (DUser 0) (DUser 1) base_init (mkArr [3; 1] [0; 1; 5]%R) [("trend", tr3)] tr3 eq_refl eq_refl). Qed.

(** * C29 *)
Theorem C29_between : forall e hp sp mp b a pe v, yields e (predict (Hill Additive hp sp mp b) (EArr a) pe) v ->
  forall i, (0 < e "half_max" 0%nat)%R -> (0 < e "max_effect" 0%nat)%R -> i < List.length (a_flat a) -> (0 < entry a i)%R ->
  (0 < entry v i < e "max_effect" 0%nat)%R.
Proof. exact c29_bounds. Qed.
Print Assumptions C29_between.

Theorem C29_half : forall e hp sp mp b a pe v, yields e (predict (Hill Additive hp sp mp b) (EArr a) pe) v ->
  forall i, (0 < e "half_max" 0%nat)%R -> i < List.length (a_flat a) -> entry a i = e "half_max" 0%nat -> entry v i = (e "max_effect" 0%nat / 2)%R.
Proof. exact c29_half. Qed.
Print Assumptions C29_half.

Theorem C29_monotone : forall e hp sp mp b a pe v, yields e (predict (Hill Additive hp sp mp b) (EArr a) pe) v ->
  forall i j, (0 < e "half_max" 0%nat)%R -> (0 < e "slope" 0%nat)%R -> (0 < e "max_effect" 0%nat)%R ->
  i < List.length (a_flat a) -> j < List.length (a_flat a) ->
  (0 < entry a i)%R -> (entry a i <= entry a j)%R -> (entry v i <= entry v j)%R.
Proof. exact c29_mono. Qed.
Print Assumptions C29_monotone.

Theorem C29_limit : forall (e : env) eps,
  (0 < e "half_max" 0%nat)%R -> (0 < e "slope" 0%nat)%R -> (0 < e "max_effect" 0%nat)%R -> (0 < eps)%R ->
  exists B, (0 < B)%R /\ forall hp sp mp b a pe v i, yields e (predict (Hill Additive hp sp mp b) (EArr a) pe) v ->
    i < List.length (a_flat a) -> (B <= entry a i)%R -> (e "max_effect" 0%nat - eps < entry v i < e "max_effect" 0%nat)%R.
Proof. exact c29_limit. Qed.
Print Assumptions C29_limit.

Theorem C29_total : forall (e : env) m hp sp mp b a pe t, dict_get pe "trend" = Some t ->
  List.length (a_flat a) = prod_shape (a_shape (trend_column t)) -> (0 < e "half_max" 0%nat)%R ->
  (forall i, i < List.length (a_flat a) -> (0 < entry a i)%R) ->
  exists v, yields e (predict (Hill m hp sp mp b) (EArr a) pe) v.
Proof. exact c29_total. Qed.
Print Assumptions C29_total.

Example C29_nonvacuous : exists v, yields env0 (predict (Hill Additive (DUser 0) (DUser 1) (DUser 2) base_init)
    (EArr (mkArr [3; 1] [1; 2; 4]%R)) [("trend", tr3)]) v.
Proof. exact ex_hill. Qed.

(** * C30 Full statement: the Hill effect is zero at zero and monotone on non-negative inputs.  The
    code gives the largest possible effect at zero, for all parameters, hence is not monotone. *)
Theorem C30_zero_refuted : forall e hp sp mp b a pe v, yields e (predict (Hill Additive hp sp mp b) (EArr a) pe) v ->
  forall i, e "half_max" 0%nat <> 0%R -> i < List.length (a_flat a) -> entry a i = 0%R -> entry v i = e "max_effect" 0%nat.
Proof. exact c30_zero. Qed.
Print Assumptions C30_zero_refuted.

Theorem C30_monotone_refuted : forall e hp sp mp b a pe v, yields e (predict (Hill Additive hp sp mp b) (EArr a) pe) v ->
  forall i j, (0 < e "half_max" 0%nat)%R -> (0 < e "max_effect" 0%nat)%R -> i < List.length (a_flat a) -> j < List.length (a_flat a) ->
  entry a i = 0%R -> (0 < entry a j)%R -> (entry v j < entry v i)%R.
Proof.
  intros e hp sp mp b a pe v Y i j Hh Hm Hi Hj Ei Ej.
  rewrite (c30_zero e hp sp mp b a pe v Y i (Rgt_not_eq _ _ Hh) Hi Ei). exact (proj2 (c29_bounds e hp sp mp b a pe v Y j Hh Hm Hj Ej)).
Qed.
Print Assumptions C30_monotone_refuted.

Example C30_nonvacuous : exists v, yields env0 (predict (Hill Additive (DUser 0) (DUser 1) (DUser 2) base_init)
    (EArr (mkArr [2; 1] [0; 1]%R)) [("trend", mkArr [2] [5; 6]%R)]) v.
Proof. exact ex_hill_zero. Qed.

(** * C31 *)
Theorem C31_same_value : forall env i tb ps b sc d l pe v,
  yields env (predict (Lift i tb ps b sc) (ELift d l) pe) v <-> yields env (predict i d pe) v.
Proof. exact lift_yields. Qed.
Print Assumptions C31_same_value.

(** [ws] are the terms added to the log density, one per date of the horizon *)
Theorem C31_likelihood : forall order i tb ps b sc X0 s e' X fh d pe env v lp logpdf,
  fit order (Lift i tb ps b sc) X0 s = (e', None) -> transform e' (Some X) fh = Ok d -> yields env (predict e' d pe) v ->
  masked_normal lp logpdf -> arr_wf v -> List.length (a_flat v) = List.length fh ->
  exists di i' dd obs ws, yields env (predict i' di pe) v /\ fit order i X0 s = (i', None) /\
    sites env (predict e' d pe) = (sites env (predict i' di pe) ++ [("lift_experiment", SSample dd obs true)])%list /\
    logpdf dd obs = Rsum ws /\ List.length ws = List.length fh /\
    forall k t, nth_error fh k = Some t ->
      (forall l, lift_on tb t l -> nth_error ws k = Some (lp (entry v k) ps (l / s)%R)) /\
      ((forall l, ~ lift_on tb t l) -> nth_error ws k = Some 0%R).
Proof. exact lift_likelihood. Qed.
Print Assumptions C31_likelihood.

(** the wrapped effect gets the data it would prepare itself *)
Theorem C31_inner_data : forall i tb ps b sc s X fh d,
  transform (Lift i tb ps b sc) (Some X) fh = Ok d -> sc = Some s -> should_skip_predict i = Ok false -> b_fitted (get_base i) = Some true ->
  is_fourier i = false -> (forall i2 t2 p2 b2 s2, i <> Lift i2 t2 p2 b2 s2) ->
  exists di l, d = ELift di l /\ transform i (Some X) fh = Ok di.
Proof. exact lift_inner_data. Qed.
Print Assumptions C31_inner_data.

Example C31_nonvacuous :
  (exists e' d v, fit sorted_sets lift_log (Some Xone) 10 = (e', None) /\ transform e' (Some Xone) [0; 1; 7]%Z = Ok d /\
    yields env0 (predict e' d [("trend", tr3)]) v /\ arr_wf v /\ List.length (a_flat v) = 3) /\
  lift_on [(1%Z, Some 40%R); (3%Z, Some 9%R); (7%Z, None)] 1 40 /\
  forall l, ~ lift_on [(1%Z, Some 40%R); (3%Z, Some 9%R); (7%Z, None)] 7 l.
Proof. exact (conj ex_lift ex_lift_on). Qed.

(** * C32: [p] steps later, for [p] a multiple of every period (with one integer period: p itself) *)
Theorem C32_periodic : forall order sp n ps b f x l X0 s e' X fh a pe env v t p,
  fit order (Fourier sp n ps "additive" b f x l) X0 s = (e', None) ->
  transform e' (Some X) fh = Ok (EArr a) -> dict_get pe "trend" = Some t -> yields env (predict e' (EArr a) pe) v ->
  common_period sp p ->
  forall i j ri rj, nth_error (array_rows fh X) i = Some ri -> nth_error (array_rows fh X) j = Some rj ->
    r_path ri = r_path rj -> r_time rj = (r_time ri + p)%Z -> entry v i = entry v j.
Proof. exact fourier_periodic. Qed.
Print Assumptions C32_periodic.

Example C32_nonvacuous : (common_period [7%R] 7 /\ common_period [7%R; 2%R] 14) /\
  exists e' a v, fit sorted_sets (mk_fourier [7%R] [3] 1 "additive") (Some Xnone) 1 = (e', None) /\
  transform e' (Some Xnone) [0; 1; 7]%Z = Ok (EArr a) /\ yields env0 (predict e' (EArr a) [("trend", tr3)]) v /\
  nth_error (array_rows [0; 1; 7]%Z Xnone) 0 = Some (mkRow [] 0 []) /\ nth_error (array_rows [0; 1; 7]%Z Xnone) 2 = Some (mkRow [] 7 []).
Proof. exact (conj weekly_period ex_fourier). Qed.

(** * C33 Full statement: a successful fit gives the same object as fitting a new one, whatever
    happened to the object before.  True for all effects but LinearFourierSeasonality. *)
Theorem C33_refit_partial : forall order e X s, no_fourier e = true ->
  forall e1, fit order e X s = (e1, None) -> fit order (clone e) X s = (e1, None).
Proof. exact refit_same. Qed.
Print Assumptions C33_refit_partial.

(** a seasonality never fitted on several series before, or fitted on several series now *)
Theorem C33_refit_fourier_partial : forall order sp n ps m b f x l X s e1, x = None \/ multi_series X = true ->
  fit order (Fourier sp n ps m b f x l) X s = (e1, None) -> fit order (mk_fourier sp n ps m) X s = (e1, None).
Proof. exact fourier_refit. Qed.
Print Assumptions C33_refit_fourier_partial.

(** fitted on several series first, then on one: every transform fails *)
Theorem C33_refit_refuted : forall order sp n ps m (P X : frame R) s s' e1 e2, multi_series (Some P) = true -> f_levels X = 0 ->
  fit order (mk_fourier sp n ps m) (Some P) s = (e1, None) -> fit order e1 (Some X) s' = (e2, None) ->
  forall X' fh d, f_levels X' = 0 -> transform e2 (Some X') fh <> Ok d.
Proof. exact stale_expander. Qed.
Print Assumptions C33_refit_refuted.

(** whereas a new one works *)
Example C33_nonvacuous : exists e1 e2 e3 a, fit sorted_sets (mk_fourier [7%R] [3] 1 "additive") (Some Xp) 1 = (e1, None) /\
  fit sorted_sets e1 (Some Xnone) 1 = (e2, None) /\ fit sorted_sets (mk_fourier [7%R] [3] 1 "additive") (Some Xnone) 1 = (e3, None) /\
  transform e3 (Some Xnone) [0; 1; 7]%Z = Ok (EArr a) /\ forall d, transform e2 (Some Xnone) [0; 1; 7]%Z <> Ok d.
Proof. exact ex_stale. Qed.

(** * C34 *)
Theorem C34_rejected : forall order e (X : frame R) s, (forall c, Permutation (order c) c) ->
  supports_multivariate e = false -> f_levels X <> 0 ->
  exists e', fit order e (Some X) s = (e', Some ValueError) /\ get_base e' = get_base e.
Proof. exact c34_rejected. Qed.
Print Assumptions C34_rejected.

Theorem C34_linear_accepts : forall order m p b X s, snd (fit order (Linear m p b) X s) = None.
Proof. exact linear_accepts. Qed.
Print Assumptions C34_linear_accepts.

Theorem C34_fourier_accepts : forall order sp n ps m b f x l (X : frame R) s, (forall c, Permutation (order c) c) ->
  valid_fourier sp n -> f_rows X <> [] -> m = "additive" \/ m = "multiplicative" ->
  exists e', fit order (Fourier sp n ps m b f x l) (Some X) s = (e', None).
Proof. exact fourier_accepts. Qed.
Print Assumptions C34_fourier_accepts.

Theorem C34_classes : forall e, supports_multivariate e = true <-> (exists m p b, e = Linear m p b) \/ is_fourier e = true.
Proof.
  intros e. split.
  - destruct e; simpl; try discriminate; intros _; [left; repeat eexists|right; reflexivity].
  - intros [(m & p & b & ->)|H]; [reflexivity|]. destruct e; try discriminate H. reflexivity.
Qed.
Print Assumptions C34_classes.

Example C34_nonvacuous : supports_multivariate lift_log = false /\ f_levels Xp <> 0 /\ valid_fourier [7%R] [3] /\
  get_base lift_log = base_init.
Proof. exact (conj eq_refl (conj (fun H => O_S 0 (eq_sym H)) (conj weekly_valid eq_refl))). Qed.

(** * C35 *)
Theorem C35_log : forall env m sp rp b a pe t, dict_get pe "trend" = Some t ->
  List.length (a_flat a) <> prod_shape (a_shape (trend_column t)) ->
  forall v, ~ yields env (predict (Log m sp rp b) (EArr a) pe) v.
Proof. exact log_size. Qed.
Print Assumptions C35_log.

Theorem C35_hill : forall env m hp sp mp b a pe t, dict_get pe "trend" = Some t ->
  List.length (a_flat a) <> prod_shape (a_shape (trend_column t)) ->
  forall v, ~ yields env (predict (Hill m hp sp mp b) (EArr a) pe) v.
Proof. exact hill_size. Qed.
Print Assumptions C35_hill.

(** with as many values as the trend the log effect always has a value *)
Theorem C35_log_total : forall env m sp rp b a pe t, dict_get pe "trend" = Some t ->
  List.length (a_flat a) = prod_shape (a_shape (trend_column t)) ->
  exists v, yields env (predict (Log m sp rp b) (EArr a) pe) v.
Proof. exact log_total. Qed.
Print Assumptions C35_log_total.

(** two columns, three dates *)
Example C35_nonvacuous : List.length (a_flat (mkArr [3; 2] [1; 10; 2; 20; 3; 30]%R)) <> prod_shape (a_shape (trend_column tr3)).
Proof. discriminate. Qed.

(** * C37: every shipped effect reads nothing of the others but the trend, so the theorems of
    PropModel about reordering apply to all of them *)
Theorem C37_shipped_effects : forall e, trend_only (predict e).
Proof. exact predict_trend_only. Qed.
Print Assumptions C37_shipped_effects.
