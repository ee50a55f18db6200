(** Facts about the predict functions of Model/Effect.v *)
From Coq Require Import Reals String Bool ZArith List Lia Lra Permutation.
From Verif.Model Require Import Base Num Regex Frame Arr Expand Prog Likelihood Effect.
From Verif.Spec Require Import FrameSpec ProgSpec EffectSpec.
From Verif.Facts Require Import BaseFacts NumFacts FrameFacts ExpandFacts ProgFacts EffectFacts.
Import ListNotations.
Local Open Scope string_scope.

Lemma yields_bind {A B} e (p : prog A) (f : A -> prog B) v :
  yields e (pbind p f) v <-> exists a, yields e p a /\ yields e (f a) v.
Proof.
  rewrite eval_yields, eval_bind. split.
  - intros (l & H). destruct (eval e p) as [[a l1]|] eqn:E1; [|discriminate]. cbn [bind] in H.
    destruct (eval e (f a)) as [[b l2]|] eqn:E2; [|discriminate]. cbn [bind] in H.
    exists a. split; apply eval_yields; [eauto|]. exists l2. congruence.
  - intros (a & H1 & H2). apply eval_yields in H1 as (l1 & E1), H2 as (l2 & E2). rewrite E1. cbn [bind]. rewrite E2. cbn [bind]. eauto.
Qed.

Lemma yields_lift {A} e (m : res A) v : yields e (lift_res m) v <-> m = Ok v.
Proof. destruct m; simpl; split; intros H; inversion H; subst; try reflexivity. constructor. Qed.

Lemma yields_ret {A} e (a v : A) : yields e (Ret a) v <-> v = a.
Proof. split; intros H; [now inversion H|subst; constructor]. Qed.

Lemma yields_sample e n d sh v : yields e (sample n d sh) v <-> v = mkArr sh (map (e n) (seq 0 (prod_shape sh))).
Proof. split; intros H; [inversion H; subst; now inversion H5|subst]. constructor. constructor. Qed.

Lemma yields_plate e n s : yields e (plate n s) tt.
Proof. constructor. constructor. Qed.

Lemma yields_det {A} e (p : prog A) v w : yields e p v -> yields e p w -> v = w.
Proof. rewrite !eval_yields. intros (l & E) (l' & E'). congruence. Qed.

Lemma eval_sites {A} e (p : prog A) : forall a l, eval e p = Ok (a, l) -> sites e p = l.
Proof.
  induction p as [a|x|n d sh o k IH|n w k IH|n s k IH]; intros a' l; cbn [eval sites].
  - now intros [= _ <-].
  - discriminate.
  - destruct (eval e (k (site_value e n sh o))) as [[b l1]|] eqn:E; [|discriminate]. cbn [bind]. intros [= <- <-]. f_equal. eapply IH; eauto.
  - destruct (eval e k) as [[b l1]|] eqn:E; [|discriminate]. cbn [bind]. intros [= <- <-]. f_equal. eapply IH; eauto.
  - destruct (eval e k) as [[b l1]|] eqn:E; [|discriminate]. cbn [bind]. intros [= <- <-]. f_equal. eapply IH; eauto.
Qed.

(** * modes *)
Lemma mode_yields env m raw pe v : yields env (predict_mode m raw pe) v <->
  exists t x, dict_get pe "trend" = Some t /\ yields env raw x /\
    List.length (a_flat x) = prod_shape (a_shape (trend_column t)) /\
    v = match m with
        | Additive => mkArr (a_shape (trend_column t)) (a_flat x)
        | Multiplicative => mkArr (a_shape (trend_column t))
             (map (fun xy => (fst xy * snd xy)%R) (combine (a_flat (trend_column t)) (a_flat x)))
        end.
Proof.
  unfold predict_mode. rewrite yields_bind. setoid_rewrite yields_lift. unfold dict_item.
  split.
  - intros (t & Ht & H). destruct (dict_get pe "trend") as [t'|]; [|discriminate]. injection Ht as ->.
    apply yields_bind in H as (x & Hx & H). apply yields_bind in H as (y & Hy & H). apply yields_lift in Hy.
    exists t, x. split; [reflexivity|]. split; [assumption|].
    change (if Nat.eqb (ndim t) 1 then reshape_col t else t) with (trend_column t) in *.
    unfold reshape in Hy. destruct (Nat.eqb_spec (List.length (a_flat x)) (prod_shape (a_shape (trend_column t)))) as [E|]; [|discriminate].
    split; [exact E|]. injection Hy as <-. destruct m.
    + now apply yields_ret in H.
    + apply yields_lift in H. unfold arr_zip in H. simpl in H.
      destruct (list_eq_dec Nat.eq_dec (a_shape (trend_column t)) (a_shape (trend_column t))); [|congruence]. congruence.
  - intros (t & x & Ht & Hx & L & ->). exists t. rewrite Ht. split; [reflexivity|].
    apply yields_bind. exists x. split; [assumption|]. apply yields_bind.
    change (if Nat.eqb (ndim t) 1 then reshape_col t else t) with (trend_column t).
    exists (mkArr (a_shape (trend_column t)) (a_flat x)). split.
    + apply yields_lift. unfold reshape. now rewrite L, Nat.eqb_refl.
    + destruct m; [constructor|]. apply yields_lift. unfold arr_zip. simpl.
      destruct (list_eq_dec Nat.eq_dec (a_shape (trend_column t)) (a_shape (trend_column t))); [reflexivity|congruence].
Qed.

Lemma trend_column_entry t k : entry (trend_column t) k = entry t k.
Proof. unfold trend_column. destruct (Nat.eqb _ 1); reflexivity. Qed.
Lemma trend_column_len t : List.length (a_flat (trend_column t)) = List.length (a_flat t).
Proof. unfold trend_column. destruct (Nat.eqb _ 1); reflexivity. Qed.
Lemma trend_column_wf t : arr_wf t -> arr_wf (trend_column t).
Proof. unfold trend_column, arr_wf. destruct (Nat.eqb _ 1); simpl; [lia|auto]. Qed.

Lemma mode_additive env raw pe v t : dict_get pe "trend" = Some t -> yields env (predict_mode Additive raw pe) v ->
  exists x, yields env raw x /\ a_shape v = a_shape (trend_column t) /\ a_flat v = a_flat x.
Proof. intros T H. apply mode_yields in H as (t' & x & T' & Hx & L & ->). assert (t' = t) by congruence. subst. eauto. Qed.

Lemma mode_multiplicative env raw pe v t : arr_wf t -> dict_get pe "trend" = Some t -> yields env (predict_mode Multiplicative raw pe) v ->
  exists x, yields env raw x /\ a_shape v = a_shape (trend_column t) /\ List.length (a_flat v) = List.length (a_flat x) /\
    forall k, k < List.length (a_flat x) -> entry v k = (entry t k * entry x k)%R.
Proof.
  intros W T H. apply mode_yields in H as (t' & x & T' & Hx & L & ->). assert (t' = t) by congruence. subst.
  pose proof (trend_column_wf t W) as W'. unfold arr_wf in W'.
  exists x. split; [assumption|]. split; [reflexivity|]. split.
  - simpl. rewrite map_length, combine_length. lia.
  - intros k Hk. unfold entry at 1. simpl.
    set (f := fun xy : R * R => (fst xy * snd xy)%R).
    rewrite (nth_indep _ 0%R (f (0%R, 0%R))) by (rewrite map_length, combine_length; lia).
    rewrite map_nth. unfold f. rewrite combine_nth by lia. cbn [fst snd]. fold (entry (trend_column t) k). rewrite trend_column_entry. reflexivity.
Qed.

Lemma mode_fails env m raw pe : (forall t, dict_get pe "trend" = Some t -> forall x, yields env raw x ->
    List.length (a_flat x) <> prod_shape (a_shape (trend_column t))) ->
  forall v, ~ yields env (predict_mode m raw pe) v.
Proof. intros H v Y. apply mode_yields in Y as (t & x & T & Hx & L & _). exact (H t T x Hx L). Qed.

(** an unknown mode *)
Lemma check_mode_ok s m : check_mode s = Ok m <-> (s = "additive" /\ m = Additive) \/ (s = "multiplicative" /\ m = Multiplicative).
Proof.
  unfold check_mode. destruct (String.eqb_spec s "additive") as [->|N].
  - split; [intros [= <-]; auto|]. intros [[_ ->]|[H _]]; [reflexivity|discriminate].
  - destruct (String.eqb_spec s "multiplicative") as [->|N2].
    + split; [intros [= <-]; auto|]. intros [[H _]|[_ ->]]; [discriminate|reflexivity].
    + split; [discriminate|]. intros [[-> _]|[-> _]]; congruence.
Qed.
Lemma check_mode_err s : s <> "additive" -> s <> "multiplicative" -> check_mode s = Err ValueError.
Proof. intros H1 H2. unfold check_mode. apply String.eqb_neq in H1, H2. now rewrite H1, H2. Qed.

Lemma fourier_bad_mode order sp n ps m b f x l X s e' : m <> "additive" -> m <> "multiplicative" ->
  fit order (Fourier sp n ps m b f x l) X s <> (e', None).
Proof.
  intros H1 H2. cbn [fit]. unfold base_fit. simpl. destruct (fourier_fit sp n X) as [ff|]; [|discriminate].
  destruct X as [X|]; [|discriminate]. destruct (fourier_transform ff X) as [XF|]; [|discriminate].
  match goal with |- context [match ?a with Ok _ => _ | Err _ => _ end] => destruct a as [[XE x']|] end; [|discriminate].
  rewrite check_mode_err by assumption. discriminate.
Qed.

(** * linear *)
Lemma dot_sum row : forall cs, dot row cs = weighted_sum row cs.
Proof.
  unfold weighted_sum. induction row as [|x row IH]; intros [|c cs]; simpl; try reflexivity. now rewrite IH.
Qed.

Lemma firstn_skipn_nth {A} (d : A) k i l j : j < k -> nth j (firstn k (skipn i l)) d = nth (i + j) l d.
Proof.
  intros Hj. assert (F : forall m, nth j (firstn k m) d = nth j m d).
  { revert j Hj. induction k as [|k IH]; intros j Hj m; [lia|]. destruct m, j; simpl; try reflexivity. apply IH. lia. }
  rewrite F. revert l. induction i as [|i IH]; intros [|x l]; simpl; auto. now destruct j.
Qed.

Lemma dot_entries row k f : List.length row = k ->
  dot row (map f (seq 0 k)) = Rsum (map (fun j => (nth j row 0 * f j)%R) (seq 0 k)).
Proof.
  revert k f. induction row as [|x row IH]; intros k f <-; [reflexivity|]. simpl. f_equal.
  rewrite <- seq_shift, !map_map. rewrite (IH _ (fun j => f (S j)) eq_refl). reflexivity.
Qed.

Lemma linear_raw_yields env prior a k rest x : a_shape a = (rest ++ [k])%list -> arr_wf a ->
  yields env (linear_raw prior (EArr a)) x <->
  k <> 0 /\ a_shape x = (rest ++ [1])%list /\ List.length (a_flat x) = prod_shape rest /\
  forall i, i < prod_shape rest ->
    entry x i = Rsum (map (fun j => (entry a (i * k + j) * env "coefs" j)%R) (seq 0 k)).
Proof.
  intros Sh W. unfold linear_raw. rewrite Sh, rev_app_distr. cbn [rev app].
  destruct k as [|k'].
  { split; [intros H; inversion H|]. intros [H _]. congruence. }
  assert (PS : prod_shape (rest ++ [S k']) = prod_shape rest * S k').
  { clear. induction rest as [|n rest IH]; simpl prod_shape; [unfold prod_shape; simpl; lia|].
    unfold prod_shape in *. simpl. rewrite IH. lia. }
  set (k := S k') in *.
  assert (V : matrix_multiplication a (map (env "coefs") (seq 0 k)) =
    Ok (mkArr (rest ++ [1]) (map (fun row => dot row (map (env "coefs") (seq 0 k))) (chunks k (prod_shape rest) (a_flat a))))).
  { unfold matrix_multiplication. rewrite Sh, rev_app_distr. cbn [rev app]. rewrite map_length, seq_length, Nat.eqb_refl.
    now rewrite rev_involutive. }
  assert (E : forall i, i < prod_shape rest ->
    nth i (map (fun row => dot row (map (env "coefs") (seq 0 k))) (chunks k (prod_shape rest) (a_flat a))) 0%R =
    Rsum (map (fun j => (entry a (i * k + j) * env "coefs" j)%R) (seq 0 k))).
  { intros i Hi. unfold chunks. rewrite map_map.
    rewrite (nth_map_seq (fun i => dot (firstn k (skipn (i * k) (a_flat a))) (map (env "coefs") (seq 0 k)))) by assumption.
    rewrite dot_entries.
    - f_equal. apply map_ext_in. intros j Hj. apply in_seq in Hj. rewrite firstn_skipn_nth by lia. reflexivity.
    - rewrite firstn_length, skipn_length. unfold arr_wf in W. rewrite W, Sh, PS.
      assert (i * k + k <= prod_shape rest * k) by nia. lia. }
  split.
  - intros H. apply yields_bind in H as ([] & _ & H). apply yields_bind in H as (c & Hc & H).
    apply yields_sample in Hc. subst c. apply yields_lift in H. cbn [a_flat] in H.
    replace (prod_shape [k]) with k in H by (unfold prod_shape; simpl; lia).
    pose proof (eq_trans (eq_sym V) H) as [= <-]. split; [discriminate|]. split; [reflexivity|]. split.
    + simpl. rewrite map_length. unfold chunks. now rewrite map_length, seq_length.
    + intros i Hi. unfold entry at 1. simpl. now apply E.
  - intros (_ & Sx & Lx & Hx). apply yields_bind. exists tt. split; [apply yields_plate|].
    apply yields_bind. eexists. split; [apply yields_sample; reflexivity|]. apply yields_lift. cbn [a_flat].
    replace (prod_shape [k]) with k by (unfold prod_shape; simpl; lia).
    refine (eq_trans V _). f_equal. destruct x as [sx fx]. simpl in Sx, Lx. subst sx. f_equal.
    apply nth_ext with (d := 0%R) (d' := 0%R).
    + rewrite map_length. unfold chunks. rewrite map_length, seq_length. lia.
    + intros i Hi. rewrite map_length in Hi. unfold chunks in Hi. rewrite map_length, seq_length in Hi.
      rewrite E by assumption. symmetry. now apply (Hx i).
Qed.

Lemma Rsum_ext {A} (f g : A -> R) l : (forall x, In x l -> f x = g x) -> Rsum (map f l) = Rsum (map g l).
Proof. intros H. f_equal. now apply map_ext_in. Qed.

(** * log *)
Lemma log_raw_yields env sp rp a x : yields env (log_raw sp rp (EArr a)) x <->
  x = arr_map (log1 (env "log_scale" 0) (env "log_rate" 0)) a.
Proof.
  unfold log_raw. split.
  - intros H. apply yields_bind in H as (s & Hs & H). apply yields_bind in H as (r & Hr & H).
    apply yields_sample in Hs, Hr. subst. apply yields_ret in H. subst. reflexivity.
  - intros ->. apply yields_bind. eexists. split; [apply yields_sample; reflexivity|].
    apply yields_bind. eexists. split; [apply yields_sample; reflexivity|]. apply yields_ret. reflexivity.
Qed.

Lemma ln_mono x y : (0 < x)%R -> (x <= y)%R -> (ln x <= ln y)%R.
Proof. intros H [L|E]; [left; now apply ln_increasing|subst; lra]. Qed.

Lemma log1_formula s r x : (0 <= r)%R -> (0 <= x)%R -> log1 s r x = (s * ln (r * x + 1))%R.
Proof. intros H1 H2. unfold log1, clip_low. rewrite Rmax_right; [reflexivity|]. assert (0 <= r * x)%R by nra. lra. Qed.
Lemma log1_zero s r : log1 s r 0 = 0%R.
Proof. unfold log1, clip_low. rewrite Rmax_right by lra. replace (r * 0 + 1)%R with 1%R by lra. rewrite ln_1. lra. Qed.
Lemma log1_mono s r x y : (0 <= s)%R -> (0 <= r)%R -> (x <= y)%R -> (log1 s r x <= log1 s r y)%R.
Proof.
  intros Hs Hr H. unfold log1, clip_low. apply Rmult_le_compat_l; [assumption|]. apply ln_mono.
  - eapply Rlt_le_trans; [|apply Rmax_l]. lra.
  - apply Rle_max_compat_l. nra.
Qed.

(** * hill *)
Lemma mapM_nth {A B} (f : A -> res B) l : forall ys, mapM f l = Ok ys ->
  List.length ys = List.length l /\ forall i a, nth_error l i = Some a -> exists y, nth_error ys i = Some y /\ f a = Ok y.
Proof.
  induction l as [|x l IH]; intros ys; simpl.
  - intros [= <-]. split; [reflexivity|]. intros [|i] a; discriminate.
  - destruct (f x) as [y|] eqn:E; simpl; [|discriminate]. destruct (mapM f l) as [ys'|]; simpl; [|discriminate].
    intros [= <-]. destruct (IH _ eq_refl) as [L H]. split; [simpl; congruence|]. intros [|i] a; simpl; [|apply H].
    intros [= <-]. eauto.
Qed.

Lemma hill_raw_yields env hp sp mp a x : yields env (hill_raw hp sp mp (EArr a)) x <->
  exists vs, mapM (hill1 (env "half_max" 0) (env "slope" 0) (env "max_effect" 0)) (a_flat a) = Ok vs /\ x = mkArr (a_shape a) vs.
Proof.
  unfold hill_raw. split.
  - intros H. apply yields_bind in H as (h & Hh & H). apply yields_bind in H as (s & Hs & H). apply yields_bind in H as (m & Hm & H).
    apply yields_sample in Hh, Hs, Hm. subst. apply yields_bind in H as (vs & Hv & H). apply yields_lift in Hv.
    apply yields_ret in H. exists vs. split; [exact Hv|assumption].
  - intros (vs & Hv & ->). apply yields_bind. eexists. split; [apply yields_sample; reflexivity|].
    apply yields_bind. eexists. split; [apply yields_sample; reflexivity|].
    apply yields_bind. eexists. split; [apply yields_sample; reflexivity|].
    apply yields_bind. exists vs. split; [apply yields_lift; exact Hv|]. constructor.
Qed.

Lemma hill_entry env hp sp mp a x i : yields env (hill_raw hp sp mp (EArr a)) x -> i < List.length (a_flat a) ->
  hill1 (env "half_max" 0) (env "slope" 0) (env "max_effect" 0) (entry a i) = Ok (entry x i).
Proof.
  intros H Hi. apply hill_raw_yields in H as (vs & Hv & ->). apply mapM_nth in Hv as [L H].
  destruct (H i (entry a i)) as (y & Hy & E); [now apply nth_error_nth'|]. rewrite E. f_equal.
  unfold entry. simpl. symmetry. now apply nth_error_nth.
Qed.

Lemma Rpower_pos a b : (0 < Rpower a b)%R.
Proof. apply exp_pos. Qed.

Lemma hill1_positive h s m x : (0 < h)%R -> (0 < x)%R -> hill1 h s m x = Ok (m / (1 + Rpower (x / h) (- s)))%R.
Proof.
  intros Hh Hx. assert (Q : (0 < x / h)%R) by (apply Rdiv_lt_0_compat; assumption).
  unfold hill1. rewrite (proj2 (Reqb_false h 0)) by lra. unfold exponent_safe.
  rewrite (proj2 (Reqb_false (x / h) 0)) by lra. unfold float_power. rewrite (proj2 (Rltb_true 0 (x / h)) Q). cbn [bind].
  pose proof (Rpower_pos (x / h) (- s)). rewrite (proj2 (Reqb_false (1 + Rpower (x / h) (- s)) 0)) by lra. reflexivity.
Qed.

Lemma hill1_zero h s m : h <> 0%R -> hill1 h s m 0 = Ok m.
Proof.
  intros Hh. unfold hill1. rewrite (proj2 (Reqb_false h 0)) by assumption. unfold exponent_safe.
  replace (0 / h)%R with 0%R by (unfold Rdiv; ring). rewrite Reqb_refl. cbn [bind].
  rewrite (proj2 (Reqb_false (1 + 0) 0)) by lra. f_equal. field.
Qed.

Definition hillf (h s m x : R) : R := (m / (1 + Rpower (x / h) (- s)))%R.

Lemma hillf_bounds h s m x : (0 < m)%R -> (0 < hillf h s m x < m)%R.
Proof.
  intros Hm. unfold hillf. pose proof (Rpower_pos (x / h) (- s)) as P. split.
  - apply Rdiv_lt_0_compat; lra.
  - apply Rmult_lt_reg_r with (1 + Rpower (x / h) (- s))%R; [lra|]. unfold Rdiv. rewrite Rmult_assoc, Rinv_l by lra. nra.
Qed.

Lemma hillf_half h s m : (0 < h)%R -> hillf h s m h = (m / 2)%R.
Proof.
  intros Hh. unfold hillf. replace (h / h)%R with 1%R by (field; lra). unfold Rpower. rewrite ln_1, Rmult_0_r, exp_0. reflexivity.
Qed.

Lemma Rpower_neg_mono a b s : (0 < s)%R -> (0 < a)%R -> (a <= b)%R -> (Rpower b (- s) <= Rpower a (- s))%R.
Proof.
  intros Hs Ha H. unfold Rpower. assert (ln a <= ln b)%R by (apply ln_mono; lra).
  assert (- s * ln b <= - s * ln a)%R as [L|E] by nra; [left; now apply exp_increasing|rewrite E; lra].
Qed.

Lemma hillf_mono h s m x y : (0 < h)%R -> (0 < s)%R -> (0 < m)%R -> (0 < x)%R -> (x <= y)%R -> (hillf h s m x <= hillf h s m y)%R.
Proof.
  intros Hh Hs Hm Hx H. unfold hillf.
  assert (R1 : (Rpower (y / h) (- s) <= Rpower (x / h) (- s))%R).
  { apply Rpower_neg_mono; [assumption|apply Rdiv_lt_0_compat; assumption|]. unfold Rdiv. apply Rmult_le_compat_r; [left; now apply Rinv_0_lt_compat|assumption]. }
  pose proof (Rpower_pos (y / h) (- s)). pose proof (Rpower_pos (x / h) (- s)).
  unfold Rdiv. apply Rmult_le_compat_l; [lra|]. apply Rinv_le_contravar; lra.
Qed.

Lemma hillf_limit h s m eps : (0 < h)%R -> (0 < s)%R -> (0 < m)%R -> (0 < eps)%R ->
  exists B, (0 < B)%R /\ forall x, (B <= x)%R -> (m - eps < hillf h s m x)%R.
Proof.
  intros Hh Hs Hm He. 
  (* B with Rpower (B/h) (-s) = q where m/(1+q) > m - eps; take q = eps / (2m) *)
  set (q := (eps / (2 * m))%R). assert (Hq : (0 < q)%R) by (apply Rdiv_lt_0_compat; lra).
  set (B := (h * exp (- ln q / s))%R).
  assert (HB : (0 < B)%R) by (apply Rmult_lt_0_compat; [assumption|apply exp_pos]).
  exists B. split; [assumption|]. intros x Hx.
  assert (P : (Rpower (B / h) (- s) = q)%R).
  { unfold B, Rpower. replace (h * exp (- ln q / s) / h)%R with (exp (- ln q / s)) by (field; lra). rewrite ln_exp.
    replace (- s * (- ln q / s))%R with (ln q) by (field; lra). now apply exp_ln. }
  pose proof (hillf_mono h s m B x Hh Hs Hm HB Hx) as M. eapply Rlt_le_trans; [|exact M].
  unfold hillf. rewrite P. apply Rmult_lt_reg_r with (1 + q)%R; [lra|]. unfold Rdiv. rewrite Rmult_assoc, Rinv_l by lra.
  unfold q. field_simplify; [|lra]. 
  apply Rmult_lt_reg_r with (2 * m)%R; [lra|]. unfold Rdiv. rewrite Rmult_assoc, Rinv_l by lra. nra.
Qed.

(** * sizes: C35 *)
Lemma log_size env m sp rp b a pe t : dict_get pe "trend" = Some t ->
  List.length (a_flat a) <> prod_shape (a_shape (trend_column t)) ->
  forall v, ~ yields env (predict (Log m sp rp b) (EArr a) pe) v.
Proof.
  intros T N. apply mode_fails. intros t' T' x Hx. apply log_raw_yields in Hx. subst. simpl. rewrite map_length.
  assert (t' = t) by congruence. now subst.
Qed.
Lemma hill_size env m hp sp mp b a pe t : dict_get pe "trend" = Some t ->
  List.length (a_flat a) <> prod_shape (a_shape (trend_column t)) ->
  forall v, ~ yields env (predict (Hill m hp sp mp b) (EArr a) pe) v.
Proof.
  intros T N. apply mode_fails. intros t' T' x Hx. apply hill_raw_yields in Hx as (vs & Hv & ->). apply mapM_nth in Hv as [L _]. simpl. rewrite L.
  assert (t' = t) by congruence. now subst.
Qed.

(** * every shipped effect uses the trend only *)
Lemma predict_trend_only e : trend_only (predict e).
Proof.
  induction e; intros d pe pe' H; simpl;
    try (unfold predict_mode, dict_item; rewrite H; reflexivity).
  - destruct d; try reflexivity. now rewrite (IHe d pe pe' H).
Qed.

(** * lift: C31 *)
Lemma lift_yields env i tb ps b sc d l pe v :
  yields env (predict (Lift i tb ps b sc) (ELift d l) pe) v <-> yields env (predict i d pe) v.
Proof.
  cbn [predict]. rewrite yields_bind. split.
  - intros (a & Ha & H). inversion H; subst. apply yields_ret in H6. now subst.
  - intros H. exists v. split; [assumption|]. constructor. apply yields_ret. reflexivity.
Qed.

Lemma lift_sites env i tb ps b sc d l pe v : yields env (predict i d pe) v ->
  sites env (predict (Lift i tb ps b sc) (ELift d l) pe) =
  (sites env (predict i d pe) ++
   [("lift_experiment", SSample (DMasked (map is_some l) (DNormal v (const_arr (a_shape v) ps)))
        (mkArr [List.length l; 1] (map opt_or_0 l)) true)])%list.
Proof.
  intros H. apply eval_yields in H as (l1 & E). rewrite (eval_sites _ _ _ _ E).
  apply eval_sites with (a := v). cbn [predict]. rewrite eval_bind, E. cbn [bind]. reflexivity.
Qed.

Lemma lift_transform (e : effect) i tb ps b sc X fh d : e = Lift i tb ps b sc ->
  transform e (Some X) fh = Ok d ->
  exists di s l, d = ELift di l /\ sc = Some s /\ List.length l = List.length fh /\
    forall k t, nth_error fh k = Some t -> nth_error l k = Some (option_map (fun v => v / s)%R (lift_at tb t)).
Proof.
  intros -> H. unfold transform in H. destruct (attr (b_fitted _)) as [[]|]; [|discriminate|discriminate]. cbn [bind negb] in H.
  destruct (should_skip_predict _) as [[]|] eqn:SK; cbn [bind] in H; try discriminate.
  { exfalso. unfold should_skip_predict, should_skip_base in SK. destruct (attr _); [|discriminate]. simpl in SK. destruct a; discriminate. }
  destruct (input_feature_column_names _) as [cols|]; cbn [bind] in H; [|discriminate].
  destruct (select_columns _ _ _) as [X'|]; cbn [bind] in H; [|discriminate]. cbn [inner_transform] in H.
  destruct (inner_transform i X' fh) as [di|]; cbn [bind] in H; [|discriminate].
  destruct sc as [s|]; cbn [attr bind] in H; [|discriminate]. injection H as <-.
  eexists _, s, _. split; [reflexivity|]. split; [reflexivity|]. split; [apply map_length|].
  intros k t Hk. rewrite nth_error_map, Hk. reflexivity.
Qed.

Lemma lift_at_on tb t v : lift_at tb t = Some v <-> lift_on tb t v.
Proof.
  unfold lift_at, lift_on. induction tb as [|[t' o] tb IH]; simpl.
  - split; [discriminate|]. intros ([|] & post & H & _); discriminate.
  - destruct (Z.eqb_spec t' t) as [->|N].
    + simpl. split; [intros ->; exists [], tb; auto|]. intros ([|[t'' o''] pre] & post & H & NI); simpl in *; [congruence|].
      injection H as -> -> _. tauto.
    + rewrite IH. split.
      * intros (pre & post & -> & NI). exists ((t', o) :: pre), post. split; [reflexivity|]. simpl. intuition.
      * intros ([|[t'' o''] pre] & post & H & NI); simpl in *; [congruence|]. injection H as -> -> ->. exists pre, post. auto.
Qed.
