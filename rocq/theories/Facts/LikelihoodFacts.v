(** Facts about the model functions (likelihoods). *)
From Coq Require Import Reals Lra String Ascii Bool List Lia Permutation.
From Verif.Model Require Import Base Num Arr Prog Likelihood.
From Verif.Spec Require Import ProgSpec.
From Verif.Facts Require Import BaseFacts NumFacts FrameFacts ArrFacts ProgFacts MeanFacts.
Import ListNotations.
Local Open Scope string_scope.

Lemma run_bind {A B} e (p : prog A) (f : A -> prog B) : forall tr,
  run e tr (pbind p f) = ('(a, tr') <- run e tr p ;; run e tr' (f a)).
Proof.
  induction p as [a|x|n d sh o k IH|n v k IH|n s k IH]; intros tr; cbn [pbind run]; try reflexivity.
  - destruct (record tr n _) as [t|]; cbn [bind]; [apply IH|reflexivity].
  - destruct (record tr n _) as [t|]; cbn [bind]; [apply IH|reflexivity].
  - destruct (record tr n _) as [t|]; cbn [bind]; [apply IH|reflexivity].
Qed.

Lemma record_get tr n s tr' : record tr n s = Ok tr' -> dict_get tr' n = Some s.
Proof.
  unfold record. destruct s; [destruct (dict_get tr n); [discriminate|]|destruct (dict_get tr n)..];
    intros [= <-]; rewrite dict_get_set; now rewrite String.eqb_refl.
Qed.

Lemma actions_eval {A} e (p : prog A) : forall a l, eval e p = Ok (a, l) -> actions e p = map fst l.
Proof.
  induction p as [a|x|n d sh o k IH|n v k IH|n s k IH]; intros a' l; simpl.
  - intros [= _ <-]. reflexivity.
  - discriminate.
  - destruct (eval e (k _)) as [[a0 l0]|] eqn:E; [|discriminate]. cbn [bind]. intros [= -> <-]. simpl. f_equal. eauto.
  - destruct (eval e k) as [[a0 l0]|] eqn:E; [|discriminate]. cbn [bind]. intros [= -> <-]. simpl. f_equal. eauto.
  - destruct (eval e k) as [[a0 l0]|] eqn:E; [|discriminate]. cbn [bind]. intros [= -> <-]. simpl. f_equal. eauto.
Qed.

Lemma record_fresh tr n s : ~ In n (map fst tr) -> record tr n s = Ok (tr ++ [(n, s)])%list.
Proof.
  intros H. unfold record. rewrite (proj2 (dict_get_None tr n) H). rewrite dict_set_fresh by assumption. now destruct s.
Qed.

Lemma record_all_fresh l : forall tr, NoDup (map fst tr ++ map fst l)%list -> record_all tr l = Ok (tr ++ l)%list.
Proof.
  induction l as [|[n s] l IH]; intros tr H.
  - rewrite app_nil_r. reflexivity.
  - rewrite record_all_cons. simpl in H. rewrite record_fresh.
    + cbn [bind]. rewrite IH, <- app_assoc; [reflexivity|]. rewrite map_app. simpl. rewrite <- app_assoc. exact H.
    + apply NoDup_remove_2 in H. intros I. apply H. apply in_app_iff. auto.
Qed.

(** distinct names: the run succeeds and the trace lists all sites *)
Lemma distinct_runs {A} e (p : prog A) v : yields e p v -> NoDup (actions e p) ->
  exists tr, run e [] p = Ok (v, tr) /\ map fst tr = actions e p.
Proof.
  intros Y N. apply eval_yields in Y. destruct Y as (l & E). rewrite (actions_eval _ _ _ _ E) in *.
  exists l. split; [|reflexivity]. apply run_eval. exists l. split; [assumption|]. rewrite record_all_fresh; [reflexivity|exact N].
Qed.

(** ** positive locations *)
Lemma to_positive1_bound x : (/ 10000000000 <= to_positive1 (/ 100000) (/ 10000000000) x)%R.
Proof. unfold to_positive1, clip_low. apply Rmax_l. Qed.

Lemma to_positive1_id x : (/ 100000 <= x)%R -> to_positive1 (/ 100000) (/ 10000000000) x = x.
Proof.
  intros H. unfold to_positive1, clip_low. rewrite (proj2 (Rltb_false _ _) H). apply Rmax_right. lra.
Qed.

Lemma exp_le_lin x s : (0 < s <= 1)%R -> (x <= s)%R -> (exp (x - s) * s <= s)%R.
Proof.
  intros Hs H. assert (exp (x - s) <= 1)%R.
  { destruct (Req_dec x s) as [->|N]; [rewrite Rminus_diag_eq, exp_0 by reflexivity; lra|].
    rewrite <- exp_0. left. apply exp_increasing. lra. }
  assert (0 < exp (x - s))%R by apply exp_pos. nra.
Qed.

Lemma exp_lip x y : (x <= y <= 0)%R -> (0 <= exp y - exp x <= y - x)%R.
Proof.
  intros [H1 H2]. split.
  - destruct (Req_dec x y) as [->|N]; [lra|]. assert (exp x < exp y)%R by (apply exp_increasing; lra). lra.
  - (* exp y - exp x = exp y (1 - exp (x-y)) <= 1 - exp (x - y) <= y - x *)
    assert (E : exp x = (exp y * exp (x - y))%R) by (rewrite <- exp_plus; f_equal; lra).
    assert (Hy : (0 < exp y <= 1)%R).
    { split; [apply exp_pos|]. destruct (Req_dec y 0) as [->|N]; [rewrite exp_0; lra|]. rewrite <- exp_0. left. apply exp_increasing. lra. }
    assert (Hd : (1 + (x - y) <= exp (x - y))%R) by apply exp_ineq1_le.
    assert (Hu : (exp (x - y) <= 1)%R).
    { destruct (Req_dec x y) as [->|N]; [rewrite Rminus_diag_eq, exp_0 by reflexivity; lra|]. rewrite <- exp_0. left. apply exp_increasing. lra. }
    rewrite E. nra.
Qed.

Lemma smooth_lip s x y : (0 < s <= 1)%R -> (x <= y)%R ->
  let f := fun x => (if Rltb x s then exp (x - s) * s else x)%R in (0 <= f y - f x <= y - x)%R.
Proof.
  intros Hs H f. unfold f. unfold Rltb. destruct (Rlt_dec x s) as [A|A], (Rlt_dec y s) as [B|B]; try lra.
  - pose proof (exp_lip (x - s) (y - s)) as L. assert (0 <= exp (y - s) - exp (x - s) <= y - s - (x - s))%R by (apply L; lra). nra.
  - pose proof (exp_lip (x - s) 0) as L. rewrite exp_0 in L. assert (0 <= 1 - exp (x - s) <= 0 - (x - s))%R by (apply L; lra). nra.
Qed.

Lemma clip_lip lo x y : (x <= y)%R -> (0 <= clip_low lo y - clip_low lo x <= y - x)%R.
Proof. intros H. unfold clip_low, Rmax. destruct (Rle_dec lo y), (Rle_dec lo x); lra. Qed.

Lemma to_positive1_lip x y : (x <= y)%R ->
  (0 <= to_positive1 (/ 100000) (/ 10000000000) y - to_positive1 (/ 100000) (/ 10000000000) x <= y - x)%R.
Proof.
  intros H. unfold to_positive1. pose proof (smooth_lip (/ 100000) x y) as L. simpl in L.
  assert (L' := L ltac:(lra) H). clear L.
  set (fx := (if Rltb x (/ 100000) then exp (x - / 100000) * / 100000 else x)%R) in *.
  set (fy := (if Rltb y (/ 100000) then exp (y - / 100000) * / 100000 else y)%R) in *.
  pose proof (clip_lip (/ 10000000000) fx fy). lra.
Qed.

(** ** gamma *)
Lemma gamma_moments l s : (0 < l)%R -> (0 < s)%R ->
  (0 < gamma_concentration l s)%R /\ (0 < gamma_rate l s)%R /\
  gamma_mean (gamma_concentration l s) (gamma_rate l s) = l /\
  gamma_var (gamma_concentration l s) (gamma_rate l s) = (s * s)%R.
Proof.
  intros Hl Hs. unfold gamma_concentration, gamma_rate, gamma_mean, gamma_var.
  assert (0 < s * s)%R by nra. assert (P : (0 < l / (s * s))%R) by (apply Rdiv_lt_0_compat; lra).
  repeat split; [nra|assumption| |]; field; lra.
Qed.

Lemma gamma_injective l s l' s' : (0 < l)%R -> (0 < s)%R -> (0 < l')%R -> (0 < s')%R ->
  gamma_concentration l s = gamma_concentration l' s' -> gamma_rate l s = gamma_rate l' s' -> l = l' /\ s = s'.
Proof.
  intros H1 H2 H3 H4 E1 E2.
  destruct (gamma_moments l s) as (_ & _ & M1 & V1); [assumption..|].
  destruct (gamma_moments l' s') as (_ & _ & M2 & V2); [assumption..|].
  rewrite E1, E2 in M1, V1. split; [lra|]. assert (s * s = s' * s')%R by lra. nra.
Qed.

(** ** shape of the runs of the univariate models *)
Section Uni.
Context {D : Type} (e : env) (trend : prog arr) (data : option (dict D)) (effs : option (dict (effect_fn D))).

Lemma tail_run (tr : trace) ns n (dist : arr -> distr) sh y o tr' :
  run e tr (noise <~ sample "noise_scale" (DHalfNormal (scalar ns)) [] ;;
            n <~ lift_res n ;; _ <~ plate "data" n ;; observe "obs" (dist noise) sh y) = Ok (o, tr') ->
  (exists k, n = Ok k) /\ o = site_value e "obs" sh y /\
  dict_get tr' "obs" = Some (SSample (dist (mkArr [] [e "noise_scale" 0])) o (match y with Some _ => true | None => false end)).
Proof.
  unfold sample, plate, observe. cbn [pbind run]. unfold site_value at 1 2. simpl prod_shape. simpl seq. simpl map.
  destruct (record tr "noise_scale" _) as [t1|]; cbn [bind]; [|discriminate].
  destruct n as [n|]; cbn [lift_res pbind run]; [|discriminate].
  destruct (record t1 "data" _) as [t2|]; cbn [bind]; [|discriminate].
  destruct (record t2 "obs" _) as [t3|] eqn:E; cbn [bind]; [|discriminate].
  intros [= <- <-]. apply record_get in E. split; [eauto|]. split; [reflexivity|exact E].
Qed.

Lemma normal_obs y ns tr o tr' : run e tr (univariate_model y trend data effs ns) = Ok (o, tr') ->
  exists m tr1, run e tr (compute_mean trend data effs) = Ok (m, tr1) /\
    obs_distr tr' (DNormal (reshape_col m) (const_arr [length (a_flat m); 1] (e "noise_scale" 0))).
Proof.
  unfold univariate_model. rewrite run_bind. intros H.
  destruct (run e tr (compute_mean trend data effs)) as [[m tr1]|] eqn:E; [|discriminate]. cbn [bind] in H.
  apply (tail_run tr1 ns (len m) (fun noise => DNormal (reshape_col m) (const_arr (a_shape (reshape_col m)) (item0 noise)))) in H.
  destruct H as (_ & _ & H). exists m, tr1. split; [reflexivity|]. unfold obs_distr. eauto.
Qed.

Lemma gamma_obs y ns tr o tr' : run e tr (univariate_gamma_model y trend data effs ns) = Ok (o, tr') ->
  exists m tr1, run e tr (compute_mean trend data effs) = Ok (m, tr1) /\
    obs_distr tr' (gamma_reparametrized (reshape_col (to_positive m)) (e "noise_scale" 0)).
Proof.
  unfold univariate_gamma_model. rewrite run_bind. intros H.
  destruct (run e tr (compute_mean trend data effs)) as [[m tr1]|] eqn:E; [|discriminate]. cbn [bind] in H.
  apply (tail_run tr1 ns (len (to_positive m)) (fun noise => gamma_reparametrized (reshape_col (to_positive m)) (item0 noise))) in H.
  destruct H as (_ & _ & H). exists m, tr1. split; [reflexivity|]. unfold obs_distr. eauto.
Qed.

Lemma negbinomial_obs y ns scale tr o tr' : run e tr (univariate_negbinomial_model y trend data effs ns scale) = Ok (o, tr') ->
  exists m tr1, run e tr (compute_mean trend data effs) = Ok (m, tr1) /\
    obs_distr tr' (DNegBinomial2 (reshape_col (arr_map (fun x => x * scale)%R (to_positive m)))
      (const_arr [length (a_flat m); 1] (e "noise_scale" 0%nat * scale)%R)).
Proof.
  unfold univariate_negbinomial_model. rewrite run_bind. intros H.
  destruct (run e tr (compute_mean trend data effs)) as [[m tr1]|] eqn:E; [|discriminate]. cbn [bind] in H.
  set (m2 := arr_map (fun x => x * scale)%R (to_positive m)) in *.
  apply (tail_run tr1 ns (len m2) (fun noise => DNegBinomial2 (reshape_col m2) (const_arr (a_shape (reshape_col m2)) (item0 noise * scale)%R))) in H.
  destruct H as (_ & _ & H). exists m, tr1. split; [reflexivity|]. unfold obs_distr.
  replace (a_shape (reshape_col m2)) with [length (a_flat m); 1] in H by (simpl; rewrite !map_length; reflexivity). eauto.
Qed.

(** a value of the mean is enough for a run *)
Lemma tail_total (tr : trace) ns n (dist : arr -> distr) sh y :
  ~ In "noise_scale" (map fst tr) -> ~ In "obs" (map fst tr) ->
  exists o tr', run e tr (noise <~ sample "noise_scale" (DHalfNormal (scalar ns)) [] ;;
            n <~ lift_res (Ok n) ;; _ <~ plate "data" n ;; observe "obs" (dist noise) sh y) = Ok (o, tr').
Proof.
  intros N1 N2. unfold sample, plate, observe. cbn [pbind run lift_res].
  rewrite record_fresh by assumption. cbn [bind].
  set (t1 := (tr ++ _)%list).
  assert (H1 : ~ In "obs" (map fst t1)).
  { unfold t1. rewrite map_app, in_app_iff. simpl. intuition discriminate. }
  assert (H2 : exists t2, record t1 "data" (SPlate n) = Ok t2 /\ ~ In "obs" (map fst t2)).
  { unfold record. destruct (dict_get t1 "data"); eexists; (split; [reflexivity|]); rewrite dict_set_keys; intuition discriminate. }
  destruct H2 as (t2 & -> & H2). cbn [bind]. rewrite record_fresh by assumption. cbn [bind]. eauto.
Qed.
End Uni.

(** ** validity *)
Lemma repeat_pos n c : (0 < c)%R -> forall x, In x (repeat c n) -> (0 < x)%R.
Proof. intros H x Hx. apply repeat_spec in Hx. now subst. Qed.

Lemma to_positive_pos m x : In x (a_flat (to_positive m)) -> (0 < x)%R.
Proof.
  simpl. intros H. apply in_map_iff in H. destruct H as (z & <- & _). pose proof (to_positive1_bound z).
  assert (0 < / 10000000000)%R by lra. lra.
Qed.

Lemma const_col_len n c : length (a_flat (const_arr [n; 1] c)) = n.
Proof. simpl. rewrite repeat_length. lia. Qed.

Lemma normal_valid m s : (0 < s)%R -> valid_distr (DNormal (reshape_col m) (const_arr [length (a_flat m); 1] s)).
Proof.
  intros H. unfold valid_distr. split; [reflexivity|]. split; [rewrite const_col_len; reflexivity|]. intros x. apply repeat_pos. assumption.
Qed.

Lemma gamma_valid m s : (forall x, In x (a_flat m) -> (0 < x)%R) -> (0 < s)%R -> valid_distr (gamma_reparametrized (reshape_col m) s).
Proof.
  intros Hm H. unfold valid_distr, gamma_reparametrized. split; [reflexivity|]. split; [simpl; now rewrite !map_length|].
  split; intros x Hx; simpl in Hx; apply in_map_iff in Hx; destruct Hx as (z & <- & Hz); apply gamma_moments; auto.
Qed.

Lemma negbinomial_valid m s c : (forall x, In x (a_flat m) -> (0 < x)%R) -> (0 < s)%R -> (0 < c)%R ->
  valid_distr (DNegBinomial2 (reshape_col (arr_map (fun x => x * c)%R m)) (const_arr [length (a_flat m); 1] (s * c)%R)).
Proof.
  intros Hm H Hc. unfold valid_distr. split; [simpl; now rewrite map_length|]. split; [rewrite const_col_len; simpl; now rewrite map_length|].
  split; intros x Hx.
  - simpl in Hx. apply in_map_iff in Hx. destruct Hx as (z & <- & Hz). specialize (Hm z Hz). nra.
  - revert Hx. apply repeat_pos. nra.
Qed.

(** ** multivariate noise *)
Lemma flat2_tabulate n k (f : nat -> nat -> R) :
  flat_map (fun i => map (fun j => f i j) (seq 0 k)) (seq 0 n) =
  a_flat (tabulate [n; k] (fun idx => match idx with [i; j] => f i j | _ => 0%R end)).
Proof.
  cbn [tabulate a_flat all_idx]. rewrite map_flat_map. apply flat_map_ext_in. intros i _. rewrite map_map, map_flat_map.
  rewrite <- flat_map_singleton. apply flat_map_ext_in. intros j _. reflexivity.
Qed.

Lemma aget_flat2 n k (f : nat -> nat -> R) i j : i < n -> j < k ->
  aget (mkArr [n; k] (flat_map (fun i => map (fun j => f i j) (seq 0 k)) (seq 0 n))) [i; j] = f i j.
Proof.
  intros Hi Hj. rewrite flat2_tabulate. exact (aget_tabulate [n; k] _ [i; j] (Forall2_cons _ _ Hi (Forall2_cons _ _ Hj (Forall2_nil _)))).
Qed.

Lemma sum_single (f : nat -> R) n i : i < n -> (forall k, k <> i -> f k = 0%R) -> Rsum (map f (seq 0 n)) = f i.
Proof.
  intros Hi Hz. replace n with (i + (1 + (n - i - 1))) by lia. rewrite !seq_app, !map_app, !Rsum_app. simpl.
  assert (Z : forall a l, (forall k, In k (seq a l) -> k <> i) -> Rsum (map f (seq a l)) = 0%R).
  { intros a l. revert a. induction l as [|l IH]; intros a H; simpl; [reflexivity|]. rewrite (Hz a), IH; [lra| |].
    - intros k Hk. apply H. simpl. auto.
    - apply H. simpl. auto. }
  rewrite (Z 0 i), (Z (i + 1) (n - i - 1)); [lra| |]; intros k Hk; apply in_seq in Hk; lia.
Qed.

Lemma diag_get v i j : i < length (a_flat v) -> j < length (a_flat v) ->
  aget (diag v) [i; j] = if Nat.eqb i j then nth i (a_flat v) 0%R else 0%R.
Proof. intros. unfold diag. now apply (aget_flat2 _ _ (fun i j => if Nat.eqb i j then nth i (a_flat v) 0%R else 0%R)). Qed.

Lemma sum_single_in (f : nat -> R) n i : i < n -> (forall k, k < n -> k <> i -> f k = 0%R) -> Rsum (map f (seq 0 n)) = f i.
Proof.
  intros Hi Hz. transitivity (Rsum (map (fun k => if Nat.ltb k n then f k else 0%R) (seq 0 n))).
  - f_equal. apply map_ext_in. intros k Hk. apply in_seq in Hk. destruct (Nat.ltb_spec k n); [reflexivity|lia].
  - rewrite (sum_single _ n i Hi).
    + destruct (Nat.ltb_spec i n); [reflexivity|lia].
    + intros k Hk. destruct (Nat.ltb_spec k n); auto.
Qed.

Lemma diag_left v a n k : a_shape a = [n; k] -> length (a_flat v) = n ->
  exists b, matmul (diag v) a = Ok b /\ a_shape b = [n; k] /\
    forall i j, i < n -> j < k -> aget b [i; j] = (nth i (a_flat v) 0 * aget a [i; j])%R.
Proof.
  intros Ha Hv. unfold matmul. rewrite Ha. unfold diag at 1. cbn [a_shape]. rewrite Hv, Nat.eqb_refl. eexists. split; [reflexivity|]. split; [reflexivity|].
  intros i j Hi Hj. rewrite (aget_flat2 n k (fun i j => Rsum (map (fun l => (aget (diag v) [i; l] * aget a [l; j])%R) (seq 0 n)))) by assumption.
  rewrite (sum_single_in _ n i Hi).
  - rewrite diag_get by lia. now rewrite Nat.eqb_refl.
  - intros l Hl N. rewrite diag_get by lia. destruct (Nat.eqb_spec i l); [congruence|lra].
Qed.

Lemma diag_right v a n k : a_shape a = [n; k] -> length (a_flat v) = k ->
  exists b, matmul a (diag v) = Ok b /\ a_shape b = [n; k] /\
    forall i j, i < n -> j < k -> aget b [i; j] = (aget a [i; j] * nth j (a_flat v) 0)%R.
Proof.
  intros Ha Hv. unfold matmul. rewrite Ha. unfold diag at 1. cbn [a_shape]. rewrite Hv, Nat.eqb_refl. eexists. split; [reflexivity|]. split; [reflexivity|].
  intros i j Hi Hj. rewrite (aget_flat2 n k (fun i j => Rsum (map (fun l => (aget a [i; l] * aget (diag v) [l; j])%R) (seq 0 k)))) by assumption.
  rewrite (sum_single_in _ k j Hj).
  - rewrite diag_get by lia. now rewrite Nat.eqb_refl.
  - intros l Hl N. rewrite diag_get by lia. destruct (Nat.eqb_spec l j); [congruence|lra].
Qed.

Lemma nth_concat_repeat {A} (l : list A) t d : forall j k, j < t -> k < length l -> nth (j * length l + k) (concat (repeat l t)) d = nth k l d.
Proof.
  induction t as [|t IH]; intros j k Hj Hk; [lia|]. simpl. destruct j as [|j].
  - simpl. now rewrite app_nth1 by lia.
  - rewrite app_nth2 by (simpl; lia). replace (S j * length l + k - length l) with (j * length l + k) by (simpl; lia). apply IH; lia.
Qed.

Lemma tile0_get t a n m j i k : a_shape a = [n; m] -> arr_wf a -> j < t -> i < n -> k < m ->
  aget (tile0 t a) [j; i; k] = aget a [i; k].
Proof.
  intros Ha W Hj Hi Hk. unfold aget, tile0. cbn [a_shape a_flat]. unfold arr_wf in W. rewrite Ha in *. simpl in *.
  replace (n * (m * 1)) with (length (a_flat a)) by lia. rewrite nth_concat_repeat; [reflexivity|assumption|].
  rewrite W. nia.
Qed.

Lemma flat2_wf n k (f : nat -> nat -> R) : arr_wf (mkArr [n; k] (flat_map (fun i => map (fun j => f i j) (seq 0 k)) (seq 0 n))).
Proof. rewrite flat2_tabulate. apply (tabulate_wf [n; k]). Qed.

Lemma matmul_wf a b c : matmul a b = Ok c -> arr_wf c.
Proof.
  unfold matmul. destruct (a_shape a) as [|n [|m [|]]]; try discriminate. destruct (a_shape b) as [|m' [|k [|]]]; try discriminate.
  destruct (Nat.eqb m m'); [|discriminate]. intros [= <-].
  apply (flat2_wf n k (fun i j => Rsum (map (fun l => (aget a [i; l] * aget b [l; j])%R) (seq 0 m)))).
Qed.

Section Multi.
Context {D : Type} (e : env) (trend : prog arr) (data : option (dict D)) (effs : option (dict (effect_fn D))).

Lemma multi_obs y ns conc tr o tr' : run e tr (multivariate_model y trend data effs ns conc false) = Ok (o, tr') ->
  exists m tr1, run e tr (compute_mean trend data effs) = Ok (m, tr1) /\
    forall n t, a_shape m = [n; t; 1] -> exists loc tril, obs_distr tr' (DMvNormal loc tril) /\
      a_shape loc = [t; n] /\ (forall i j, i < n -> j < t -> aget loc [j; i] = aget m [i; j; 0]) /\
      a_shape tril = [t; n; n] /\
      forall j i k, j < t -> i < n -> k < n ->
        aget tril [j; i; k] = (e "std_observation" i * e "corr_matrix" (i * n + k)%nat * e "std_observation" k)%R.
Proof.
  unfold multivariate_model. rewrite run_bind. intros H.
  destruct (run e tr (compute_mean trend data effs)) as [[m tr1]|] eqn:E; [|discriminate]. cbn [bind] in H.
  exists m, tr1. split; [reflexivity|]. intros n t Hm.
  rewrite run_bind in H.
  destruct (run e tr1 match y with None => Ret None | Some y => s <~ lift_res (squeeze_last y) ;; Ret (Some (transpose s)) end) as [[y' tr2]|]; [|discriminate].
  cbn [bind] in H. unfold shape_at in H. rewrite Hm in H. cbn [nth_error lift_res pbind] in H.
  unfold sample, plate, observe in H. cbn [pbind run] in H.
  set (std := site_value e "std_observation" [n] None) in H. set (corr := site_value e "corr_matrix" [n; n] None) in H.
  destruct (record tr2 "std_observation" _) as [t3|]; cbn [bind] in H; [|discriminate].
  destruct (record t3 "corr_matrix" _) as [t4|]; cbn [bind] in H; [|discriminate].
  assert (Lstd : length (a_flat std) = n).
  { unfold std. cbn [site_value a_flat]. rewrite map_length, seq_length. simpl. lia. }
  destruct (diag_left std corr n n) as (half & E1 & S1 & G1); [reflexivity|assumption|].
  rewrite E1 in H. cbn [lift_res pbind] in H.
  destruct (diag_right std half n n) as (cov & E2 & S2 & G2); [assumption|assumption|].
  rewrite E2 in H. cbn [lift_res pbind run] in H.
  destruct (record t4 "time" _) as [t5|]; cbn [bind] in H; [|discriminate].
  unfold squeeze_last in H. rewrite Hm in H. cbn [rev app lift_res pbind run] in H.
  set (loc := mkArr [n; t] (a_flat m)) in H.
  destruct (record t5 "obs" _) as [t6|] eqn:E6; cbn [bind] in H; [|discriminate]. injection H as <- <-.
  apply record_get in E6. exists (transpose loc), (tile0 t cov). split; [unfold obs_distr; eauto|]. split; [reflexivity|].
  split.
  { intros i j Hi Hj. unfold transpose. cbn [a_shape loc rev app].
    rewrite (aget_tabulate [t; n] _ [j; i]) by (repeat constructor; assumption). cbn [rev app]. unfold aget. rewrite Hm. unfold loc. cbn [a_shape a_flat ravel prod_shape fold_right]. f_equal. }
  split; [unfold tile0; simpl; now rewrite S2|].
  intros j i k Hj Hi Hk. rewrite (tile0_get t cov n n) by (try assumption; eapply matmul_wf; exact E2).
  rewrite G2, G1 by assumption. unfold std, corr. unfold aget. cbn [site_value a_flat a_shape ravel].
  rewrite (nth_map_seq _ (prod_shape [n])) by (simpl; lia). rewrite (nth_map_seq _ (prod_shape [n])) by (simpl; lia).
  rewrite (nth_map_seq _ (prod_shape [n; n])) by (simpl; nia). simpl. replace (i * (n * 1) + (k * 1 + 0)) with (i * n + k) by lia. reflexivity.
Qed.
End Multi.
