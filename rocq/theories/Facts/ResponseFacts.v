(** Values of effects, row by row. *)
From Coq Require Import Reals Lra ZArith String Ascii Bool List Lia Permutation.
From Verif.Model Require Import Base Num Frame Arr Prog Effect Expand Forecaster.
From Verif.Spec Require Import FrameSpec ProgSpec EffectSpec ForecasterSpec OverlapSpec ResponseSpec.
From Verif.Facts Require Import BaseFacts FrameFacts NumFacts ArrFacts ProgFacts EffectFacts EffectPredict EffectFourier AlignFacts OverlapFacts OverlapFrames.
Import ListNotations.
Local Open Scope string_scope.

(** * Arrays *)
Lemma weighted_sum_seq x : forall coef, weighted x coef = Rsum (map (fun j => (nth j x 0 * coef j)%R) (seq 0 (List.length x))).
Proof.
  induction x as [|u x IH]; intros coef; [reflexivity|]. cbn [weighted List.length seq map Rsum nth]. f_equal. rewrite IH. rewrite <- seq_shift, map_map. reflexivity.
Qed.

Lemma concat_nth {A} k (L : list (list A)) : Forall (fun x => List.length x = k) L -> forall i x c, nth_error L i = Some x -> c < k -> nth_error (concat L) (i * k + c) = nth_error x c.
Proof.
  induction 1 as [|y L Hy HL IH]; intros i x c Hi Hc; [destruct i; discriminate|]. cbn [concat]. destruct i as [|i]; cbn [nth_error Nat.mul Nat.add] in *.
  - injection Hi as ->. apply nth_error_app1. lia.
  - rewrite nth_error_app2 by lia. replace (k + i * k + c - List.length y) with (i * k + c) by lia. now apply IH.
Qed.
Lemma prod_shape_app s k : prod_shape (s ++ [k]) = prod_shape s * k.
Proof. unfold prod_shape. induction s as [|n s IH]; cbn [app fold_right]; [lia|]. rewrite IH. lia. Qed.
Lemma concat_len {A} k (L : list (list A)) : Forall (fun x => List.length x = k) L -> List.length (concat L) = List.length L * k.
Proof. induction 1 as [|y L Hy HL IH]; [reflexivity|]. cbn [concat List.length]. rewrite app_length, IH. lia. Qed.

(** the rows of an array of prepared data *)
Definition rows_array (rows : list (list R)) (k : nat) (a : arr) : Prop :=
  Forall (fun x => List.length x = k) rows /\ a_flat a = concat rows /\ exists s, a_shape a = (s ++ [k])%list /\ prod_shape s = List.length rows.

Lemma covered_rows_array Z ts a : ts <> [] -> in_order ts -> covers Z ts -> row_lengths Z -> frame_array (filter_fh ts Z) = Ok a ->
  rows_array (map r_vals (f_rows (filter_fh ts Z))) (List.length (f_cols Z)) a.
Proof.
  intros N O C W H. apply covered_array in H as (s & S & Q & F); auto. split; [|split; [exact F|]].
  - apply Forall_forall. intros x Hx. apply in_map_iff in Hx as (r & <- & Hr). unfold row_lengths in W. rewrite Forall_forall in W. apply W. unfold filter_fh, filter_rows in Hr. cbn [f_rows] in Hr. now apply filter_In in Hr.
  - exists s. now rewrite map_length.
Qed.

(** * Modes *)
Lemma mode_value env m raw pe w tv : arr_wf tv -> dict_get pe "trend" = Some tv -> yields env (predict_mode m raw pe) w ->
  exists x, yields env raw x /\ List.length (a_flat x) = List.length (a_flat tv) /\
    forall k u, nth_error (a_flat x) k = Some u -> exists tk, nth_error (a_flat tv) k = Some tk /\ nth_error (a_flat w) k = Some (modal m tk u).
Proof.
  intros W T H. apply mode_yields in H as (t' & x & T' & Hx & L & ->). assert (t' = tv) by congruence. subst t'. exists x. split; [exact Hx|].
  pose proof (trend_column_wf tv W) as W'. unfold arr_wf in W'. rewrite trend_column_len in W'. split; [congruence|]. intros k u Hk.
  assert (Lk : k < List.length (a_flat tv)) by (assert (k < List.length (a_flat x)) by (apply nth_error_Some; congruence); lia).
  destruct (nth_error (a_flat tv) k) as [tk|] eqn:E; [|apply nth_error_None in E; lia]. exists tk. split; [reflexivity|].
  assert (FC : a_flat (trend_column tv) = a_flat tv) by (unfold trend_column; destruct (Nat.eqb _ 1); reflexivity).
  destruct m; cbn [a_flat modal]; [exact Hk|]. rewrite FC. apply (map_nth_error (fun xy : R * R => (fst xy * snd xy)%R) k (combine (a_flat tv) (a_flat x)) (d := (tk, u))).
  clear -E Hk. revert k E Hk. generalize (a_flat tv) (a_flat x). induction l as [|p l IH]; intros [|q l0] [|k] E Hk; try discriminate; cbn [combine nth_error] in *; [congruence|now apply IH].
Qed.

Lemma linear_value env d a rows k x : rows_array rows k a -> yields env (linear_raw d (EArr a)) x ->
  k <> 0 /\ List.length (a_flat x) = List.length rows /\ forall i z, nth_error rows i = Some z -> nth_error (a_flat x) i = Some (weighted z (env "coefs")).
Proof.
  intros (F & Fl & s & Sh & Q) Y. assert (W : arr_wf a) by (unfold arr_wf; rewrite Fl, Sh, prod_shape_app, Q; now apply concat_len).
  apply (linear_raw_yields env d a k s x Sh W) in Y as (Hk & _ & L & V). split; [exact Hk|]. rewrite Q in L, V. split; [exact L|]. intros i z Hz.
  assert (Hi : i < List.length rows) by (apply nth_error_Some; congruence). rewrite (nth_error_nth' _ 0%R) by lia. f_equal. change (nth i (a_flat x) 0%R) with (entry x i). rewrite V by exact Hi.
  rewrite weighted_sum_seq. assert (Lz : List.length z = k) by (rewrite Forall_forall in F; apply F; now apply nth_error_In in Hz). rewrite Lz. apply Rsum_ext. intros j Hj. apply in_seq in Hj. f_equal.
  unfold entry. rewrite Fl. apply nth_error_nth. rewrite (concat_nth k rows F i z j Hz) by lia. apply nth_error_nth'. lia.
Qed.

(** * Classes *)
(** the answer in terms of the inputs [z] of the class: columns, or sines and cosines *)
Fixpoint replies (e : env) (ef : effect) (z : list R) (trend v : R) : Prop :=
  match ef with
  | Linear m _ _ => v = modal m trend (weighted z (e "coefs"))
  | Log m _ _ _ => exists u, z = [u] /\ v = modal m trend (log1 (e "log_scale" 0) (e "log_rate" 0) u)
  | Hill m _ _ _ _ => exists u q, z = [u] /\ hill1 (e "half_max" 0) (e "slope" 0) (e "max_effect" 0) u = Ok q /\ v = modal m trend q
  | Lift inner _ _ _ _ => replies e inner z trend v
  | Fourier _ _ _ _ _ _ _ l => exists m b, l = Some (m, b) /\ v = modal m trend (weighted z (e "coefs"))
  end.
(** prepared data with the inputs [rows] *)
Fixpoint inputs (ef : effect) (rows : list (list R)) (k : nat) (d : edata) : Prop :=
  match ef, d with
  | Lift inner _ _ _ _, ELift d _ => inputs inner rows k d
  | Lift _ _ _ _ _, _ => False
  | _, EArr a => rows_array rows k a
  | _, _ => False
  end.

Lemma one_column (rows : list (list R)) k T : rows <> [] -> List.length rows = T -> List.length rows * k = T -> k = 1.
Proof. intros N L M. destruct rows; [congruence|]. cbn [List.length] in *. nia. Qed.

Lemma predict_replies env tv (W : arr_wf tv) ef : forall rows k d w, rows <> [] -> inputs ef rows k d -> List.length (a_flat tv) = List.length rows -> yields env (predict ef d [("trend", tv)]) w ->
  forall i z, nth_error rows i = Some z -> exists tk v, nth_error (a_flat tv) i = Some tk /\ nth_error (a_flat w) i = Some v /\ replies env ef z tk v.
Proof.
  induction ef as [m p b|m p q b|m p q r b|inner IH tab ps b sc|sp terms ps m b ff x l]; intros rows k d w N I L Y i z Hz.
  - destruct d as [|a|]; try contradiction. cbn [inputs predict] in *. apply (mode_value _ _ _ [("trend", tv)] _ tv W eq_refl) in Y as (x & Y & Lx & V).
    apply (linear_value _ _ _ rows k) in Y as (_ & _ & Q); [|exact I]. destruct (V _ _ (Q _ _ Hz)) as (tk & T & E). exists tk, (modal m tk (weighted z (env "coefs"))). split; [exact T|]. split; [exact E|reflexivity].
  - destruct d as [|a|]; try contradiction. cbn [inputs predict] in *. apply (mode_value _ _ _ [("trend", tv)] _ tv W eq_refl) in Y as (x & Y & Lx & V). apply log_raw_yields in Y. subst x.
    destruct I as (F & Fl & _). cbn [arr_map a_flat] in *. rewrite map_length in Lx. rewrite Fl, (concat_len k) in Lx by exact F. assert (k = 1) by (apply (one_column rows k _ N eq_refl); congruence). subst k.
    assert (Lz : List.length z = 1) by (rewrite Forall_forall in F; apply F; now apply nth_error_In in Hz). destruct z as [|u [|? ?]]; try discriminate.
    pose proof (concat_nth 1 rows F i [u] 0 Hz ltac:(lia)) as E. rewrite <- Fl, Nat.mul_1_r, Nat.add_0_r in E. cbn [nth_error] in E.
    destruct (V i _ (map_nth_error (log1 (env "log_scale" 0) (env "log_rate" 0)) i (a_flat a) E)) as (tk & T & EE). exists tk, (modal m tk (log1 (env "log_scale" 0) (env "log_rate" 0) u)). split; [exact T|]. split; [exact EE|]. exists u. auto.
  - destruct d as [|a|]; try contradiction. cbn [inputs predict] in *. apply (mode_value _ _ _ [("trend", tv)] _ tv W eq_refl) in Y as (x & Y & Lx & V). apply hill_raw_yields in Y as (vs & M & ->).
    destruct I as (F & Fl & _). cbn [a_flat] in *. pose proof (EffectPredict.mapM_nth _ _ _ M) as [LM MN]. rewrite LM, Fl, (concat_len k) in Lx by exact F. assert (k = 1) by (apply (one_column rows k _ N eq_refl); congruence). subst k.
    assert (Lz : List.length z = 1) by (rewrite Forall_forall in F; apply F; now apply nth_error_In in Hz). destruct z as [|u [|? ?]]; try discriminate.
    pose proof (concat_nth 1 rows F i [u] 0 Hz ltac:(lia)) as E. rewrite <- Fl, Nat.mul_1_r, Nat.add_0_r in E. cbn [nth_error] in E.
    destruct (nth_error_mapM _ _ _ _ _ M E) as (q0 & HQ & EQ). destruct (V i _ EQ) as (tk & T & EE). exists tk, (modal m tk q0). split; [exact T|]. split; [exact EE|]. exists u, q0. auto.
  - destruct d as [| |d lift]; try contradiction. cbn [inputs predict replies] in *. apply yields_bind in Y as (x & Y & K). apply yields_bind in K as (u & _ & K). apply yields_ret in K. subst w. exact (IH rows k d x N I L Y i z Hz).
  - destruct d as [|a|]; try contradiction. cbn [inputs predict replies] in *. destruct l as [[mm bb]|]; [|inversion Y]. apply (mode_value _ _ _ [("trend", tv)] _ tv W eq_refl) in Y as (y & Y & Lx & V).
    apply (linear_value _ _ _ rows k) in Y as (_ & _ & Q); [|exact I]. destruct (V _ _ (Q _ _ Hz)) as (tk & T & E). exists tk, (modal mm tk (weighted z (env "coefs"))). split; [exact T|]. split; [exact E|]. exists mm, bb. auto.
Qed.
