(** Exogenous columns in other units: the values of effects. *)
From Coq Require Import Reals Lra ZArith String Ascii Bool List Lia.
From Verif.Model Require Import Base Num Frame Arr Prog Likelihood Effect Trend TrendProg Scale Expand Forecaster.
From Verif.Spec Require Import FrameSpec ProgSpec EffectSpec ForecasterSpec CounterSpec RescaleSpec.
From Verif.Facts Require Import BaseFacts FrameFacts ExpandFacts NumFacts ProgFacts MeanFacts PosteriorFacts ForecasterFacts ForecasterInv RescaleFrames RescaleEffects.
Import ListNotations.
Local Open Scope string_scope.

Lemma same_sites_refl moved l : Forall2 (same_site moved) l l.
Proof. induction l as [|[n s] l IH]; constructor; [|exact IH]. split; [reflexivity|]. destruct s; cbn [snd]; auto. Qed.

(** * Numbers *)
Lemma dot_scale ks : forall row cs cs', List.length ks = List.length cs -> List.length cs' = List.length cs ->
  (forall j, (j < List.length cs)%nat -> nth j ks 0 <> 0 /\ nth j cs' 0 = nth j cs 0 / nth j ks 0)%R -> dot (scale_vals ks row) cs' = dot row cs.
Proof.
  unfold scale_vals. induction ks as [|k ks IH]; intros row [|c cs] [|c' cs'] L L' H; try discriminate; [destruct row; reflexivity|].
  destruct row as [|v row]; [reflexivity|]. cbn [combine map dot fst snd]. rewrite (IH row cs cs').
  - destruct (H 0%nat) as [N E]; [simpl; lia|]. cbn [nth] in N, E. rewrite E. field. exact N.
  - now injection L. - now injection L'.
  - intros j Lj. apply (H (S j)). simpl. lia.
Qed.
Lemma chunk_rows {A} k : forall (rows : list (list A)) i, Forall (fun r => List.length r = k) rows -> firstn k (skipn (i * k) (concat rows)) = nth i rows [].
Proof.
  induction rows as [|r rows IH]; intros i F.
  - cbn [concat]. rewrite skipn_nil, firstn_nil. now destruct i.
  - inversion F as [|? ? E F']; subst. destruct i as [|i]; cbn [concat nth Nat.mul].
    + cbn [skipn]. rewrite firstn_app, Nat.sub_diag. cbn [firstn]. now rewrite app_nil_r, firstn_all.
    + rewrite skipn_app. rewrite skipn_all2 by lia. cbn [app]. replace (List.length r + i * List.length r - List.length r) with (i * List.length r) by lia. now apply IH.
Qed.

Lemma matmul_units ks a a' cs cs' : units_arr ks a a' -> List.length cs' = List.length cs ->
  (List.length cs = List.length ks -> forall j : nat, (j < List.length cs)%nat -> nth j ks 0 <> 0 /\ nth j cs' 0 = nth j cs 0 / nth j ks 0)%R ->
  matrix_multiplication a' cs' = matrix_multiplication a cs.
Proof.
  intros (S & (sh & Sh) & rows & W & E & E') L H. unfold matrix_multiplication. rewrite S, Sh, rev_app_distr. cbn [rev app]. rewrite L.
  destruct (Nat.eqb_spec (List.length ks) (List.length cs)) as [Q|Q]; [|reflexivity]. do 2 f_equal. rewrite E, E'. unfold chunks. rewrite !map_map. apply map_ext. intros i.
  assert (W' : Forall (fun r => List.length r = List.length ks) (map (scale_vals ks) rows)).
  { apply Forall_forall. intros r I. apply in_map_iff in I as (r0 & <- & I). rewrite Forall_forall in W. rewrite scale_vals_length; [now apply W|]. symmetry. now apply W. }
  rewrite !chunk_rows by assumption. assert (N : nth i (map (scale_vals ks) rows) [] = scale_vals ks (nth i rows [])).
  { rewrite <- (map_nth (scale_vals ks)). f_equal. unfold scale_vals. now destruct ks. }
  rewrite N. apply dot_scale; auto.
Qed.

Lemma units_same ks q a a' : units_arr ks a a' -> (forall x, In x ks -> x = q) -> a' = arr_map (Rmult q) a.
Proof.
  intros (S & _ & rows & W & E & E') Q. destruct a' as [sh' fl'], a as [sh fl]. cbn [a_shape a_flat arr_map] in *. subst. unfold arr_map. cbn [a_shape a_flat]. f_equal.
  rewrite concat_map. f_equal. apply map_ext_in. intros r I. rewrite Forall_forall in W. specialize (W _ I). clear I.
  unfold scale_vals. revert W. revert r. induction ks as [|x ks IH]; intros [|v r] W; try discriminate; [reflexivity|]. cbn [combine map fst snd]. rewrite (Q x (or_introl eq_refl)). f_equal.
  apply IH; [|now injection W]. intros; apply Q; now right.
Qed.

Lemma hill1_units q h s m x : (q <> 0 -> hill1 (h * q) s m (q * x) = hill1 h s m x)%R.
Proof.
  intros Q. unfold hill1, Reqb. destruct (Req_EM_T h 0) as [->|N].
  - rewrite Rmult_0_l. destruct (Req_EM_T 0 0); [reflexivity|contradiction].
  - destruct (Req_EM_T (h * q) 0) as [E|_]; [exfalso; apply Rmult_integral in E; tauto|].
    replace (q * x / (h * q))%R with (x / h)%R by (field; auto). reflexivity.
Qed.
Lemma log1_units q s r x : (q <> 0 -> log1 s (r / q) (q * x) = log1 s r x)%R.
Proof. intros Q. unfold log1. replace (r / q * (q * x))%R with (r * x)%R by (field; exact Q). reflexivity. Qed.

(** * Programs *)
Definition evals_alike (moved : string -> Prop) {A} (e e' : env) (p p' : prog A) : Prop :=
  forall a l, eval e p = Ok (a, l) -> exists l', eval e' p' = Ok (a, l') /\ Forall2 (same_site moved) l l'.

Lemma alike_bind moved {A B} e e' (p p' : prog A) (f f' : A -> prog B) : evals_alike moved e e' p p' -> (forall a, evals_alike moved e e' (f a) (f' a)) ->
  evals_alike moved e e' (pbind p f) (pbind p' f').
Proof.
  intros P F b l H. apply eval_split in H as (a & l1 & l2 & E1 & E2 & ->). destruct (P _ _ E1) as (l1' & E1' & S1). destruct (F _ _ _ E2) as (l2' & E2' & S2).
  exists (l1' ++ l2')%list. split; [|now apply Forall2_app]. rewrite eval_bind, E1'. cbn [bind]. rewrite E2'. reflexivity.
Qed.
Lemma alike_same moved {A} e e' (p : prog A) : (forall a l, eval e p = Ok (a, l) -> forall n d v, In (n, SSample d v false) l -> forall j, e n j = e' n j) -> evals_alike moved e e' p p.
Proof. intros H a l E. exists l. split; [|apply same_sites_refl]. eapply eval_agree; [exact E|]. exact (H _ _ E). Qed.
Lemma alike_lift moved {A} e e' (m : res A) : evals_alike moved e e' (lift_res m) (lift_res m).
Proof. apply alike_same. intros a l E n d v I. destruct m; [|discriminate]. injection E as <- <-. contradiction. Qed.
Lemma alike_lift_eq moved {A} e e' (m m' : res A) : m' = m -> evals_alike moved e e' (lift_res m) (lift_res m').
Proof. intros ->. apply alike_lift. Qed.
Lemma alike_sample moved {B} e e' n d sh (f f' : arr -> prog B) : (~ moved n -> forall j, e n j = e' n j) ->
  evals_alike moved e e' (f (site_value e n sh None)) (f' (site_value e' n sh None)) -> evals_alike moved e e' (x <~ sample n d sh ;; f x) (x <~ sample n d sh ;; f' x).
Proof.
  intros N F a l H. cbn [sample pbind eval] in *. destruct (eval e (f _)) as [[a1 l1]|] eqn:E; [|discriminate]. cbn [bind] in H. injection H as <- <-.
  destruct (F _ _ E) as (l1' & E' & S). rewrite E'. cbn [bind]. eexists. split; [reflexivity|]. constructor; [|exact S]. split; [reflexivity|]. cbn [snd fst].
  split; [reflexivity|]. split; [reflexivity|]. split; [reflexivity|]. intros M. unfold site_value. f_equal. apply map_ext. intros j. now apply N.
Qed.
Lemma alike_plate moved {B} e e' n k (p p' : prog B) : evals_alike moved e e' p p' -> evals_alike moved e e' (_ <~ plate n k ;; p) (_ <~ plate n k ;; p').
Proof.
  intros F a l H. cbn [plate pbind eval] in *. destruct (eval e p) as [[a1 l1]|] eqn:E; [|discriminate]. cbn [bind] in H. injection H as <- <-.
  destruct (F _ _ E) as (l1' & E' & S). rewrite E'. cbn [bind]. eexists. split; [reflexivity|]. constructor; [split; reflexivity|exact S].
Qed.

Lemma alike_mode moved e e' m raw raw' pd : evals_alike moved e e' raw raw' -> evals_alike moved e e' (predict_mode m raw pd) (predict_mode m raw' pd).
Proof.
  intros H. unfold predict_mode. apply alike_bind; [apply alike_lift|]. intros t. cbn beta zeta. apply alike_bind; [exact H|]. intros x. apply alike_bind; [apply alike_lift|]. intros z. destruct m; [|apply alike_lift].
  apply alike_same. intros a l E n d v I. injection E as <- <-. contradiction.
Qed.

Lemma nth_map_in {A} (f : A -> R) l j d0 : j < List.length l -> nth j (map f l) 0%R = f (nth j l d0).
Proof. intros L. rewrite (nth_indep _ _ (f d0)) by (now rewrite map_length). apply map_nth. Qed.

Lemma predict_units k e e' ef : forall cols x x' pd, units_data (map k cols) ef x x' -> (forall c, k c <> 0%R) -> one_unit k ef cols ->
  (forall n, unit_site ef <> Some n -> forall j, e' n j = e n j) ->
  (forall n, unit_site ef = Some n -> forall j, e' n j = converted k ef cols j (e n j)) ->
  evals_alike (fun n => unit_site ef = Some n) e e' (predict ef x pd) (predict ef x' pd).
Proof.
  induction ef as [m d b|m d q b|m d q r b|inner IH t ps b s|sp tl ps m b ff xp l]; intros cols x x' pd U K O N C; cbn [predict].
  - destruct U as (a & a' & -> & -> & U). apply alike_mode. unfold linear_raw. pose proof U as (S & (sh & Sh) & _). rewrite S, Sh, rev_app_distr. cbn [rev app]. rewrite map_length.
    destruct (List.length cols) as [|n] eqn:Ln; [discriminate|]. rewrite <- Ln in *. apply alike_plate. apply alike_sample.
    { cbn [unit_site]. intros M. now destruct M. }
    apply alike_lift_eq. unfold site_value. cbn [a_flat]. apply (matmul_units (map k cols)); [exact U|now rewrite !map_length|].
    rewrite !map_length, seq_length. intros _ j Lj. assert (PS : prod_shape [List.length cols] = List.length cols) by (unfold prod_shape; cbn; lia). rewrite PS in Lj.
    rewrite (nth_map_in k cols j "") by exact Lj. split; [apply K|]. rewrite PS. rewrite !(nth_map_in _ (seq 0 _) j 0) by (now rewrite seq_length). rewrite seq_nth by exact Lj. exact (C "coefs" eq_refl j).
  - destruct U as (a & a' & -> & -> & U). apply alike_mode. unfold log_raw. cbn [unit_site one_unit converted] in *.
    assert (Ea : a' = arr_map (Rmult (k (hd "" cols))) a) by (apply (units_same _ _ _ _ U); intros z I; apply in_map_iff in I as (c & <- & I); auto). subst a'.
    apply alike_sample; [intros _ j; symmetry; now apply N|]. apply alike_sample; [intros M; now destruct M|].
    assert (E1 : site_value e' "log_scale" [] None = site_value e "log_scale" [] None) by (unfold site_value; f_equal; apply map_ext; intros j; now apply N). rewrite E1.
    set (g := site_value e "log_scale" [] None). cbn [site_value a_flat prod_shape fold_right seq map nth].
    match goal with |- evals_alike _ _ _ (Ret ?u) (Ret ?v) => assert (EV : v = u) end.
    { unfold arr_map. cbn [a_shape a_flat]. f_equal. rewrite map_map. apply map_ext. intros z. rewrite (C "log_rate" eq_refl). apply log1_units. apply K. }
    rewrite EV. intros z l [= <- <-]. exists []. split; [reflexivity|constructor].
  - destruct U as (a & a' & -> & -> & U). apply alike_mode. unfold hill_raw. cbn [unit_site one_unit converted] in *.
    assert (Ea : a' = arr_map (Rmult (k (hd "" cols))) a) by (apply (units_same _ _ _ _ U); intros z I; apply in_map_iff in I as (c & <- & I); auto). subst a'.
    apply alike_sample; [intros M; now destruct M|]. apply alike_sample; [intros _ j; symmetry; now apply N|]. apply alike_sample; [intros _ j; symmetry; now apply N|].
    assert (E1 : site_value e' "slope" [] None = site_value e "slope" [] None) by (unfold site_value; f_equal; apply map_ext; intros j; now apply N).
    assert (E2 : site_value e' "max_effect" [] None = site_value e "max_effect" [] None) by (unfold site_value; f_equal; apply map_ext; intros j; now apply N). rewrite E1, E2.
    set (g1 := site_value e "slope" [] None). set (g2 := site_value e "max_effect" [] None). cbn [site_value a_flat prod_shape fold_right seq map nth a_shape arr_map].
    apply alike_bind; [|intros vs z l [= <- <-]; exists []; split; [reflexivity|constructor]]. apply alike_lift_eq. rewrite (C "half_max" eq_refl).
    induction (a_flat a) as [|z zs IHz]; [reflexivity|]. cbn [map mapM]. rewrite IHz, hill1_units by apply K. reflexivity.
  - destruct U as (dd & dd' & ll & -> & -> & U). cbn [unit_site one_unit converted] in *. apply alike_bind; [now apply (IH cols)|]. intros v. apply alike_bind.
    + intros z l H. unfold observe in *. cbn [eval bind] in *. injection H as <- <-. eexists. split; [reflexivity|]. apply same_sites_refl.
    + intros _ z l [= <- <-]. exists []. split; [reflexivity|constructor].
  - cbn [units_data] in U. subst x'. apply alike_same. intros a ll _ n d v _ j. symmetry. apply N. discriminate.
Qed.
