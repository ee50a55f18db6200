(** The mean of the model: sum of components, order of effects, names of sites. *)
From Coq Require Import Reals Lra String Ascii Bool List Lia Permutation.
From Verif.Model Require Import Base Num Arr Prog Likelihood.
From Verif.Spec Require Import ProgSpec.
From Verif.Facts Require Import BaseFacts NumFacts ProgFacts.
Import ListNotations.
Local Open Scope string_scope.

(** ** sums of arrays *)
Lemma zip_flat_comm (a b c : list R) :
  map (fun xy => fst xy + snd xy)%R (combine (map (fun xy => fst xy + snd xy)%R (combine a b)) c) =
  map (fun xy => fst xy + snd xy)%R (combine (map (fun xy => fst xy + snd xy)%R (combine a c)) b).
Proof.
  revert b c. induction a as [|x a IH]; intros [|y b] [|z c]; simpl; try reflexivity. rewrite IH. f_equal. ring.
Qed.

Lemma zip_swap m a b : (x <- arr_zip Rplus m a ;; arr_zip Rplus x b) = (x <- arr_zip Rplus m b ;; arr_zip Rplus x a).
Proof.
  unfold arr_zip. destruct (list_eq_dec Nat.eq_dec (a_shape m) (a_shape a)) as [Ea|Ea];
    destruct (list_eq_dec Nat.eq_dec (a_shape m) (a_shape b)) as [Eb|Eb]; simpl.
  - destruct (list_eq_dec Nat.eq_dec (a_shape m) (a_shape b)); [|contradiction].
    destruct (list_eq_dec Nat.eq_dec (a_shape m) (a_shape a)); [|contradiction]. now rewrite zip_flat_comm.
  - destruct (list_eq_dec Nat.eq_dec (a_shape m) (a_shape b)); [contradiction|reflexivity].
  - destruct (list_eq_dec Nat.eq_dec (a_shape m) (a_shape a)); [contradiction|reflexivity].
  - reflexivity.
Qed.

Lemma sum_perm vs vs' : Permutation vs vs' -> forall m, foldM (arr_zip Rplus) m vs = foldM (arr_zip Rplus) m vs'.
Proof.
  induction 1 as [|x l l' H IH|x y l|l l' l'' H1 IH1 H2 IH2]; intros m; simpl.
  - reflexivity.
  - destruct (arr_zip Rplus m x); simpl; [apply IH|reflexivity].
  - assert (E := zip_swap m y x). destruct (arr_zip Rplus m y) as [a|]; destruct (arr_zip Rplus m x) as [b|]; simpl in *.
    + now rewrite E.
    + now rewrite E.
    + now rewrite <- E.
    + congruence.
  - now rewrite IH1.
Qed.

Lemma sum_entries vs : forall m m', foldM (arr_zip Rplus) m vs = Ok m' ->
  a_shape m' = a_shape m /\ Forall (fun v => a_shape v = a_shape m) vs /\
  (arr_wf m -> Forall arr_wf vs -> arr_wf m') /\
  (forall k, k < length (a_flat m') -> entry m' k = (entry m k + Rsum (map (fun v => entry v k) vs))%R) /\
  length (a_flat m') <= length (a_flat m).
Proof.
  induction vs as [|v vs IH]; intros m m' H; simpl in H.
  - injection H as <-. repeat split; auto. intros k _. simpl. ring.
  - destruct (arr_zip Rplus m v) as [x|] eqn:E; [|discriminate]. cbn [bind] in H. unfold arr_zip in E.
    destruct (list_eq_dec _ _ _) as [Es|]; [|discriminate]. injection E as <-. apply IH in H. simpl in H.
    rewrite map_length, combine_length in H. destruct H as (H1 & H2 & H3 & H4 & H5).
    split; [assumption|]. split; [constructor; auto|]. split; [|split].
    + intros W F. inversion F; subst. apply H3; [|assumption]. unfold arr_wf in *. simpl. rewrite map_length, combine_length.
      rewrite W. rewrite H6. rewrite <- Es. lia.
    + intros k Hk. rewrite H4 by assumption. unfold entry at 1. simpl.
      assert (B : forall (g : R * R -> R) L, k < length L -> nth k (map g L) 0%R = g (nth k L (0%R, 0%R))).
      { intros g L HL. rewrite (nth_indep _ 0%R (g (0%R, 0%R))) by (now rewrite map_length). apply map_nth. }
      rewrite B by (rewrite combine_length; lia). unfold entry. assert (A : nth k (combine (a_flat m) (a_flat v)) (0%R, 0%R) = (nth k (a_flat m) 0%R, nth k (a_flat v) 0%R)).
      { clear -Hk H5. assert (Hk' : k < Nat.min (length (a_flat m)) (length (a_flat v))) by lia. clear Hk H5.
        revert Hk'. generalize (a_flat m) (a_flat v). intros l1. revert k. induction l1 as [|a l1 IH]; intros k l2 Hk; simpl in *; [lia|].
        destruct l2; simpl in *; [lia|]. destruct k; [reflexivity|]. apply IH. lia. }
      rewrite A. simpl. ring.
    + lia.
Qed.

(** ** the chain of effects *)
Inductive chain {D} (e : env) (data : dict D) : dict arr -> dict (effect_fn D) -> list arr -> list (list (string * site)) -> Prop :=
| ch_nil pe : chain e data pe [] [] []
| ch_cons pe name (eff : effect_fn D) effs d v l vs gs :
    dict_get data name = Some d -> eval (own_env e name) (eff d pe) = Ok (v, l) ->
    chain e data (dict_set pe name v) effs vs gs ->
    chain e data pe ((name, eff) :: effs) (v :: vs) ((map (prefixed name) l ++ [(name, SDet v)])%list :: gs).

Lemma eval_apply_effects {D} e (data : dict D) effs : forall m pe m' l,
  (exists pe', eval e (apply_effects data (m, pe) effs) = Ok ((m', pe'), l)) <->
  exists vs gs, chain e data pe effs vs gs /\ l = concat gs /\ foldM (arr_zip Rplus) m vs = Ok m'.
Proof.
  induction effs as [|[name eff] effs IH]; intros m pe m' l.
  - simpl. split.
    + intros (pe' & [= -> -> <-]). exists [], []. repeat split. constructor.
    + intros (vs & gs & C & -> & F). inversion C; subst. simpl in F. injection F as ->. simpl. eauto.
  - cbn [apply_effects]. rewrite eval_bind. unfold apply_effect. rewrite eval_bind, eval_lift.
    unfold dict_item. destruct (dict_get data name) as [d|] eqn:Ed; cbn [bind].
    2:{ split; [intros (pe' & H); discriminate|]. intros (vs & gs & C & _). inversion C; subst. congruence. }
    rewrite eval_bind, eval_scope. destruct (eval (own_env e name) (eff d pe)) as [[v lv]|] eqn:Ev; cbn [bind].
    2:{ split; [intros (pe' & H); discriminate|]. intros (vs & gs & C & _). inversion C; subst. congruence. }
    unfold deterministic. cbn [pbind]. cbn [eval]. rewrite eval_bind, eval_lift.
    destruct (arr_zip Rplus m v) as [x|] eqn:Ez; cbn [bind eval].
    2:{ split; [intros (pe' & H); discriminate|]. intros (vs & gs & C & _ & F). inversion C; subst. simpl in F.
        assert (v = v0) by congruence. subst. rewrite Ez in F. discriminate. }
    specialize (IH x (dict_set pe name v) m'). split.
    + intros (pe' & H). destruct (eval e (apply_effects data (x, dict_set pe name v) effs)) as [[[m2 pe2] l2]|] eqn:E2; [|discriminate].
      cbn [bind] in H. injection H as -> -> <-. destruct (proj1 (IH l2)) as (vs & gs & C & -> & F); [eauto|].
      exists (v :: vs), ((map (prefixed name) lv ++ [(name, SDet v)])%list :: gs). split; [econstructor; eauto|]. split.
      * simpl. rewrite <- !app_assoc. reflexivity.
      * simpl. rewrite Ez. exact F.
    + intros (vs & gs & C & -> & F). inversion C as [|? ? ? ? d' v' l' vs' gs' G1 G2 G3]; subst.
      assert (d' = d) by congruence. subst. assert (v' = v /\ l' = lv) as [-> ->] by (split; congruence).
      simpl in F. rewrite Ez in F. cbn [bind] in F. destruct (proj2 (IH (concat gs'))) as (pe' & E2); [eauto|].
      exists pe'. rewrite E2. cbn [bind]. simpl. rewrite <- !app_assoc. reflexivity.
Qed.

Lemma eval_compute_mean {D} e (trend : prog arr) (data : dict D) effs m l :
  eval e (compute_mean trend (Some data) (Some effs)) = Ok (m, l) <->
  exists t lt vs gs, eval e trend = Ok (t, lt) /\ chain e data [("trend", t)] effs vs gs /\
    l = (lt ++ ("trend", SDet t) :: concat gs)%list /\ foldM (arr_zip Rplus) t vs = Ok m.
Proof.
  unfold compute_mean. rewrite eval_bind. destruct (eval e trend) as [[t lt]|]; cbn [bind].
  2:{ split; [discriminate|]. intros (t & lt & vs & gs & H & _). discriminate. }
  unfold deterministic. cbn [pbind eval].
  assert (Em : eval e match effs with [] => Ret t | _ => mp <~ apply_effects data (t, [("trend", t)]) effs;; Ret (fst mp) end =
     ('(mp, l) <- eval e (apply_effects data (t, [("trend", t)]) effs) ;; Ok (fst mp, l))).
  { destruct effs as [|ne effs]; [reflexivity|]. rewrite eval_bind. destruct (eval e (apply_effects data _ _)) as [[mp l0]|]; simpl; [|reflexivity].
    now rewrite app_nil_r. }
  rewrite Em. clear Em. pose proof (eval_apply_effects e data effs t [("trend", t)]) as A. split.
  - intros H. destruct (eval e (apply_effects data (t, [("trend", t)]) effs)) as [[[m2 pe2] l2]|] eqn:E2; [|discriminate].
    cbn [bind] in H. injection H as <- <-. destruct (proj1 (A m2 l2)) as (vs & gs & C & -> & F); [eauto|].
    exists t, lt, vs, gs. auto.
  - intros (t' & lt' & vs & gs & [= <- <-] & C & -> & F). destruct (proj2 (A m (concat gs))) as (pe' & E2); [eauto|].
    destruct (eval e (apply_effects data (t, [("trend", t)]) effs)) as [[[m2 pe2] l2]|] eqn:E3; pose proof (eq_trans (eq_sym E3) E2) as X; [|discriminate].
    injection X as -> -> ->. reflexivity.
Qed.

Lemma dict_set_fresh {V} (d : dict V) k v : ~ In k (map fst d) -> dict_set d k v = (d ++ [(k, v)])%list.
Proof. intros H. rewrite <- (app_nil_r d) at 1. now rewrite dict_set_app_r. Qed.

Lemma chain_values {D} e (data : dict D) effs : forall pe vs gs, chain e data pe effs vs gs ->
  NoDup (map fst effs) -> (forall n, In n (map fst effs) -> ~ In n (map fst pe)) ->
  length vs = length effs /\
  forall i name eff, nth_error effs i = Some (name, eff) ->
    exists d v, dict_get data name = Some d /\ nth_error vs i = Some v /\
      yields (own_env e name) (eff d (pe ++ combine (firstn i (map fst effs)) (firstn i vs))%list) v.
Proof.
  induction effs as [|[name eff] effs IH]; intros pe vs gs C ND Hn; inversion C as [|? ? ? ? d v l vs' gs' G1 G2 G3]; subst.
  - split; [reflexivity|]. intros i n f H. now destruct i.
  - simpl in ND. inversion ND as [|? ? N1 N2]; subst. rewrite dict_set_fresh in G3 by (apply Hn; simpl; auto).
    destruct (IH _ _ _ G3 N2) as [L V].
    { intros n Hin. rewrite map_app. simpl. rewrite in_app_iff. intros [H|[<-|[]]]; [apply (Hn n); simpl; auto|contradiction]. }
    split; [simpl; lia|]. intros [|i] n f H; simpl in H.
    + injection H as <- <-. exists d, v. split; [assumption|]. split; [reflexivity|]. simpl. rewrite app_nil_r. apply eval_yields. eauto.
    + destruct (V i n f H) as (d' & v' & V1 & V2 & V3). exists d', v'. split; [assumption|]. split; [assumption|].
      simpl. rewrite <- app_assoc in V3. exact V3.
Qed.

(** ** dictionaries up to order *)
Definition same_dict {V} (d1 d2 : dict V) : Prop := forall k, dict_get d1 k = dict_get d2 k.

Lemma dict_set_nodup {V} (d : dict V) k v : NoDup (map fst d) -> NoDup (map fst (dict_set d k v)).
Proof.
  induction d as [|[x w] d IH]; simpl; intros H; [repeat constructor; simpl; tauto|].
  inversion H; subst. destruct (String.eqb_spec k x) as [->|N]; simpl; constructor; auto.
  rewrite dict_set_keys. intros [->|I]; [congruence|contradiction].
Qed.

Lemma dict_get_iff {V} (d : dict V) k v : NoDup (map fst d) -> (dict_get d k = Some v <-> In (k, v) d).
Proof.
  induction d as [|[x w] d IH]; simpl; intros H; [split; [discriminate|tauto]|]. inversion H; subst.
  destruct (String.eqb_spec k x) as [->|N].
  - split; [intros [= ->]; auto|]. intros [[= ->]|I]; [reflexivity|]. exfalso. apply H2. now apply (in_map fst) in I.
  - rewrite IH by assumption. split; [auto|]. intros [[= -> _]|I]; [congruence|assumption].
Qed.

Lemma same_dict_perm {V} (d1 d2 : dict V) : NoDup (map fst d1) -> NoDup (map fst d2) -> same_dict d1 d2 -> Permutation d1 d2.
Proof.
  intros N1 N2 H. apply NoDup_Permutation.
  - apply NoDup_map_inv in N1. assumption.
  - apply NoDup_map_inv in N2. assumption.
  - intros [k v]. rewrite <- !dict_get_iff by assumption. now rewrite H.
Qed.

Definition res_same (a b : res trace) : Prop :=
  match a, b with Ok x, Ok y => same_dict x y | Err e, Err f => e = f | _, _ => False end.

Lemma record_same t1 t2 n s : same_dict t1 t2 -> res_same (record t1 n s) (record t2 n s).
Proof.
  intros H. unfold record. rewrite (H n). destruct s; [destruct (dict_get t2 n)|destruct (dict_get t2 n)..]; simpl; auto;
    intros k; rewrite !dict_get_set, H; reflexivity.
Qed.

Lemma record_all_same l : forall t1 t2, same_dict t1 t2 -> res_same (record_all t1 l) (record_all t2 l).
Proof.
  induction l as [|[n s] l IH]; intros t1 t2 H; [exact H|]. rewrite !record_all_cons.
  pose proof (record_same t1 t2 n s H) as R. destruct (record t1 n s), (record t2 n s); simpl in *; auto; contradiction.
Qed.

Lemma record_nodup t n s t' : record t n s = Ok t' -> NoDup (map fst t) -> NoDup (map fst t').
Proof.
  unfold record. intros H N. assert (t' = dict_set t n s) as ->.
  { destruct s; [destruct (dict_get t n); [discriminate|]|destruct (dict_get t n)..]; congruence. }
  now apply dict_set_nodup.
Qed.

Lemma record_all_nodup l : forall t t', record_all t l = Ok t' -> NoDup (map fst t) -> NoDup (map fst t').
Proof.
  induction l as [|[n s] l IH]; intros t t' H N; [injection H as <-; assumption|]. rewrite record_all_cons in H.
  destruct (record t n s) as [t1|] eqn:E; [|discriminate]. cbn [bind] in H. eapply IH; eauto. eapply record_nodup; eauto.
Qed.

Lemma res_same_refl a : res_same a a. Proof. destruct a; simpl; [intros k|]; reflexivity. Qed.
Lemma res_same_sym a b : res_same a b -> res_same b a.
Proof. destruct a, b; simpl; auto. intros H k. symmetry. apply H. Qed.
Lemma res_same_trans a b c : res_same a b -> res_same b c -> res_same a c.
Proof.
  destruct a, b, c; simpl; auto; try contradiction; try congruence.
Qed.

Lemma record_swap t n s m s' : n <> m ->
  res_same (t1 <- record t n s ;; record t1 m s') (t1 <- record t m s' ;; record t1 n s).
Proof.
  intros N. unfold record.
  assert (Q : same_dict (dict_set (dict_set t n s) m s') (dict_set (dict_set t m s') n s)).
  { intros k. rewrite !dict_get_set. destruct (String.eqb_spec k m), (String.eqb_spec k n); congruence. }
  assert (E1 : forall v, dict_get (dict_set t n v) m = dict_get t m).
  { intros v. rewrite dict_get_set. destruct (String.eqb_spec m n); congruence. }
  assert (E2 : forall v, dict_get (dict_set t m v) n = dict_get t n).
  { intros v. rewrite dict_get_set. destruct (String.eqb_spec n m); congruence. }
  destruct s, s'; destruct (dict_get t n) eqn:En; destruct (dict_get t m) eqn:Em; simpl; rewrite ?E1, ?E2, ?En, ?Em; simpl; auto.
Qed.

Lemma res_same_bind_all a b l : res_same a b -> res_same (t <- a ;; record_all t l) (t <- b ;; record_all t l).
Proof. destruct a, b; simpl; auto; try contradiction. apply record_all_same. Qed.

Lemma record_all_move l : forall t n s, ~ In n (map fst l) ->
  res_same (t1 <- record t n s ;; record_all t1 l) (t1 <- record_all t l ;; record t1 n s).
Proof.
  induction l as [|[m s'] l IH]; intros t n s H.
  - unfold record_all. simpl foldM. cbn [bind]. destruct (record t n s); cbn [bind]; apply res_same_refl.
  - rewrite record_all_cons.
    assert (N : n <> m) by (simpl in H; intros ->; apply H; auto).
    apply res_same_trans with (t2 <- (t1 <- record t n s ;; record t1 m s') ;; record_all t2 l).
    { destruct (record t n s) as [t1|]; cbn [bind]; [|apply res_same_refl]. rewrite record_all_cons. apply res_same_refl. }
    apply res_same_trans with (t2 <- (t1 <- record t m s' ;; record t1 n s) ;; record_all t2 l).
    { apply res_same_bind_all. now apply record_swap. }
    destruct (record t m s') as [t1|]; cbn [bind]; [|apply res_same_refl]. apply IH. simpl in H. tauto.
Qed.

Lemma record_all_swap l1 l2 : forall t, disjoint (map fst l1) (map fst l2) ->
  res_same (record_all t (l1 ++ l2)%list) (record_all t (l2 ++ l1)%list).
Proof.
  induction l1 as [|[n s] l1 IH]; intros t H.
  - rewrite app_nil_r. apply res_same_refl.
  - rewrite <- app_comm_cons, record_all_cons.
    apply res_same_trans with (t1 <- record t n s ;; record_all t1 (l2 ++ l1)%list).
    { destruct (record t n s) as [t1|]; cbn [bind]; [|reflexivity]. apply IH. intros x H1 H2. apply (H x); simpl; auto. }
    apply res_same_trans with (t2 <- (t1 <- record t n s ;; record_all t1 l2) ;; record_all t2 l1).
    { destruct (record t n s); cbn [bind]; [|reflexivity]. rewrite record_all_cat. apply res_same_refl. }
    apply res_same_trans with (t2 <- (t1 <- record_all t l2 ;; record t1 n s) ;; record_all t2 l1).
    { apply res_same_bind_all. apply record_all_move. intros I. apply (H n); simpl; auto. }
    rewrite record_all_cat. destruct (record_all t l2); cbn [bind]; [|reflexivity]. apply res_same_refl.
Qed.

(** permuting groups with pairwise disjoint names *)
Lemma record_groups_perm gs gs' : Permutation gs gs' ->
  (forall g1 g2, In g1 gs -> In g2 gs -> g1 = g2 \/ disjoint (map fst g1) (map fst g2)) ->
  forall t, res_same (record_all t (concat gs)) (record_all t (concat gs')).
Proof.
  induction 1 as [|g l l' H IH|g1 g2 l|l l' l'' H1 IH1 H2 IH2]; intros D t; cbn [concat].
  - apply res_same_refl.
  - rewrite !record_all_cat. destruct (record_all t g); cbn [bind]; [|reflexivity]. apply IH. intros; apply D; simpl; auto.
  - rewrite !app_assoc, !(record_all_cat _ (_ ++ _)). apply res_same_bind_all.
    destruct (D g2 g1) as [->|Dj]; simpl; auto; [apply res_same_refl|now apply record_all_swap].
  - eapply res_same_trans; [now apply IH1|]. apply IH2. intros g1 g2 G1 G2. apply D; eapply Permutation_in; try eassumption; now symmetry.
Qed.

(** ** names *)
Lemma no_slash_app a b : no_slash (a ++ b) = (no_slash a && no_slash b)%bool.
Proof. induction a as [|c a IH]; simpl; [reflexivity|]. rewrite IH. now rewrite andb_assoc. Qed.

Lemma app_inv_slash a b x y : no_slash a = true -> no_slash b = true -> a ++ "/" ++ x = b ++ "/" ++ y -> a = b /\ x = y.
Proof.
  revert b. induction a as [|c a IH]; intros [|d b] Ha Hb H; simpl in *.
  - injection H as ->. auto.
  - injection H as <- _. simpl in Hb. discriminate.
  - injection H as -> _. simpl in Ha. discriminate.
  - injection H as -> H. apply andb_true_iff in Ha, Hb. destruct (IH b) as [-> ->]; tauto.
Qed.

Lemma app_slash_has a x : no_slash (a ++ "/" ++ x) = false.
Proof. rewrite no_slash_app. simpl. apply andb_false_r. Qed.

Lemma append_assoc (a b c : string) : (a ++ b) ++ c = a ++ (b ++ c).
Proof. induction a as [|x a IH]; simpl; [reflexivity|]. now rewrite IH. Qed.

(** the last slash is unique as well: local names without slash determine the prefix *)
Lemma app_inv_last a b x y : no_slash x = true -> no_slash y = true -> a ++ "/" ++ x = b ++ "/" ++ y -> a = b /\ x = y.
Proof.
  revert b. induction a as [|c a IH]; intros [|d b] Hx Hy H; simpl in *.
  - injection H as ->. auto.
  - injection H as <- H. exfalso. subst x. change (String "/" y) with ("/" ++ y) in Hx. rewrite app_slash_has in Hx. discriminate.
  - injection H as -> H. exfalso. subst y. change (String "/" x) with ("/" ++ x) in Hy. rewrite app_slash_has in Hy. discriminate.
  - injection H as -> H. destruct (IH b Hx Hy H) as [-> ->]. auto.
Qed.

(** ** C36 *)
Lemma c36_mean {D} e tr (trend : prog arr) (data : dict D) effs m tr' :
  run e tr (compute_mean trend (Some data) (Some effs)) = Ok (m, tr') ->
  NoDup (map fst effs) -> ~ In "trend" (map fst effs) ->
  exists t vs, additive_mean e trend data effs t vs m.
Proof.
  intros H ND NT. apply run_eval in H. destruct H as (l & E & R). apply eval_compute_mean in E.
  destruct E as (t & lt & vs & gs & E1 & C & -> & F). exists t, vs.
  destruct (chain_values _ _ _ _ _ _ C ND) as [L V].
  { intros n Hn. simpl. intros [<-|[]]. contradiction. }
  destruct (sum_entries _ _ _ F) as (S1 & S2 & S3 & S4 & S5). rewrite Forall_forall in S2.
  split; [apply eval_yields; eauto|]. split; [assumption|]. split; [exact V|]. auto.
Qed.

Lemma c36_no_effects {D} e tr (trend : prog arr) data m tr' :
  run e tr (compute_mean (D := D) trend data None) = Ok (m, tr') -> yields e trend m.
Proof.
  intros H. apply run_eval in H. destruct H as (l & E & _). apply eval_yields. unfold compute_mean in E. rewrite eval_bind in E.
  destruct (eval e trend) as [[t lt]|]; [|discriminate]. cbn [bind deterministic pbind eval] in E. injection E as -> _. eauto.
Qed.

(** ** C37 *)
Lemma chain_indep {D} e (data : dict D) t effs : forall pe vs gs,
  Forall (fun ne => trend_only (snd ne) /\ fst ne <> "trend") effs -> dict_get pe "trend" = Some t ->
  (chain e data pe effs vs gs <->
   exists rs, Forall2 (fun ne r => exists d l, dict_get data (fst ne) = Some d /\
        eval (own_env e (fst ne)) (snd ne d [("trend", t)]) = Ok (fst r, l) /\
        snd r = (map (prefixed (fst ne)) l ++ [(fst ne, SDet (fst r))])%list) effs rs /\
     vs = map fst rs /\ gs = map snd rs).
Proof.
  induction effs as [|[name eff] effs IH]; intros pe vs gs F Hpe.
  - split.
    + intros C. inversion C; subst. exists []. repeat split. constructor.
    + intros (rs & H & -> & ->). inversion H; subst. constructor.
  - inversion F as [|? ? [F1 F2] F3]; subst. simpl in F1, F2. split.
    + intros C. inversion C as [|? ? ? ? d v l vs' gs' G1 G2 G3]; subst. apply IH in G3; [|assumption|].
      2:{ rewrite dict_get_set. destruct (String.eqb_spec "trend" name); congruence. }
      destruct G3 as (rs & H & -> & ->). exists ((v, (map (prefixed name) l ++ [(name, SDet v)])%list) :: rs). repeat split.
      constructor; [|assumption]. exists d, l. simpl. rewrite <- (F1 d pe [("trend", t)]) by (simpl; assumption). auto.
    + intros (rs & H & -> & ->). inversion H as [|? r ? rs' (d & l & G1 & G2 & G3) H2]; subst. simpl in *.
      destruct r as [v g]. simpl in *. subst g. econstructor; eauto.
      * rewrite (F1 d pe [("trend", t)]) by (simpl; assumption). exact G2.
      * apply IH; [assumption| |eauto]. rewrite dict_get_set. destruct (String.eqb_spec "trend" name); congruence.
Qed.

Lemma Forall2_perm {A B} (P : A -> B -> Prop) l l' : Permutation l l' -> forall r, Forall2 P l r ->
  exists r', Permutation r r' /\ Forall2 P l' r'.
Proof.
  induction 1 as [|x l l' H IH|x y l|l l' l'' H1 IH1 H2 IH2]; intros r F.
  - inversion F; subst. exists []. auto.
  - inversion F as [|? b ? r0 F1 F2]; subst. destruct (IH _ F2) as (r' & P1 & P2). exists (b :: r'). auto.
  - inversion F as [|? b ? r0 F1 F2]; subst. inversion F2 as [|? c ? r1 F3 F4]; subst. exists (c :: b :: r1). split; [constructor|auto].
  - destruct (IH1 _ F) as (r1 & P1 & P2). destruct (IH2 _ P2) as (r2 & P3 & P4). exists r2. split; [now rewrite P1|assumption].
Qed.

Lemma group_names {D} e (data : dict D) t (ne : string * effect_fn D) r x : 
  (exists d l, dict_get data (fst ne) = Some d /\
        eval (own_env e (fst ne)) (snd ne d [("trend", t)]) = Ok (fst r, l) /\
        snd r = (map (prefixed (fst ne)) l ++ [(fst ne, SDet (fst r))])%list) ->
  In x (map fst (snd r : list (string * site))) -> x = fst ne \/ exists y, x = fst ne ++ "/" ++ y.
Proof.
  intros (d & l & _ & _ & ->) H. rewrite map_app in H. apply in_app_iff in H. destruct H as [H|[<-|[]]]; [|auto].
  rewrite map_map in H. apply in_map_iff in H. destruct H as ((n & s) & <- & _). right. exists n. reflexivity.
Qed.

Lemma Forall2_In_r {A B} (P : A -> B -> Prop) l r b : Forall2 P l r -> In b r -> exists a, In a l /\ P a b.
Proof. induction 1; simpl; [tauto|]. intros [->|H2]; [eauto|]. destruct (IHForall2 H2) as (a & ? & ?). eauto. Qed.

Lemma nodup_fst_inj {A B} (l : list (A * B)) x y : NoDup (map fst l) -> In x l -> In y l -> fst x = fst y -> x = y.
Proof.
  induction l as [|z l IH]; simpl; [tauto|]. intros ND Hx Hy E. inversion ND as [|? ? N1 N2]; subst.
  destruct Hx as [Hx|Hx], Hy as [Hy|Hy]; subst; auto.
  - exfalso. apply N1. rewrite E. now apply in_map.
  - exfalso. apply N1. rewrite <- E. now apply in_map.
Qed.

Lemma c37_main {D B} e (trend : prog arr) (data : dict D) effs effs' (f : arr -> prog B) b tr :
  Permutation effs effs' ->
  NoDup (map fst effs) -> (forall n, In n (map fst effs) -> no_slash n = true /\ n <> "trend") ->
  (forall ne, In ne effs -> trend_only (snd ne)) ->
  run e [] (pbind (compute_mean trend (Some data) (Some effs)) f) = Ok (b, tr) ->
  exists tr', run e [] (pbind (compute_mean trend (Some data) (Some effs')) f) = Ok (b, tr') /\ Permutation tr tr'.
Proof.
  intros P ND NS TO H. apply run_eval in H. destruct H as (l & E & R). rewrite eval_bind in E.
  destruct (eval e (compute_mean trend (Some data) (Some effs))) as [[m lm]|] eqn:Em; [|discriminate]. cbn [bind] in E.
  destruct (eval e (f m)) as [[b' lf]|] eqn:Ef; [|discriminate]. cbn [bind] in E. injection E as -> <-.
  apply eval_compute_mean in Em. destruct Em as (t & lt & vs & gs & E1 & C & -> & F).
  assert (FT : Forall (fun ne : string * effect_fn D => trend_only (snd ne) /\ fst ne <> "trend") effs).
  { apply Forall_forall. intros ne Hne. split; [now apply TO|]. apply NS. now apply in_map. }
  assert (FT' : Forall (fun ne : string * effect_fn D => trend_only (snd ne) /\ fst ne <> "trend") effs').
  { apply Forall_forall. intros ne Hne. rewrite Forall_forall in FT. apply FT. eapply Permutation_in; [symmetry; exact P|assumption]. }
  apply (chain_indep e data t) in C; [|assumption|reflexivity]. destruct C as (rs & HR & -> & ->).
  destruct (Forall2_perm _ _ _ P _ HR) as (rs' & PR & HR').
  assert (E' : eval e (compute_mean trend (Some data) (Some effs')) = Ok (m, (lt ++ ("trend", SDet t) :: concat (map snd rs'))%list)).
  { apply eval_compute_mean. exists t, lt, (map fst rs'), (map snd rs'). split; [assumption|]. split.
    - apply (chain_indep e data t); [assumption|reflexivity|]. eauto.
    - split; [reflexivity|]. rewrite <- F. symmetry. apply sum_perm. now apply Permutation_map. }
  assert (S : res_same (record_all [] ((lt ++ ("trend", SDet t) :: concat (map snd rs)) ++ lf)%list)
                       (record_all [] ((lt ++ ("trend", SDet t) :: concat (map snd rs')) ++ lf)%list)).
  { rewrite !(record_all_cat _ (_ ++ _)). apply res_same_bind_all. rewrite !(record_all_cat _ lt).
    destruct (record_all [] lt) as [t0|]; cbn [bind]; [|reflexivity]. rewrite !record_all_cons.
    destruct (record t0 "trend" (SDet t)) as [t1|]; cbn [bind]; [|reflexivity].
    apply record_groups_perm; [now apply Permutation_map|].
    intros g1 g2 G1 G2. apply in_map_iff in G1, G2. destruct G1 as (r1 & <- & R1), G2 as (r2 & <- & R2).
    destruct (Forall2_In_r _ _ _ _ HR R1) as (n1 & I1 & Q1). destruct (Forall2_In_r _ _ _ _ HR R2) as (n2 & I2 & Q2).
    destruct (string_dec (fst n1) (fst n2)) as [En|En].
    - left. assert (n1 = n2).
      { apply (nodup_fst_inj effs); assumption. }
      subst n2. destruct Q1 as (d1 & l1 & A1 & A2 & ->), Q2 as (d2 & l2 & B1 & B2 & ->).
      assert (d1 = d2) by congruence. subst d2. rewrite A2 in B2. injection B2 as B2 ->. now rewrite B2.
    - right. intros x X1 X2. apply (group_names e data t n1) in X1; [|assumption]. apply (group_names e data t n2) in X2; [|assumption].
      destruct (NS (fst n1)) as [S1 _]; [now apply in_map|]. destruct (NS (fst n2)) as [S2 _]; [now apply in_map|].
      destruct X1 as [->|(y & ->)], X2 as [X2|(z & X2)].
      + apply En. exact X2.
      + assert (S3 : no_slash (fst n1) = false) by (etransitivity; [apply (f_equal no_slash X2)|apply app_slash_has]). congruence.
      + assert (S3 : no_slash (fst n2) = false) by (etransitivity; [apply (f_equal no_slash (eq_sym X2))|apply app_slash_has]). congruence.
      + apply app_inv_slash in X2; tauto. }
  rewrite R in S. destruct (record_all [] ((lt ++ ("trend", SDet t) :: concat (map snd rs')) ++ lf)%list) as [tr'|] eqn:R'; [|contradiction].
  exists tr'. split.
  - apply run_eval. eexists. split; [|exact R']. rewrite eval_bind, E'. cbn [bind]. rewrite Ef. reflexivity.
  - apply same_dict_perm; [eapply record_all_nodup; [exact R|constructor]|eapply record_all_nodup; [exact R'|constructor]|exact S].
Qed.

Lemma log_joint_perm logpdf tr tr' : Permutation tr tr' -> log_joint logpdf tr = log_joint logpdf tr'.
Proof. intros P. unfold log_joint. apply Rsum_perm. now apply Permutation_map. Qed.
