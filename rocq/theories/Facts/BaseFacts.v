(** Facts about Python level helpers of Model/Base.v *)
From Coq Require Import String Bool ZArith Lia List Permutation.
From Verif.Model Require Import Base.
Import ListNotations.

Lemma path_eqb_eq a b : path_eqb a b = true <-> a = b.
Proof.
  revert b. induction a as [|x a IH]; intros [|y b]; simpl; try (split; congruence).
  rewrite andb_true_iff, String.eqb_eq, IH. split; [intros [-> ->]; reflexivity | now intros [= -> ->]].
Qed.

Lemma path_eqb_refl a : path_eqb a a = true.
Proof. now apply path_eqb_eq. Qed.

Lemma path_eqb_spec a b : reflect (a = b) (path_eqb a b).
Proof. apply iff_reflect. symmetry. apply path_eqb_eq. Qed.

Lemma path_eqb_neq a b : path_eqb a b = false <-> a <> b.
Proof. destruct (path_eqb_spec a b); intuition congruence. Qed.

Lemma path_in_iff x l : path_in x l = true <-> In x l.
Proof.
  unfold path_in. rewrite existsb_exists. split.
  - intros (y & Hy & E). apply path_eqb_eq in E. now subst.
  - intros H. exists x. split; [assumption|apply path_eqb_refl].
Qed.

Lemma str_in_iff x l : str_in x l = true <-> In x l.
Proof.
  unfold str_in. rewrite existsb_exists. split.
  - intros (y & Hy & E). apply String.eqb_eq in E. now subst.
  - intros H. exists x. split; [assumption|apply String.eqb_refl].
Qed.

Lemma str_in_false x l : str_in x l = false <-> ~ In x l.
Proof. rewrite <- str_in_iff. destruct (str_in x l); intuition congruence. Qed.

(** ** unique *)
Section Unique.
Context {A : Type} (eqb : A -> A -> bool).
Hypothesis eqb_eq : forall a b, eqb a b = true <-> a = b.

Lemma existsb_eqb x l : existsb (eqb x) l = true <-> In x l.
Proof.
  rewrite existsb_exists. split.
  - intros (y & Hy & E). apply eqb_eq in E. now subst.
  - intros H. exists x. split; [assumption|now apply eqb_eq].
Qed.

Lemma unique_aux_In seen l x : In x (unique_aux eqb seen l) <-> In x l /\ ~ In x seen.
Proof.
  revert seen. induction l as [|y l IH]; intros seen; simpl; [tauto|].
  destruct (existsb (eqb y) seen) eqn:E.
  - apply existsb_eqb in E. rewrite IH. split; [tauto|]. intros [[->|H] N]; tauto.
  - assert (N : ~ In y seen) by (rewrite <- existsb_eqb; congruence).
    simpl. rewrite IH. simpl. split.
    + intros [->|[H1 H2]]; tauto.
    + intros [[->|H] Hn]; [tauto|].
      destruct (eqb x y) eqn:Exy.
      * apply eqb_eq in Exy. auto.
      * right. split; [assumption|]. intros [->|]; [|tauto].
        assert (eqb x x = true) by now apply eqb_eq. congruence.
Qed.

Lemma unique_aux_NoDup seen l : NoDup (unique_aux eqb seen l).
Proof.
  revert seen. induction l as [|y l IH]; intros seen; simpl; [constructor|].
  destruct (existsb (eqb y) seen); [apply IH|]. constructor; [|apply IH].
  rewrite unique_aux_In. simpl. tauto.
Qed.

Lemma unique_In l x : In x (unique eqb l) <-> In x l.
Proof. unfold unique. rewrite unique_aux_In. simpl. tauto. Qed.

Lemma unique_NoDup l : NoDup (unique eqb l).
Proof. apply unique_aux_NoDup. Qed.

Lemma unique_aux_id seen l : NoDup l -> (forall x, In x l -> ~ In x seen) ->
  unique_aux eqb seen l = l.
Proof.
  revert seen. induction l as [|y l IH]; intros seen Hn Hd; simpl; [reflexivity|].
  inversion Hn; subst.
  destruct (existsb (eqb y) seen) eqn:E.
  - apply existsb_eqb in E. exfalso. apply (Hd y); simpl; auto.
  - f_equal. apply IH; [assumption|]. intros x Hx [->|Hs]; [auto|]. apply (Hd x); simpl; auto.
Qed.

Lemma unique_id l : NoDup l -> unique eqb l = l.
Proof. intros H. apply unique_aux_id; [assumption|]. simpl; tauto. Qed.

(** the first element comes first *)
Lemma unique_nil l : unique eqb l = [] <-> l = [].
Proof.
  split; [|now intros ->]. intros H. destruct l as [|x l]; [reflexivity|].
  assert (In x (unique eqb (x :: l))) by (apply unique_In; simpl; auto). rewrite H in *. contradiction.
Qed.

Lemma unique_aux_filter (p : A -> bool) seen l :
  (forall x, In x seen -> p x = true) ->
  forall seen', (forall x, In x seen <-> In x seen' /\ p x = true) ->
  unique_aux eqb seen (filter p l) = filter p (unique_aux eqb seen' l).
Proof.
  revert seen. induction l as [|y l IH]; intros seen H1 seen' H2; simpl; [reflexivity|].
  destruct (p y) eqn:Ey; simpl.
  - destruct (existsb (eqb y) seen) eqn:E1; destruct (existsb (eqb y) seen') eqn:E2.
    + apply IH; assumption.
    + exfalso. apply existsb_eqb in E1. apply H2 in E1.
      assert (~ In y seen') by (rewrite <- existsb_eqb; congruence). tauto.
    + exfalso. apply existsb_eqb in E2. assert (~ In y seen) by (rewrite <- existsb_eqb; congruence).
      apply H. apply H2. auto.
    + simpl. rewrite Ey. f_equal. apply IH.
      * intros x [<-|Hx]; auto.
      * intros x. simpl. rewrite H2. split; [intros [<-|[? ?]]; auto | intros [[<-|?] ?]; auto].
  - destruct (existsb (eqb y) seen') eqn:E2.
    + apply IH; assumption.
    + simpl. rewrite Ey. apply IH; [assumption|].
      intros x. rewrite H2. simpl. split; [tauto|]. intros [[<-|?] ?]; [congruence|tauto].
Qed.

Lemma unique_filter (p : A -> bool) l : unique eqb (filter p l) = filter p (unique eqb l).
Proof. unfold unique. apply unique_aux_filter; simpl; tauto. Qed.
End Unique.

Lemma paths_unique_In l x : In x (paths_unique l) <-> In x l.
Proof. apply unique_In, path_eqb_eq. Qed.
Lemma paths_unique_NoDup l : NoDup (paths_unique l).
Proof. apply unique_NoDup, path_eqb_eq. Qed.
Lemma times_unique_In l x : In x (times_unique l) <-> In x l.
Proof. apply unique_In, Z.eqb_eq. Qed.
Lemma times_unique_NoDup l : NoDup (times_unique l).
Proof. apply unique_NoDup, Z.eqb_eq. Qed.
Lemma strs_unique_In l x : In x (strs_unique l) <-> In x l.
Proof. apply unique_In, String.eqb_eq. Qed.
Lemma strs_unique_NoDup l : NoDup (strs_unique l).
Proof. apply unique_NoDup, String.eqb_eq. Qed.
Lemma strs_unique_id l : NoDup l -> strs_unique l = l.
Proof. apply unique_id, String.eqb_eq. Qed.
Lemma times_unique_id l : NoDup l -> times_unique l = l.
Proof. apply unique_id, Z.eqb_eq. Qed.
Lemma paths_unique_id l : NoDup l -> paths_unique l = l.
Proof. apply unique_id, path_eqb_eq. Qed.

Lemma Forall2_len {A B} (P : A -> B -> Prop) l1 l2 : Forall2 P l1 l2 -> length l1 = length l2.
Proof. induction 1; simpl; congruence. Qed.

(** ** mapM / foldM *)
Lemma mapM_ok {A B} (f : A -> res B) l out :
  mapM f l = Ok out <-> Forall2 (fun x y => f x = Ok y) l out.
Proof.
  revert out. induction l as [|x l IH]; intros out; simpl.
  - split; [intros [= <-]; constructor | inversion 1; reflexivity].
  - destruct (f x) as [y|e] eqn:E; simpl.
    + destruct (mapM f l) as [ys|e] eqn:E2; simpl.
      * split.
        -- intros [= <-]. constructor; [assumption|]. now apply IH.
        -- inversion 1; subst. assert (ys = l') by (apply IH in H4; congruence).
           rewrite E in H2. congruence.
      * split; [discriminate|]. inversion 1; subst. apply IH in H4. discriminate.
    + split; [discriminate|]. inversion 1; subst. congruence.
Qed.

Lemma mapM_map {A B} (f : A -> res B) (g : A -> B) l :
  (forall x, In x l -> f x = Ok (g x)) -> mapM f l = Ok (map g l).
Proof.
  induction l as [|x l IH]; intros H; simpl; [reflexivity|].
  rewrite H by (simpl; auto). simpl. rewrite IH by (intros; apply H; simpl; auto). reflexivity.
Qed.

Lemma mapM_err {A B} (f : A -> res B) l e :
  mapM f l = Err e -> exists x, In x l /\ f x = Err e.
Proof.
  induction l as [|x l IH]; simpl; [discriminate|].
  destruct (f x) eqn:E; simpl.
  - destruct (mapM f l); simpl; [discriminate|]. intros [= ->].
    destruct (IH eq_refl) as (z & Hz & Ez). eauto.
  - intros [= ->]. eauto.
Qed.

Lemma mapM_length {A B} (f : A -> res B) l out : mapM f l = Ok out -> length out = length l.
Proof. intros H. apply mapM_ok in H. apply Forall2_len in H. congruence. Qed.

Lemma mapM_ext {A B} (f g : A -> res B) l : (forall x, In x l -> f x = g x) -> mapM f l = mapM g l.
Proof.
  induction l as [|x l IH]; intros H; simpl; [reflexivity|].
  rewrite H, IH; [reflexivity| |]; intros; try apply H; simpl; auto.
Qed.

Lemma mapM_app {A B} (f : A -> res B) l1 l2 :
  mapM f (l1 ++ l2) = (a <- mapM f l1 ;; b <- mapM f l2 ;; Ok (a ++ b)).
Proof.
  induction l1 as [|x l1 IH]; simpl.
  - destruct (mapM f l2); reflexivity.
  - destruct (f x); simpl; [|reflexivity]. rewrite IH.
    destruct (mapM f l1); simpl; [|reflexivity]. destruct (mapM f l2); reflexivity.
Qed.

(** ** dictionaries *)
Lemma dict_get_set {V} (d : dict V) k v k' :
  dict_get (dict_set d k v) k' = if String.eqb k' k then Some v else dict_get d k'.
Proof.
  induction d as [|[k0 v0] d IH]; simpl.
  - reflexivity.
  - destruct (String.eqb_spec k k0) as [->|N]; simpl.
    + destruct (String.eqb_spec k' k0); reflexivity.
    + rewrite IH. destruct (String.eqb_spec k' k0) as [->|N2]; [|reflexivity].
      destruct (String.eqb_spec k0 k); [congruence|reflexivity].
Qed.

Lemma dict_keys_set {V} (d : dict V) k v :
  dict_keys (dict_set d k v) = if str_in k (dict_keys d) then dict_keys d else dict_keys d ++ [k].
Proof.
  induction d as [|[k0 v0] d IH]; simpl; [reflexivity|].
  destruct (String.eqb_spec k k0) as [->|N]; simpl; [reflexivity|].
  unfold dict_keys in *. rewrite IH. unfold str_in in *.
  destruct (existsb (String.eqb k) (map fst d)); reflexivity.
Qed.

Lemma dict_get_In {V} (d : dict V) k v : dict_get d k = Some v -> In (k, v) d.
Proof.
  induction d as [|[k0 v0] d IH]; simpl; [discriminate|].
  destruct (String.eqb_spec k k0) as [->|N]; [intros [= ->]; auto|auto].
Qed.

Lemma dict_get_None {V} (d : dict V) k : dict_get d k = None <-> ~ In k (dict_keys d).
Proof.
  induction d as [|[k0 v0] d IH]; simpl; [tauto|].
  destruct (String.eqb_spec k k0) as [->|N]; [intuition congruence|].
  rewrite IH. intuition congruence.
Qed.

Lemma dict_set_new {V} (d : dict V) k v : ~ In k (dict_keys d) -> dict_set d k v = d ++ [(k, v)].
Proof.
  induction d as [|[k0 v0] d IH]; simpl; [reflexivity|]. intros H.
  destruct (String.eqb_spec k k0) as [->|N]; [tauto|]. f_equal. apply IH. tauto.
Qed.

Lemma dict_of_list_NoDup {V} (l : list (string * V)) : NoDup (map fst l) -> dict_of_list l = l.
Proof.
  unfold dict_of_list.
  assert (G : forall d, NoDup (map fst (d ++ l)) ->
     fold_left (fun d kv => dict_set d (fst kv) (snd kv)) l d = d ++ l).
  { induction l as [|[k v] l IH]; intros d H; simpl; [now rewrite app_nil_r|].
    rewrite dict_set_new.
    - rewrite IH; rewrite <- app_assoc; [reflexivity|exact H].
    - rewrite map_app in H. apply NoDup_remove_2 in H. rewrite in_app_iff in H.
      unfold dict_keys. tauto. }
  intros H. now apply (G []).
Qed.
