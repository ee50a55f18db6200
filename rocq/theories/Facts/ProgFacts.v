(** Facts about numpyro programs. *)
From Coq Require Import Reals Lra String Ascii Bool List Lia Permutation.
From Verif.Model Require Import Base Num Arr Prog Likelihood.
From Verif.Spec Require Import ProgSpec.
From Verif.Facts Require Import BaseFacts NumFacts.
Import ListNotations.
Local Open Scope string_scope.

(** ** trace-free evaluation: value and sites in order *)
Fixpoint eval {A} (e : env) (p : prog A) : res (A * list (string * site)) :=
  match p with
  | Ret a => Ok (a, [])
  | Raise x => Err x
  | Sample n d sh o k =>
      let v := site_value e n sh o in
      '(a, l) <- eval e (k v) ;;
      Ok (a, (n, SSample d v (match o with Some _ => true | None => false end)) :: l)
  | Det n v k => '(a, l) <- eval e k ;; Ok (a, (n, SDet v) :: l)
  | Plate n s k => '(a, l) <- eval e k ;; Ok (a, (n, SPlate s) :: l)
  end.

Definition record_all (tr : trace) (l : list (string * site)) : res trace :=
  foldM (fun tr ns => record tr (fst ns) (snd ns)) tr l.

Lemma record_all_cons tr n s l : record_all tr ((n, s) :: l) = (t <- record tr n s ;; record_all t l).
Proof. reflexivity. Qed.

Lemma run_eval {A} e (p : prog A) : forall tr a tr',
  run e tr p = Ok (a, tr') <-> exists l, eval e p = Ok (a, l) /\ record_all tr l = Ok tr'.
Proof.
  induction p as [a|x|n d sh o k IH|n v k IH|n s k IH]; intros tr a' tr'; cbn [run eval].
  - split.
    + intros [= -> ->]. exists []. auto.
    + intros (l & [= -> <-] & H). unfold record_all in H. simpl in H. congruence.
  - split; [discriminate|]. intros (l & H & _). discriminate.
  - set (s := SSample _ _ _). set (v := site_value e n sh o) in *. split.
    + intros H. destruct (record tr n s) as [tr1|] eqn:E; [|discriminate]. cbn [bind] in H. apply IH in H.
      destruct H as (l & E1 & E2). rewrite E1. cbn [bind]. eexists. split; [reflexivity|]. rewrite record_all_cons, E. exact E2.
    + intros (l & H1 & H2). destruct (eval e (k v)) as [[a0 l0]|] eqn:E0; [|discriminate]. cbn [bind] in H1. injection H1 as -> <-.
      rewrite record_all_cons in H2. destruct (record tr n s) as [tr1|] eqn:E; [|discriminate]. cbn [bind] in *. apply IH. eauto.
  - split.
    + intros H. destruct (record tr n (SDet v)) as [tr1|] eqn:E; [|discriminate]. cbn [bind] in H. apply IH in H.
      destruct H as (l & E1 & E2). rewrite E1. cbn [bind]. eexists. split; [reflexivity|]. rewrite record_all_cons, E. exact E2.
    + intros (l & H1 & H2). destruct (eval e k) as [[a0 l0]|] eqn:E0; [|discriminate]. cbn [bind] in H1. injection H1 as -> <-.
      rewrite record_all_cons in H2. destruct (record tr n (SDet v)) as [tr1|] eqn:E; [|discriminate]. cbn [bind] in *. apply IH. eauto.
  - split.
    + intros H. destruct (record tr n (SPlate s)) as [tr1|] eqn:E; [|discriminate]. cbn [bind] in H. apply IH in H.
      destruct H as (l & E1 & E2). rewrite E1. cbn [bind]. eexists. split; [reflexivity|]. rewrite record_all_cons, E. exact E2.
    + intros (l & H1 & H2). destruct (eval e k) as [[a0 l0]|] eqn:E0; [|discriminate]. cbn [bind] in H1. injection H1 as -> <-.
      rewrite record_all_cons in H2. destruct (record tr n (SPlate s)) as [tr1|] eqn:E; [|discriminate]. cbn [bind] in *. apply IH. eauto.
Qed.

Lemma eval_yields {A} e (p : prog A) : forall v, yields e p v <-> exists l, eval e p = Ok (v, l).
Proof.
  induction p as [a|x|n d sh o k IH|n w k IH|n s k IH]; intros v; simpl.
  - split; [intros H; inversion H; subst; eauto|]. intros (l & [= -> _]). constructor.
  - split; [intros H; inversion H|]. intros (l & H). discriminate.
  - split.
    + intros H. inversion H; subst; clear H; match goal with Y : yields _ _ _ |- _ => apply IH in Y; destruct Y as (l & E) end;
        unfold site_value; rewrite E; simpl; eauto.
    + intros (l & H). destruct (eval e (k (site_value e n sh o))) as [[a0 l0]|] eqn:E; [|discriminate]. cbn [bind] in H. injection H as -> _.
      destruct o; [apply y_observe|apply y_sample]; apply IH; eauto.
  - split.
    + intros H. inversion H; subst; clear H; match goal with Y : yields _ _ _ |- _ => apply IH in Y; destruct Y as (l & E) end. rewrite E. simpl. eauto.
    + intros (l & H). destruct (eval e k) as [[a0 l0]|] eqn:E; [|discriminate]. cbn [bind] in H. injection H as -> _. constructor. apply IH. eauto.
  - split.
    + intros H. inversion H; subst; clear H; match goal with Y : yields _ _ _ |- _ => apply IH in Y; destruct Y as (l & E) end. rewrite E. simpl. eauto.
    + intros (l & H). destruct (eval e k) as [[a0 l0]|] eqn:E; [|discriminate]. cbn [bind] in H. injection H as -> _. constructor. apply IH. eauto.
Qed.

Lemma eval_bind {A B} e (p : prog A) (f : A -> prog B) :
  eval e (pbind p f) = ('(a, l) <- eval e p ;; '(b, l') <- eval e (f a) ;; Ok (b, (l ++ l')%list)).
Proof.
  induction p as [a|x|n d sh o k IH|n w k IH|n s k IH]; simpl.
  - destruct (eval e (f a)) as [[b l]|]; reflexivity.
  - reflexivity.
  - rewrite IH. destruct (eval e (k _)) as [[a l]|]; simpl; [|reflexivity]. destruct (eval e (f a)) as [[b l']|]; reflexivity.
  - rewrite IH. destruct (eval e k) as [[a l]|]; simpl; [|reflexivity]. destruct (eval e (f a)) as [[b l']|]; reflexivity.
  - rewrite IH. destruct (eval e k) as [[a l]|]; simpl; [|reflexivity]. destruct (eval e (f a)) as [[b l']|]; reflexivity.
Qed.

Lemma eval_lift {A} e (m : res A) : eval e (lift_res m) = (a <- m ;; Ok (a, [])).
Proof. destruct m; reflexivity. Qed.

Definition prefixed (p : string) (ns : string * site) : string * site := (p ++ "/" ++ fst ns, snd ns).

Lemma eval_scope {A} e p (m : prog A) :
  eval e (scope p m) = ('(a, l) <- eval (own_env e p) m ;; Ok (a, map (prefixed p) l)).
Proof.
  induction m as [a|x|n d sh o k IH|n w k IH|n s k IH]; simpl; [reflexivity|reflexivity| | |].
  - assert (E : site_value e (p ++ String "/" n) sh o = site_value (own_env e p) n sh o).
    { destruct o; reflexivity. }
    rewrite E, IH. destruct (eval (own_env e p) (k _)) as [[a l]|]; reflexivity.
  - rewrite IH. destruct (eval (own_env e p) k) as [[a l]|]; reflexivity.
  - rewrite IH. destruct (eval (own_env e p) k) as [[a l]|]; reflexivity.
Qed.

Lemma eval_uses {A} e (p : prog A) : forall a l n, eval e p = Ok (a, l) -> In n (map fst l) -> uses e p n.
Proof.
  induction p as [a|x|n d sh o k IH|n w k IH|n s k IH]; intros a' l m; simpl.
  - intros [= _ <-] [].
  - discriminate.
  - destruct (eval e (k _)) as [[a0 l0]|] eqn:E; [|discriminate]. cbn [bind]. intros [= -> <-]. simpl.
    intros [<-|H]; [constructor|]. apply u_sample_k. eapply IH; eauto.
  - destruct (eval e k) as [[a0 l0]|] eqn:E; [|discriminate]. cbn [bind]. intros [= -> <-]. simpl.
    intros [<-|H]; [constructor|]. apply u_det_k. eapply IH; eauto.
  - destruct (eval e k) as [[a0 l0]|] eqn:E; [|discriminate]. cbn [bind]. intros [= -> <-]. simpl.
    intros [<-|H]; [constructor|]. apply u_plate_k. eapply IH; eauto.
Qed.

(** ** recording *)
Lemma dict_get_None {V} (d : dict V) k : dict_get d k = None <-> ~ In k (map fst d).
Proof.
  induction d as [|[k' v] d IH]; simpl; [tauto|]. destruct (String.eqb_spec k k') as [->|N].
  - split; [discriminate|]. intros H. exfalso. apply H. auto.
  - rewrite IH. split; [|tauto]. intros H [E|E]; [congruence|auto].
Qed.

Lemma dict_get_app {V} (d1 d2 : dict V) k : dict_get (d1 ++ d2)%list k = match dict_get d1 k with Some v => Some v | None => dict_get d2 k end.
Proof. induction d1 as [|[k' v] d1 IH]; simpl; [reflexivity|]. destruct (String.eqb k k'); auto. Qed.

Lemma dict_set_app_r {V} (d1 d2 : dict V) k v : ~ In k (map fst d1) -> dict_set (d1 ++ d2)%list k v = (d1 ++ dict_set d2 k v)%list.
Proof.
  induction d1 as [|[k' v'] d1 IH]; simpl; [reflexivity|]. intros H. destruct (String.eqb_spec k k') as [->|N]; [tauto|].
  now rewrite IH by tauto.
Qed.

Lemma dict_set_keys {V} (d : dict V) k v x : In x (map fst (dict_set d k v)) <-> x = k \/ In x (map fst d).
Proof.
  induction d as [|[k' v'] d IH]; simpl; [intuition|]. destruct (String.eqb_spec k k') as [->|N]; simpl; [intuition|].
  rewrite IH. intuition.
Qed.

Lemma record_app tr0 tr n s : ~ In n (map fst tr0) ->
  record (tr0 ++ tr)%list n s = (t <- record tr n s ;; Ok (tr0 ++ t)%list).
Proof.
  intros H. unfold record. rewrite dict_get_app. rewrite (proj2 (dict_get_None tr0 n) H).
  destruct s; [destruct (dict_get tr n); [reflexivity|]|destruct (dict_get tr n)..]; simpl; now rewrite dict_set_app_r.
Qed.

Lemma record_all_app tr0 l : forall tr, (forall n, In n (map fst l) -> ~ In n (map fst tr0)) ->
  record_all (tr0 ++ tr)%list l = (t <- record_all tr l ;; Ok (tr0 ++ t)%list).
Proof.
  induction l as [|[n s] l IH]; intros tr H; [reflexivity|]. rewrite !record_all_cons.
  rewrite record_app by (apply H; simpl; auto). destruct (record tr n s) as [t|]; cbn [bind]; [|reflexivity].
  apply IH. intros m Hm. apply H. simpl. auto.
Qed.

Lemma record_all_cat tr l1 l2 : record_all tr (l1 ++ l2)%list = (t <- record_all tr l1 ;; record_all t l2).
Proof.
  revert tr. induction l1 as [|[n s] l1 IH]; intros tr; [reflexivity|]. rewrite <- app_comm_cons, !record_all_cons.
  destruct (record tr n s); cbn [bind]; [apply IH|reflexivity].
Qed.

Lemma record_keys tr n s tr' : record tr n s = Ok tr' -> forall x, In x (map fst tr') <-> x = n \/ In x (map fst tr).
Proof.
  unfold record. intros H x. assert (E : tr' = dict_set tr n s).
  { destruct s; [destruct (dict_get tr n); [discriminate|]|destruct (dict_get tr n)..]; congruence. }
  subst tr'. apply dict_set_keys.
Qed.

Lemma record_all_keys l : forall tr tr', record_all tr l = Ok tr' ->
  forall x, In x (map fst tr') <-> In x (map fst l) \/ In x (map fst tr).
Proof.
  induction l as [|[n s] l IH]; intros tr tr' H x.
  - injection H as <-. simpl. tauto.
  - rewrite record_all_cons in H. destruct (record tr n s) as [t|] eqn:E; [|discriminate]. cbn [bind] in H. rewrite (IH _ _ H x). rewrite (record_keys _ _ _ _ E x). simpl. intuition.
Qed.

(** groups of sites with disjoint names are recorded independently *)
Definition disjoint (l1 l2 : list string) : Prop := forall x, In x l1 -> In x l2 -> False.

Lemma record_group tr g : disjoint (map fst g) (map fst tr) ->
  record_all tr g = (t <- record_all [] g ;; Ok (tr ++ t)%list).
Proof.
  intros H. rewrite <- (app_nil_r tr) at 1. rewrite record_all_app; [reflexivity|]. intros n H1 H2. exact (H n H1 H2).
Qed.

Lemma record_groups (gs : list (list (string * site))) : forall tr tr',
  (forall g, In g gs -> disjoint (map fst g) (map fst tr)) ->
  ForallOrdPairs (fun g1 g2 => disjoint (map fst g1) (map fst g2)) gs ->
  (record_all tr (concat gs) = Ok tr' <->
   exists ts, Forall2 (fun g t => record_all [] g = Ok t) gs ts /\ tr' = (tr ++ concat ts)%list).
Proof.
  induction gs as [|g gs IH]; intros tr tr' H1 H2; simpl.
  - unfold record_all. simpl. split.
    + intros [= ->]. exists []. split; [constructor|]. simpl. now rewrite app_nil_r.
    + intros (ts & F & ->). inversion F. simpl. now rewrite app_nil_r.
  - inversion H2 as [|? ? G1 G2]; subst. rewrite record_all_cat. rewrite record_group by (apply H1; simpl; auto).
    destruct (record_all [] g) as [t|] eqn:E; cbn [bind].
    + rewrite IH; [|intros g' Hg'|assumption].
      * split.
        -- intros (ts & F & ->). exists (t :: ts). split; [constructor; auto|]. simpl. now rewrite app_assoc.
        -- intros (ts & F & ->). inversion F as [|? t' ? ts' F1 F2]; subst. exists ts'. split; [assumption|]. simpl.
           rewrite E in F1. injection F1 as <-. now rewrite app_assoc.
      * intros x Hx Hx'. rewrite map_app in Hx'. apply in_app_iff in Hx'. destruct Hx' as [Hx'|Hx'].
        -- exact (H1 g' (or_intror Hg') x Hx Hx').
        -- apply (record_all_keys _ _ _ E) in Hx'. destruct Hx' as [Hx'|[]]. rewrite Forall_forall in G1. exact (G1 g' Hg' x Hx' Hx).
    + split; [discriminate|]. intros (ts & F & _). inversion F as [|? t' ? ts' F1 F2]; subst. congruence.
Qed.
