(** Exact errors of further functions. *)
From Coq Require Import Reals String Bool ZArith List Lia.
From Verif.Model Require Import Base Num XFloat Arr Frame Expand Aggregate Scale Predict Prog Likelihood Trend Engine Params.
From Verif.Facts Require Import BaseFacts.
Import ListNotations.
Local Open Scope string_scope.

Lemma raise_build_trend h e : build_trend h = Err e <-> e = ValueError /\ h_trend h <> TVEffect /\ forall s, h_trend h = TVName s -> s <> "linear" /\ s <> "linear_raw" /\ s <> "logistic" /\ s <> "flat".
Proof.
  unfold build_trend. destruct (h_trend h) as [s| |].
  - destruct (String.eqb_spec s "linear") as [->|N1]; [split; [discriminate|intros (_ & _ & F); destruct (F _ eq_refl); congruence]|].
    destruct (String.eqb_spec s "linear_raw") as [->|N2]; [split; [discriminate|intros (_ & _ & F); destruct (F _ eq_refl) as (_ & ? & _); congruence]|].
    destruct (String.eqb_spec s "logistic") as [->|N3]; [split; [discriminate|intros (_ & _ & F); destruct (F _ eq_refl) as (_ & _ & ? & _); congruence]|].
    destruct (String.eqb_spec s "flat") as [->|N4]; [split; [discriminate|intros (_ & _ & F); destruct (F _ eq_refl) as (_ & _ & _ & ?); congruence]|].
    split; [intros [= <-]; split; [reflexivity|]; split; [discriminate|]; intros ? [= <-]; tauto|now intros [-> _]].
  - split; [discriminate|intros (_ & F & _); congruence].
  - split; [intros [= <-]; split; [reflexivity|]; split; [discriminate|intros; discriminate]|now intros [-> _]].
Qed.

Lemma raise_broadcast {A B} (a : list A) (b : list B) e : broadcast2 a b = Err e <-> e = TypeError /\ List.length a <> List.length b /\ List.length a <> 1 /\ List.length b <> 1.
Proof.
  unfold broadcast2. destruct (Nat.eqb_spec (List.length a) (List.length b)) as [E|E]; [split; [discriminate|tauto]|].
  destruct a as [|x [|x' a]], b as [|y [|y' b]]; cbn in *; split; try discriminate; try (intros [= <-]; repeat split; lia); try (intros (-> & _); reflexivity); lia.
Qed.

Lemma mapM_raises {A B} (f : A -> res B) l e : mapM f l = Err e <-> exists l1 x l2 vs, l = (l1 ++ x :: l2)%list /\ mapM f l1 = Ok vs /\ f x = Err e.
Proof.
  induction l as [|a l IH]; cbn [mapM].
  - split; [discriminate|intros (l1 & x & l2 & vs & E & _); now destruct l1].
  - destruct (f a) as [b|e0] eqn:Fa; cbn [bind].
    + split.
      * intros H. destruct (mapM f l) as [bs|e1]; [discriminate|]. cbn [bind] in H. injection H as ->. destruct (proj1 IH eq_refl) as (l1 & x & l2 & vs & -> & M & X). exists (a :: l1), x, l2, (b :: vs). split; [reflexivity|]. split; [cbn; now rewrite Fa, M|exact X].
      * intros (l1 & x & l2 & vs & E & M & X). destruct l1 as [|a' l1]; cbn in E; injection E as <- ->; [congruence|]. cbn in M. rewrite Fa in M. cbn in M. destruct (mapM f l1) as [v1|] eqn:M1; [|discriminate]. rewrite (proj2 IH); [reflexivity|]. now exists l1, x, l2, v1.
    + split; [intros [= ->]; exists [], a, l, []; now repeat split|]. intros (l1 & x & l2 & vs & E & M & X). destruct l1 as [|a' l1]; cbn in E; injection E as <- ->; [congruence|]. cbn in M. rewrite Fa in M. discriminate.
Qed.

(** one site of several runs: a run without the site, or arrays of different shapes *)
Lemma raise_stack_site ds ka e : stack_site ds ka = Err e <->
  (e = KeyError /\ exists d, In d ds /\ dict_get d (fst ka) = None) \/
  (e = TypeError /\ (forall d, In d ds -> dict_get d (fst ka) <> None) /\ exists d v, In d ds /\ dict_get d (fst ka) = Some v /\ a_shape v <> a_shape (snd ka)).
Proof.
  unfold stack_site. destruct (mapM (fun d => dict_item d (fst ka)) ds) as [vs|e0] eqn:M; cbn [bind].
  - pose proof M as M'. apply mapM_ok in M'.
    assert (T : forall d, In d ds -> exists v, In v vs /\ dict_get d (fst ka) = Some v).
    { intros d I. clear -M' I. induction M' as [|x y l l' Hx F IH]; [destruct I|]. destruct I as [<-|I]; [|destruct (IH I) as (v & V1 & V2); exists v; split; [now right|exact V2]]. exists y. split; [now left|]. unfold dict_item in Hx. destruct (dict_get x (fst ka)); congruence. }
    assert (T2 : forall v, In v vs -> exists d, In d ds /\ dict_get d (fst ka) = Some v).
    { intros v I. clear -M' I. induction M' as [|x y l l' Hx F IH]; [destruct I|]. destruct I as [<-|I]; [|destruct (IH I) as (d & V1 & V2); exists d; split; [now right|exact V2]]. exists x. split; [now left|]. unfold dict_item in Hx. destruct (dict_get x (fst ka)); congruence. }
    destruct (forallb _ vs) eqn:FB.
    + split; [discriminate|]. intros [(_ & d & I & N)|(_ & _ & d & v & I & G & N)].
      * destruct (T d I) as (v & _ & V). congruence.
      * destruct (T d I) as (v' & V1 & V2). rewrite G in V2. injection V2 as <-. rewrite forallb_forall in FB. specialize (FB v V1). destruct (list_eq_dec _ _ _); [congruence|discriminate].
    + split.
      * intros [= <-]. right. split; [reflexivity|]. split; [intros d I; destruct (T d I) as (v & _ & V); congruence|].
        assert (N : exists v, In v vs /\ a_shape v <> a_shape (snd ka)).
        { clear -FB. induction vs as [|v vs IH]; [discriminate|]. cbn in FB. destruct (list_eq_dec Nat.eq_dec (a_shape v) (a_shape (snd ka))) as [E|E]; [|exists v; split; [now left|exact E]]. destruct (IH FB) as (w & I & N). exists w. split; [now right|exact N]. }
        destruct N as (v & I & N). destruct (T2 v I) as (d & D1 & D2). now exists d, v.
      * intros [(_ & d & I & N)|(-> & _)]; [|reflexivity]. destruct (T d I) as (v & _ & V). congruence.
  - pose proof M as M0. apply mapM_raises in M as (l1 & x & l2 & vs & -> & M & X). unfold dict_item in X. destruct (dict_get x (fst ka)) eqn:G; [discriminate|]. injection X as <-. split.
    + intros [= <-]. left. split; [reflexivity|]. exists x. split; [apply in_or_app; right; now left|exact G].
    + intros [(-> & _)|(_ & A & _)]; [reflexivity|]. exfalso. apply (A x); [apply in_or_app; right; now left|exact G].
Qed.
Lemma raise_stack ds e : stack ds = Err e <-> (ds = [] /\ e = ValueError) \/
  exists d tl l1 ka l2 vs, ds = d :: tl /\ d = (l1 ++ ka :: l2)%list /\ mapM (stack_site ds) l1 = Ok vs /\ stack_site ds ka = Err e.
Proof.
  unfold stack. destruct ds as [|d tl].
  - split; [intros [= <-]; now left|]. intros [[_ ->]|(d & tl & l1 & ka & l2 & vs & E & _)]; [reflexivity|discriminate].
  - split.
    + intros H. apply (proj1 (mapM_raises (stack_site (d :: tl)) d e)) in H. destruct H as (l1 & x & l2 & vs & E & M & X). right. exists d, tl, l1, x, l2, vs. now repeat split.
    + intros [[E _]|(d' & tl' & l1 & ka & l2 & vs & E & E2 & M & X)]; [discriminate|]. injection E as <- <-. apply (proj2 (mapM_raises (stack_site (d :: tl)) d e)). now exists l1, ka, l2, vs.
Qed.
Lemma raise_len a e : len a = Err e <-> e = TypeError /\ a_shape a = [].
Proof. unfold len. destruct (a_shape a); split; try discriminate; [intros [= <-]; now split|intros [-> _]; reflexivity|intros [_ E]; discriminate]. Qed.

(** a site whose mean has another number of values than there are labels *)
Lemma raise_all_sites lb times draws index name a n sh : periodindex_to_multiindex lb times = Ok index -> (forall k v, In (k, v) draws -> a_shape v <> []) ->
  In (name, a) draws -> a_shape a = n :: sh -> prod_shape sh <> List.length index -> predict_all_sites lb times draws = Err ValueError.
Proof.
  intros HI NS IN SH NE. unfold predict_all_sites.
  assert (M : mapM (fun kv => m <- mean0 (snd kv) ;; Ok (fst kv, flatten m)) draws = Ok (map (fun kv => (fst kv, flatten (match mean0 (snd kv) with Ok m => m | Err _ => scalar 0 end))) draws)).
  { clear IN. induction draws as [|[k v] draws IH]; [reflexivity|]. cbn [mapM map fst snd]. unfold mean0 at 1 3. destruct (a_shape v) as [|n0 sh0] eqn:S; [exfalso; apply (NS k v); [now left|exact S]|]. cbn [bind]. rewrite IH; [reflexivity|]. intros k' v' I. apply (NS k'). now right. }
  rewrite M. cbn [bind]. rewrite HI. cbn [bind]. set (sites := map _ draws). destruct (forallb _ sites) eqn:FB; [|reflexivity]. exfalso. rewrite forallb_forall in FB.
  assert (I2 : In (name, flatten (match mean0 a with Ok m => m | Err _ => scalar 0 end)) sites) by (apply (in_map (fun kv : string * arr => (fst kv, flatten (match mean0 (snd kv) with Ok m => m | Err _ => scalar 0 end))) draws (name, a)); exact IN).
  specialize (FB _ I2). cbn [snd] in FB. apply Nat.eqb_eq in FB. unfold mean0 in FB. rewrite SH in FB. cbn in FB. rewrite map_length, seq_length in FB. contradiction.
Qed.

Lemma raise_mean a e : mean0 a = Err e <-> e = ValueError /\ a_shape a = [].
Proof. unfold mean0. destruct (a_shape a); split; intros H; [injection H as <-; auto|destruct H as [-> _]; reflexivity|discriminate|destruct H; discriminate]. Qed.
