(** Closing lemmas for the properties of the numpyro model functions. *)
From Coq Require Import Reals Lra String Ascii Bool List Lia Permutation.
From Verif.Model Require Import Base Num Arr Prog Likelihood Frame Scale.
From Verif.Spec Require Import ProgSpec.
From Verif.Facts Require Import BaseFacts NumFacts FrameFacts ArrFacts ProgFacts MeanFacts LikelihoodFacts.
Import ListNotations.
Local Open Scope string_scope.

Section C36.
Context {D : Type} (e : env) (trend : prog arr) (data : dict D) (effs : dict (effect_fn D)).
Hypothesis ND : NoDup (map fst effs).
Hypothesis NT : ~ In "trend" (map fst effs).

Lemma c36_normal y ns tr o tr' : run e tr (univariate_model y trend (Some data) (Some effs) ns) = Ok (o, tr') ->
  exists t vs m s, additive_mean e trend data effs t vs m /\ obs_distr tr' (DNormal (reshape_col m) s).
Proof.
  intros H. apply normal_obs in H. destruct H as (m & tr1 & H & O). apply c36_mean in H; [|assumption..].
  destruct H as (t & vs & A). exists t, vs, m. eauto.
Qed.

Lemma entry_map f a k : k < length (a_flat a) -> entry (arr_map f a) k = f (entry a k).
Proof. intros H. unfold entry. simpl. rewrite (nth_indep _ 0%R (f 0%R)) by now rewrite map_length. now rewrite map_nth. Qed.

Lemma c36_gamma y ns tr o tr' : run e tr (univariate_gamma_model y trend (Some data) (Some effs) ns) = Ok (o, tr') ->
  (0 < e "noise_scale" 0%nat)%R ->
  exists t vs m c r, additive_mean e trend data effs t vs m /\ obs_distr tr' (DGamma c r) /\
    forall k, k < length (a_flat m) ->
      gamma_mean (entry c k) (entry r k) = to_positive1 (/ 100000) (/ 10000000000) (entry m k) /\
      gamma_var (entry c k) (entry r k) = (e "noise_scale" 0%nat * e "noise_scale" 0%nat)%R.
Proof.
  intros H Hn. apply gamma_obs in H. destruct H as (m & tr1 & H & O). apply c36_mean in H; [|assumption..].
  destruct H as (t & vs & A). unfold gamma_reparametrized in O. exists t, vs, m. eexists. eexists. split; [exact A|]. split; [exact O|].
  intros k Hk. rewrite !entry_map by (simpl; now rewrite map_length).
  replace (entry (reshape_col (to_positive m)) k) with (to_positive1 (/ 100000) (/ 10000000000) (entry m k)).
  2:{ symmetry. exact (entry_map _ m k Hk). }
  pose proof (to_positive1_bound (entry m k)). apply gamma_moments; [|assumption]. assert (0 < / 10000000000)%R by lra. lra.
Qed.

Lemma c36_negbinomial y ns scale tr o tr' : run e tr (univariate_negbinomial_model y trend (Some data) (Some effs) ns scale) = Ok (o, tr') ->
  exists t vs m mu c, additive_mean e trend data effs t vs m /\ obs_distr tr' (DNegBinomial2 mu c) /\
    forall k, k < length (a_flat m) ->
      nb2_mean (entry mu k) (entry c k) = (scale * to_positive1 (/ 100000) (/ 10000000000) (entry m k))%R.
Proof.
  intros H. apply negbinomial_obs in H. destruct H as (m & tr1 & H & O). apply c36_mean in H; [|assumption..].
  destruct H as (t & vs & A). exists t, vs, m. eexists. eexists. split; [exact A|]. split; [exact O|].
  intros k Hk. unfold nb2_mean.
  change (entry (reshape_col (arr_map (fun x => (x * scale)%R) (to_positive m))) k) with (entry (arr_map (fun x => (x * scale)%R) (to_positive m)) k).
  rewrite entry_map by (simpl; now rewrite map_length). unfold to_positive. rewrite entry_map by assumption. ring.
Qed.

Lemma c36_multivariate y ns conc tr o tr' : run e tr (multivariate_model y trend (Some data) (Some effs) ns conc false) = Ok (o, tr') ->
  exists t vs m, additive_mean e trend data effs t vs m /\
    forall n T, a_shape m = [n; T; 1] -> exists loc tril, obs_distr tr' (DMvNormal loc tril) /\ a_shape loc = [T; n] /\
      forall i j, i < n -> j < T -> aget loc [j; i] = aget m [i; j; 0].
Proof.
  intros H. apply multi_obs in H. destruct H as (m & tr1 & H & O). apply c36_mean in H; [|assumption..].
  destruct H as (t & vs & A). exists t, vs, m. split; [exact A|]. intros n T Hm. destruct (O n T Hm) as (loc & tril & O1 & O2 & O3 & _). eauto.
Qed.

Lemma single_obs y ns conc tr o tr' : run e tr (multivariate_model y trend (Some data) (Some effs) ns conc true) = Ok (o, tr') ->
  exists t vs m s, additive_mean e trend data effs t vs m /\ obs_distr tr' (DNormal (reshape_col m) s).
Proof.
  unfold multivariate_model. rewrite run_bind. intros H.
  destruct (run e tr (compute_mean trend (Some data) (Some effs))) as [[m tr1]|] eqn:E; [|discriminate]. cbn [bind] in H.
  apply c36_mean in E; [|assumption..]. destruct E as (t & vs & A).
  rewrite run_bind in H. destruct (run e tr1 _) as [[y' tr2]|]; [|discriminate]. cbn [bind] in H.
  unfold sample, plate, observe in H. cbn [pbind run] in H.
  destruct (record tr2 "std_observation" _) as [t3|]; cbn [bind] in H; [|discriminate].
  destruct (record t3 "time" _) as [t4|]; cbn [bind] in H; [|discriminate].
  destruct (record t4 "obs" _) as [t5|] eqn:E5; cbn [bind] in H; [|discriminate]. injection H as _ <-. apply record_get in E5.
  exists t, vs, m. eexists. split; [exact A|]. unfold obs_distr. eauto.
Qed.
End C36.

(** the components in the trace *)
Lemma dict_get_nodup {V} (d : dict V) k v : NoDup (map fst d) -> In (k, v) d -> dict_get d k = Some v.
Proof. intros N I. now apply dict_get_iff. Qed.

Lemma run_nodup_trace {A} e (p : prog A) v tr : run e [] p = Ok (v, tr) -> NoDup (actions e p) ->
  exists l, eval e p = Ok (v, l) /\ tr = l /\ NoDup (map fst l).
Proof.
  intros H N. apply run_eval in H. destruct H as (l & E & R). exists l. rewrite (actions_eval _ _ _ _ E) in N.
  rewrite record_all_fresh in R by exact N. injection R as <-. auto.
Qed.

Lemma chain_sites {D} e (data : dict D) effs : forall pe vs gs, chain e data pe effs vs gs ->
  forall i name eff v, nth_error effs i = Some (name, eff) -> nth_error vs i = Some v -> In (name, SDet v) (concat gs).
Proof.
  induction 1 as [|pe name eff effs d v l vs gs G1 G2 C IH]; intros i n0 e0 v0 I1 I2; destruct i; simpl in *; try discriminate.
  - injection I1 as -> ->. injection I2 as ->. rewrite !in_app_iff. simpl. auto.
  - rewrite !in_app_iff. eauto.
Qed.

Lemma c36_components {D B} e (trend : prog arr) (data : dict D) effs (f : arr -> prog B) o tr :
  run e [] (pbind (compute_mean trend (Some data) (Some effs)) f) = Ok (o, tr) ->
  NoDup (actions e (pbind (compute_mean trend (Some data) (Some effs)) f)) ->
  NoDup (map fst effs) -> ~ In "trend" (map fst effs) ->
  exists t vs m, additive_mean e trend data effs t vs m /\ yields e (f m) o /\ dict_get tr "trend" = Some (SDet t) /\
    forall i name eff v, nth_error effs i = Some (name, eff) -> nth_error vs i = Some v -> dict_get tr name = Some (SDet v).
Proof.
  intros H N ND NT. destruct (run_nodup_trace _ _ _ _ H N) as (l & E & -> & NL).
  rewrite eval_bind in E. destruct (eval e (compute_mean trend (Some data) (Some effs))) as [[m lm]|] eqn:Em; [|discriminate]. cbn [bind] in E.
  destruct (eval e (f m)) as [[b' lf]|] eqn:Ef; [|discriminate]. cbn [bind] in E. injection E as -> <-.
  pose proof Em as Em2. apply eval_compute_mean in Em. destruct Em as (t & lt & vs & gs & E1 & C & El & F).
  assert (A : additive_mean e trend data effs t vs m).
  { destruct (chain_values _ _ _ _ _ _ C ND) as [L V].
    { intros n Hn. simpl. intros [<-|[]]. contradiction. }
    destruct (sum_entries _ _ _ F) as (S1 & S2 & S3 & S4 & S5). rewrite Forall_forall in S2.
    split; [apply eval_yields; eauto|]. split; [assumption|]. split; [exact V|]. auto. }
  exists t, vs, m. split; [exact A|]. split; [apply eval_yields; eauto|]. subst lm. split.
  - apply dict_get_nodup; [assumption|]. rewrite !in_app_iff. simpl. auto.
  - intros i name eff v Hi Hv. apply dict_get_nodup; [assumption|]. rewrite !in_app_iff. simpl. left. right. right. eapply chain_sites; eassumption.
Qed.

(** ** C71 *)
Lemma actions_scope {A} e p (m : prog A) : actions e (scope p m) = map (fun n => p ++ "/" ++ n) (actions (own_env e p) m).
Proof.
  induction m as [a|x|n d sh o k IH|n w k IH|n s k IH]; simpl; try reflexivity.
  - f_equal. assert (E : site_value e (p ++ String "/" n) sh o = site_value (own_env e p) n sh o) by (destruct o; reflexivity).
    rewrite E. apply IH.
  - now rewrite IH.
  - now rewrite IH.
Qed.

Lemma c71_disjoint {A B} e e' a b (p : prog A) (q : prog B) x :
  a <> b -> (forall n, In n (actions (own_env e a) p) -> no_slash n = true) ->
  (forall n, In n (actions (own_env e' b) q) -> no_slash n = true) ->
  In x (actions e (scope a p)) -> ~ In x (actions e' (scope b q)).
Proof.
  intros N Hp Hq H1 H2. rewrite actions_scope in H1. rewrite actions_scope in H2. apply in_map_iff in H1, H2.
  destruct H1 as (n & <- & H1), H2 as (m & E & H2). apply app_inv_last in E; [|auto|auto]. destruct E as [E _]. auto.
Qed.

Lemma nodup_map_inj {A B} (f : A -> B) l : (forall x y, f x = f y -> x = y) -> NoDup l -> NoDup (map f l).
Proof.
  intros I. induction 1 as [|x l H N IH]; simpl; constructor; [|assumption]. intros H2. apply in_map_iff in H2.
  destruct H2 as (y & E & Hy). apply I in E. congruence.
Qed.

Lemma prefix_inj p x y : p ++ "/" ++ x = p ++ "/" ++ y -> x = y.
Proof. induction p as [|c p IH]; simpl; [intros [= ->]; reflexivity|]. intros [= H]. apply IH. exact H. Qed.

Lemma nodup_app {A} (l1 l2 : list A) : NoDup l1 -> NoDup l2 -> (forall x, In x l1 -> ~ In x l2) -> NoDup (l1 ++ l2).
Proof.
  induction 1 as [|x l H N IH]; simpl; intros N2 Dj; [assumption|]. constructor.
  - rewrite in_app_iff. intros [I|I]; [auto|]. apply (Dj x); auto.
  - apply IH; [assumption|]. intros y Hy. apply Dj. auto.
Qed.

Lemma chain_names {D} e (data : dict D) effs : forall pe vs gs, chain e data pe effs vs gs ->
  NoDup (map fst effs) -> (forall n, In n (map fst effs) -> no_slash n = true) ->
  (forall n eff d pe, In (n, eff) effs -> NoDup (actions (own_env e n) (eff d pe))) ->
  NoDup (map fst (concat gs)) /\ forall x, In x (map fst (concat gs)) -> exists n, In n (map fst effs) /\ (x = n \/ exists y, x = n ++ "/" ++ y).
Proof.
  induction 1 as [pe|pe name eff effs d v l vs gs G1 G2 C IH]; intros ND NS NA.
  - simpl. split; [constructor|tauto].
  - simpl in ND. inversion ND as [|? ? N1 N2]; subst. destruct IH as [I1 I2]; [assumption|intros; apply NS; simpl; auto|intros; apply NA; simpl; auto|].
    assert (L : actions (own_env e name) (eff d pe) = map fst l) by (eapply actions_eval; eassumption).
    assert (Hs : no_slash name = true) by (apply NS; simpl; auto).
    assert (NG : NoDup (map fst (map (prefixed name) l ++ [(name, SDet v)])%list)).
    { rewrite map_app. apply nodup_app.
      - rewrite map_map. replace (map (fun x => fst (prefixed name x)) l) with (map (fun n => name ++ "/" ++ n) (map fst l)) by (now rewrite map_map).
        apply nodup_map_inj; [apply prefix_inj|]. rewrite <- L. apply NA. simpl. auto.
      - simpl. constructor; [tauto|constructor].
      - intros x Hx [<-|[]]. rewrite map_map in Hx. apply in_map_iff in Hx. destruct Hx as (z & Ez & _). simpl in Ez.
        assert (F : no_slash name = false) by (rewrite <- Ez; apply (app_slash_has name (fst z))). congruence. }
    assert (GI : forall x, In x (map fst (map (prefixed name) l ++ [(name, SDet v)])%list) -> x = name \/ exists y, x = name ++ "/" ++ y).
    { intros x Hx. rewrite map_app, in_app_iff in Hx. destruct Hx as [Hx|[<-|[]]]; [|auto]. rewrite map_map in Hx. apply in_map_iff in Hx.
      destruct Hx as (z & <- & _). right. exists (fst z). reflexivity. }
    split.
    + cbn [concat]. rewrite map_app. apply nodup_app; [assumption..|]. intros x X1 X2. apply GI in X1. destruct (I2 x X2) as (m & Hm & X3).
      assert (Ne : name <> m) by (intros ->; contradiction). assert (Hms : no_slash m = true) by (apply NS; simpl; auto).
      destruct X1 as [->|(y & ->)], X3 as [X3|(z & X3)].
      * contradiction.
      * assert (F : no_slash name = false) by (rewrite X3; apply (app_slash_has m z)). congruence.
      * assert (F : no_slash m = false) by (rewrite <- X3; apply (app_slash_has name y)). congruence.
      * apply app_inv_slash in X3; tauto.
    + intros x Hx. cbn [concat] in Hx. rewrite map_app, in_app_iff in Hx. destruct Hx as [Hx|Hx].
      * exists name. split; [simpl; auto|]. now apply GI.
      * destruct (I2 x Hx) as (m & Hm & X). exists m. simpl. auto.
Qed.

(** The names of the trend, of the effects and of the rest of the model ([suffix]) are distinct. *)
Lemma c71_compute_mean {D B} e (trend : prog arr) (data : dict D) effs (f : arr -> prog B) o suffix :
  (forall m, incl (actions e (f m)) suffix /\ NoDup (actions e (f m))) -> (forall n, In n suffix -> no_slash n = true) -> ~ In "trend" suffix ->
  yields e (pbind (compute_mean trend (Some data) (Some effs)) f) o ->
  NoDup (actions e trend) -> (forall n, In n (actions e trend) -> no_slash n = true /\ ~ In n ("trend" :: suffix)) ->
  NoDup (map fst effs) -> (forall n, In n (map fst effs) -> no_slash n = true /\ ~ In n ("trend" :: suffix) /\ ~ In n (actions e trend)) ->
  (forall n eff d pe, In (n, eff) effs -> NoDup (actions (own_env e n) (eff d pe))) ->
  NoDup (actions e (pbind (compute_mean trend (Some data) (Some effs)) f)).
Proof.
  intros HF HS HT Y NT1 NT2 NE1 NE2 NA. apply eval_yields in Y. destruct Y as (l & E). rewrite (actions_eval _ _ _ _ E).
  rewrite eval_bind in E. destruct (eval e (compute_mean trend (Some data) (Some effs))) as [[m lm]|] eqn:Em; [|discriminate]. cbn [bind] in E.
  destruct (eval e (f m)) as [[b' lf]|] eqn:Ef; [|discriminate]. cbn [bind] in E. injection E as -> <-.
  apply eval_compute_mean in Em. destruct Em as (t & lt & vs & gs & E1 & C & -> & F).
  destruct (HF m) as [F1 F2]. rewrite (actions_eval _ _ _ _ Ef) in F1, F2. rewrite (actions_eval _ _ _ _ E1) in NT1, NT2, NE2.
  destruct (chain_names _ _ _ _ _ _ C) as [G1 G2]; [assumption|intros; now apply NE2|assumption|].
  (* every name of a group is different from every slash-free name that is not an effect name *)
  assert (GX : forall x, In x (map fst (concat gs)) -> no_slash x = true -> In x (map fst effs)).
  { intros x Hx Hs. destruct (G2 x Hx) as (n & Hn & [->|(y & ->)]); [assumption|]. assert (T := app_slash_has n y).
    assert (no_slash (n ++ "/" ++ y) = false) by exact T. congruence. }
  rewrite !map_app. simpl. apply nodup_app.
  - apply nodup_app; [assumption| |].
    + constructor; [|assumption]. intros I. apply GX in I; [|reflexivity]. apply NE2 in I. simpl in I. tauto.
    + intros x Hx I. destruct (NT2 x Hx) as [T1 T2]. simpl in T2. destruct I as [I|I]; [tauto|]. apply GX in I; [|assumption]. apply NE2 in I. tauto.
  - assumption.
  - intros x Hx I. apply F1 in I. apply in_app_iff in Hx. destruct Hx as [Hx|[<-|Hx]].
    + apply NT2 in Hx. simpl in Hx. tauto.
    + contradiction.
    + apply GX in Hx; [|auto]. apply NE2 in Hx. simpl in Hx. tauto.
Qed.

Section C71.
Context {D : Type} (e : env) (trend : prog arr) (data : dict D) (effs : dict (effect_fn D)).
Hypothesis CT : clean_trend e trend.
Hypothesis CN : clean_names e trend effs.
Hypothesis CA : forall n eff d pe, In (n, eff) effs -> NoDup (actions (own_env e n) (eff d pe)).

Lemma c71_general {B} (f : arr -> prog B) o :
  (forall m, incl (actions e (f m)) (tl reserved) /\ NoDup (actions e (f m))) ->
  yields e (pbind (compute_mean trend (Some data) (Some effs)) f) o ->
  NoDup (actions e (pbind (compute_mean trend (Some data) (Some effs)) f)).
Proof.
  intros HF Y. destruct CT as [T1 T2], CN as [N1 N2]. apply (c71_compute_mean e trend data effs f o (tl reserved)); try assumption.
  - intros n. simpl. intuition (subst; reflexivity).
  - simpl. intuition discriminate.
Qed.

Lemma lift_actions {A B} e0 (m : res A) (f : A -> prog B) :
  (exists a, m = Ok a /\ actions e0 (pbind (lift_res m) f) = actions e0 (f a)) \/ actions e0 (pbind (lift_res m) f) = [].
Proof. destruct m as [a|]; simpl; [left; eauto|right; reflexivity]. Qed.

Ltac dist := repeat constructor; simpl; intuition discriminate.
Ltac inc := intros ? ?; simpl in *; intuition (subst; auto 12).

Lemma c71_normal y ns o : yields e (univariate_model y trend (Some data) (Some effs) ns) o ->
  NoDup (actions e (univariate_model y trend (Some data) (Some effs) ns)).
Proof.
  unfold univariate_model. apply c71_general. intros m. cbn [sample pbind actions].
  destruct (lift_actions e (len m) (fun n => _ <~ plate "data" n ;; observe "obs" (DNormal (reshape_col m) (const_arr (a_shape (reshape_col m)) (item0 (site_value e "noise_scale" [] None)))) (a_shape (reshape_col m)) y))
    as [(a & _ & ->)| ->]; split; try inc; try dist.
Qed.

Lemma c71_gamma y ns o : yields e (univariate_gamma_model y trend (Some data) (Some effs) ns) o ->
  NoDup (actions e (univariate_gamma_model y trend (Some data) (Some effs) ns)).
Proof.
  unfold univariate_gamma_model. apply c71_general. intros m. cbn [sample pbind actions].
  destruct (len (to_positive m)); simpl; split; try inc; try dist.
Qed.

Lemma c71_negbinomial y ns s o : yields e (univariate_negbinomial_model y trend (Some data) (Some effs) ns s) o ->
  NoDup (actions e (univariate_negbinomial_model y trend (Some data) (Some effs) ns s)).
Proof.
  unfold univariate_negbinomial_model. apply c71_general. intros m. cbn [sample pbind actions].
  destruct (len _); simpl; split; try inc; try dist.
Qed.

Lemma c71_multivariate y ns c b o : yields e (multivariate_model y trend (Some data) (Some effs) ns c b) o ->
  NoDup (actions e (multivariate_model y trend (Some data) (Some effs) ns c b)).
Proof.
  unfold multivariate_model. apply c71_general. intros m.
  set (k := fun y => if b then _ else _).
  assert (K : forall y, incl (actions e (k y)) (tl reserved) /\ NoDup (actions e (k y))).
  { intros y'. unfold k. destruct b; [simpl; split; [inc|dist]|].
    destruct (shape_at m 0) as [n|]; [|simpl; split; [inc|dist]]. cbn [lift_res pbind sample actions].
    destruct (matmul (diag _) _) as [half|]; [|simpl; split; [inc|dist]]. cbn [lift_res pbind actions].
    destruct (matmul half _) as [cov|]; [|simpl; split; [inc|dist]]. cbn [lift_res pbind actions].
    destruct (shape_at m 1) as [t|]; [|simpl; split; [inc|dist]]. cbn [lift_res pbind plate actions].
    destruct (squeeze_last m) as [loc|]; simpl; split; try inc; try dist. }
  destruct y as [y|]; cbn [pbind]; [|apply K].
  destruct (squeeze_last y) as [s|]; cbn [lift_res pbind]; [apply K|]. simpl. split; [inc|dist].
Qed.
End C71.

(** ** concrete model used in the examples *)
Definition ex_trend : prog arr := v <~ sample "offset" (DUser 0) [1] ;; Ret (mkArr [2; 1] [item0 v; (item0 v + 1)%R]).
Definition ex_add : effect_fn arr := fun d _ => c <~ sample "coefs" (DUser 1) [1] ;; Ret (arr_map (fun x => item0 c * x)%R d).
Definition ex_mult : effect_fn arr := fun d pe =>
  t <~ lift_res (dict_item pe "trend") ;; c <~ sample "coefs" (DUser 1) [1] ;; lift_res (arr_zip Rmult t (arr_map (fun x => item0 c * x)%R d)).
Definition ex_env : env := fun n _ => if String.eqb n "noise_scale" then 1%R else 2%R.
Definition ex_data : dict arr := [("promo", mkArr [2; 1] [1; 3]%R); ("price", mkArr [2; 1] [5; 7]%R)].
Definition ex_effs : dict (effect_fn arr) := [("promo", ex_add); ("price", ex_mult)].

Lemma ex_trend_only : forall ne, In ne ex_effs -> trend_only (snd ne).
Proof.
  intros ne [<-|[<-|[]]] d pe pe' H; simpl; [reflexivity|]. unfold ex_mult, dict_item. now rewrite H.
Qed.

Lemma ex_clean : clean_trend ex_env ex_trend /\ clean_names ex_env ex_trend ex_effs /\
  (forall n eff d pe, In (n, eff) ex_effs -> NoDup (actions (own_env ex_env n) (eff d pe))).
Proof.
  split; [|split].
  - split; [simpl; repeat constructor; simpl; tauto|]. simpl. intros n [<-|[]]. split; [reflexivity|]. intuition discriminate.
  - split; [simpl; repeat constructor; simpl; intuition discriminate|]. simpl. intros n [<-|[<-|[]]]; (split; [reflexivity|]; split; intuition discriminate).
  - intros n eff d pe [[= <- <-]|[[= <- <-]|[]]]; simpl.
    + repeat constructor; simpl; tauto.
    + unfold ex_mult. destruct (dict_item pe "trend"); simpl; [|constructor]. destruct (arr_zip _ _ _); simpl; repeat constructor; simpl; tauto.
Qed.

Lemma ex_runs : exists o tr, run ex_env [] (univariate_model None ex_trend (Some ex_data) (Some ex_effs) (1 / 2)) = Ok (o, tr) /\
  map fst tr = ["offset"; "trend"; "promo/coefs"; "promo"; "price/coefs"; "price"; "noise_scale"; "data"; "obs"] /\
  exists s, obs_distr tr (DNormal (mkArr [2; 1] [2 + 2 * 1 + 2 * (2 * 5); 2 + 1 + 2 * 3 + (2 + 1) * (2 * 7)]%R) s).
Proof. do 2 eexists. split; [reflexivity|]. split; [reflexivity|]. eexists. unfold obs_distr. do 2 eexists. reflexivity. Qed.

Lemma ex_gamma_runs : exists o tr, run ex_env [] (univariate_gamma_model None ex_trend (Some ex_data) (Some ex_effs) (1 / 2)) = Ok (o, tr).
Proof. do 2 eexists. reflexivity. Qed.
Lemma ex_negbinomial_runs : exists o tr, run ex_env [] (univariate_negbinomial_model None ex_trend (Some ex_data) (Some ex_effs) (1 / 2) 10) = Ok (o, tr).
Proof. do 2 eexists. reflexivity. Qed.

(** names with a slash: [x/coefs] clashes with the parameter of [x] *)
Definition slash_effs : dict (effect_fn arr) := [("x", ex_add); ("x/coefs", ex_add)].
Definition slash_data : dict arr := [("x", mkArr [2; 1] [1; 3]%R); ("x/coefs", mkArr [2; 1] [5; 7]%R)].

Lemma slash_order :
  (exists o tr, run ex_env [] (univariate_model None ex_trend (Some slash_data) (Some slash_effs) (1 / 2)) = Ok (o, tr) /\
     exists v, dict_get tr "x/coefs" = Some (SDet v)) /\
  run ex_env [] (univariate_model None ex_trend (Some slash_data) (Some (rev slash_effs)) (1 / 2)) = Err AssertionError.
Proof. split; [|reflexivity]. do 2 eexists. split; [reflexivity|]. eexists. reflexivity. Qed.

(** an effect called like a site of the trend replaces that site in the trace *)
Lemma offset_overwritten : exists o tr,
  run ex_env [] (univariate_model None ex_trend (Some [("offset", mkArr [2; 1] [1; 3]%R)]) (Some [("offset", ex_add)]) (1 / 2)) = Ok (o, tr) /\
  (exists v, dict_get tr "offset" = Some (SDet v)) /\
  forall d v b, ~ In ("offset", SSample d v b) tr.
Proof.
  do 2 eexists. split; [reflexivity|]. split; [eexists; reflexivity|].
  intros d v b H. simpl in H. intuition discriminate.
Qed.

(** ** C49 *)
Lemma c49_cov e n t (tril : arr) i j l : 
  (forall j i k, j < t -> i < n -> k < n ->
     aget tril [j; i; k] = (e "std_observation" i * e "corr_matrix" (i * n + k)%nat * e "std_observation" k)%R) ->
  l < t -> i < n -> j < n ->
  mvn_cov (fun i k => aget tril [l; i; k]) n i j =
  (e "std_observation" i * e "std_observation" j *
   Rsum (map (fun k => e "corr_matrix" (i * n + k)%nat * e "corr_matrix" (j * n + k)%nat * (e "std_observation" k * e "std_observation" k)) (seq 0 n)))%R.
Proof.
  intros H Hl Hi Hj. unfold mvn_cov. rewrite <- Rsum_scale, map_map. f_equal. apply map_ext_in. intros k Hk. apply in_seq in Hk.
  rewrite !H by lia. ring.
Qed.

Definition c49_env : env := fun n k =>
  if String.eqb n "std_observation" then (match k with 0 => 2 | _ => 1 end)%R
  else if String.eqb n "corr_matrix" then (match k with 0 | 3 => 1 | _ => 0 end)%R else 0%R.
Definition two_trend : prog arr := v <~ sample "offset" (DUser 0) [1] ;; Ret (mkArr [2; 1; 1] [item0 v; (item0 v + 1)%R]).

Lemma c49_counterexample : exists o tr loc tril,
  run c49_env [] (multivariate_model (D := arr) None two_trend None None (1 / 2) 1 false) = Ok (o, tr) /\
  obs_distr tr (DMvNormal loc tril) /\
  (forall i, i < 2 -> (0 < c49_env "std_observation" i)%R) /\
  (forall i, i < 2 -> Rsum (map (fun k => (c49_env "corr_matrix" (i * 2 + k)%nat * c49_env "corr_matrix" (i * 2 + k)%nat)%R) (seq 0 2)) = 1%R) /\
  mvn_cov (fun i k => aget tril [0; i; k]) 2 0 0 <> (c49_env "std_observation" 0%nat * c49_env "std_observation" 0%nat)%R.
Proof.
  destruct (run c49_env [] (multivariate_model (D := arr) None two_trend None None (1 / 2) 1 false)) as [[o tr]|] eqn:E; [|discriminate E].
  pose proof E as E2. apply multi_obs in E2. destruct E2 as (m & tr1 & Em & M). injection Em as Em _.
  destruct (M 2 1) as (loc & tril & O & _ & _ & _ & G); [now rewrite <- Em|].
  exists o, tr, loc, tril. split; [reflexivity|]. split; [assumption|]. split; [|split].
  - intros [|[|i]] H; unfold c49_env; simpl; try lra; lia.
  - intros [|[|i]] H; unfold c49_env; simpl; try lra; lia.
  - rewrite (c49_cov c49_env 2 1 tril 0 0 0 G) by lia. unfold c49_env. simpl. lra.
Qed.

(** ** C48: no failure after the mean has been computed *)
Lemma c48_total {D} e (trend : prog arr) (data : option (dict D)) effs m tr tr1 n rest :
  run e tr (compute_mean trend data effs) = Ok (m, tr1) -> a_shape m = n :: rest ->
  ~ In "noise_scale" (map fst tr1) -> ~ In "obs" (map fst tr1) ->
  (forall y ns, exists o tr', run e tr (univariate_model y trend data effs ns) = Ok (o, tr')) /\
  (forall y ns, exists o tr', run e tr (univariate_gamma_model y trend data effs ns) = Ok (o, tr')) /\
  (forall y ns s, exists o tr', run e tr (univariate_negbinomial_model y trend data effs ns s) = Ok (o, tr')).
Proof.
  intros E Sh N1 N2.
  assert (L : len m = Ok n) by (unfold len; now rewrite Sh).
  assert (L1 : len (to_positive m) = Ok n) by exact L.
  assert (L2 : forall s, len (arr_map (fun x => x * s)%R (to_positive m)) = Ok n) by (intros s; exact L).
  repeat split; intros.
  - unfold univariate_model. rewrite run_bind, E. cbn [bind]. rewrite L.
    apply (tail_total e tr1 ns n (fun noise => DNormal (reshape_col m) (const_arr (a_shape (reshape_col m)) (item0 noise)))); assumption.
  - unfold univariate_gamma_model. rewrite run_bind, E. cbn [bind]. rewrite L1.
    apply (tail_total e tr1 ns n (fun noise => gamma_reparametrized (reshape_col (to_positive m)) (item0 noise))); assumption.
  - unfold univariate_negbinomial_model. rewrite run_bind, E. cbn [bind]. rewrite L2.
    apply (tail_total e tr1 ns n (fun noise => DNegBinomial2 (reshape_col (arr_map (fun x => x * s)%R (to_positive m))) (const_arr (a_shape (reshape_col (arr_map (fun x => x * s)%R (to_positive m)))) (item0 noise * s)%R))); assumption.
Qed.

Lemma c48_normal {D} e (trend : prog arr) (data : option (dict D)) effs y ns tr o tr' :
  run e tr (univariate_model y trend data effs ns) = Ok (o, tr') -> (0 < e "noise_scale" 0%nat)%R ->
  exists m tr1 d, run e tr (compute_mean trend data effs) = Ok (m, tr1) /\ obs_distr tr' d /\ valid_distr d /\
    batch_shape d = [length (a_flat m); 1].
Proof.
  intros H Hn. apply normal_obs in H. destruct H as (m & tr1 & H & O). exists m, tr1. eexists. split; [exact H|]. split; [exact O|].
  split; [now apply normal_valid|reflexivity].
Qed.
Lemma c48_gamma {D} e (trend : prog arr) (data : option (dict D)) effs y ns tr o tr' :
  run e tr (univariate_gamma_model y trend data effs ns) = Ok (o, tr') -> (0 < e "noise_scale" 0%nat)%R ->
  exists m tr1 d, run e tr (compute_mean trend data effs) = Ok (m, tr1) /\ obs_distr tr' d /\ valid_distr d /\
    batch_shape d = [length (a_flat m); 1].
Proof.
  intros H Hn. apply gamma_obs in H. destruct H as (m & tr1 & H & O). exists m, tr1. eexists. split; [exact H|]. split; [exact O|].
  split; [apply gamma_valid; [apply to_positive_pos|assumption]|]. simpl. now rewrite map_length.
Qed.
Lemma c48_negbinomial {D} e (trend : prog arr) (data : option (dict D)) effs y ns s tr o tr' :
  run e tr (univariate_negbinomial_model y trend data effs ns s) = Ok (o, tr') -> (0 < e "noise_scale" 0%nat)%R -> (0 < s)%R ->
  exists m tr1 d, run e tr (compute_mean trend data effs) = Ok (m, tr1) /\ obs_distr tr' d /\ valid_distr d /\
    batch_shape d = [length (a_flat m); 1].
Proof.
  intros H Hn Hs. apply negbinomial_obs in H. destruct H as (m & tr1 & H & O). exists m, tr1. eexists. split; [exact H|]. split; [exact O|]. split.
  - replace (length (a_flat m)) with (length (a_flat (to_positive m))) by (simpl; now rewrite map_length).
    apply negbinomial_valid; [apply to_positive_pos|assumption..].
  - simpl. now rewrite !map_length.
Qed.

(** ** C37 for the four models *)
Lemma c37_normal {D} e (trend : prog arr) (data : dict D) effs effs' y ns o tr :
  Permutation effs effs' -> NoDup (map fst effs) -> (forall n, In n (map fst effs) -> no_slash n = true /\ n <> "trend") ->
  (forall ne, In ne effs -> trend_only (snd ne)) ->
  run e [] (univariate_model y trend (Some data) (Some effs) ns) = Ok (o, tr) ->
  exists tr', run e [] (univariate_model y trend (Some data) (Some effs') ns) = Ok (o, tr') /\ Permutation tr tr'.
Proof. unfold univariate_model. intros. eapply c37_main; eassumption. Qed.
Lemma c37_gamma {D} e (trend : prog arr) (data : dict D) effs effs' y ns o tr :
  Permutation effs effs' -> NoDup (map fst effs) -> (forall n, In n (map fst effs) -> no_slash n = true /\ n <> "trend") ->
  (forall ne, In ne effs -> trend_only (snd ne)) ->
  run e [] (univariate_gamma_model y trend (Some data) (Some effs) ns) = Ok (o, tr) ->
  exists tr', run e [] (univariate_gamma_model y trend (Some data) (Some effs') ns) = Ok (o, tr') /\ Permutation tr tr'.
Proof. unfold univariate_gamma_model. intros. eapply c37_main; eassumption. Qed.
Lemma c37_negbinomial {D} e (trend : prog arr) (data : dict D) effs effs' y ns s o tr :
  Permutation effs effs' -> NoDup (map fst effs) -> (forall n, In n (map fst effs) -> no_slash n = true /\ n <> "trend") ->
  (forall ne, In ne effs -> trend_only (snd ne)) ->
  run e [] (univariate_negbinomial_model y trend (Some data) (Some effs) ns s) = Ok (o, tr) ->
  exists tr', run e [] (univariate_negbinomial_model y trend (Some data) (Some effs') ns s) = Ok (o, tr') /\ Permutation tr tr'.
Proof. unfold univariate_negbinomial_model. intros. eapply c37_main; eassumption. Qed.
Lemma c37_multivariate {D} e (trend : prog arr) (data : dict D) effs effs' y ns c b o tr :
  Permutation effs effs' -> NoDup (map fst effs) -> (forall n, In n (map fst effs) -> no_slash n = true /\ n <> "trend") ->
  (forall ne, In ne effs -> trend_only (snd ne)) ->
  run e [] (multivariate_model y trend (Some data) (Some effs) ns c b) = Ok (o, tr) ->
  exists tr', run e [] (multivariate_model y trend (Some data) (Some effs') ns c b) = Ok (o, tr') /\ Permutation tr tr'.
Proof. unfold multivariate_model. intros. eapply c37_main; eassumption. Qed.

Lemma c49_formula {D} e (trend : prog arr) (data : option (dict D)) effs y ns conc tr o tr' :
  run e tr (multivariate_model y trend data effs ns conc false) = Ok (o, tr') ->
  exists m tr1, run e tr (compute_mean trend data effs) = Ok (m, tr1) /\
  forall n t, a_shape m = [n; t; 1] -> exists loc tril, obs_distr tr' (DMvNormal loc tril) /\
  forall l i j, l < t -> i < n -> j < n ->
    mvn_cov (fun i k => aget tril [l; i; k]) n i j =
    (e "std_observation" i * e "std_observation" j *
     Rsum (map (fun k => e "corr_matrix" (i * n + k)%nat * e "corr_matrix" (j * n + k)%nat *
                         (e "std_observation" k * e "std_observation" k)) (seq 0 n)))%R.
Proof.
  intros H. apply multi_obs in H. destruct H as (m & tr1 & E & M). exists m, tr1. split; [assumption|]. intros n t Hm.
  destruct (M n t Hm) as (loc & tril & O & _ & _ & _ & G). exists loc, tril. split; [assumption|]. intros l i j Hl Hi Hj.
  now apply (c49_cov e n t).
Qed.

Lemma c49_unit {D} e (trend : prog arr) (data : option (dict D)) effs y ns conc tr o tr' :
  run e tr (multivariate_model y trend data effs ns conc false) = Ok (o, tr') ->
  (forall i, e "std_observation" i = 1%R) ->
  exists m tr1, run e tr (compute_mean trend data effs) = Ok (m, tr1) /\
  forall n t, a_shape m = [n; t; 1] -> exists loc tril, obs_distr tr' (DMvNormal loc tril) /\
  forall l i j, l < t -> i < n -> j < n ->
    mvn_cov (fun i k => aget tril [l; i; k]) n i j =
    (e "std_observation" i * e "std_observation" j * mvn_cov (fun i k => e "corr_matrix" (i * n + k)%nat) n i j)%R.
Proof.
  intros H U. apply c49_formula in H. destruct H as (m & tr1 & E & M). exists m, tr1. split; [assumption|]. intros n t Hm.
  destruct (M n t Hm) as (loc & tril & O & G). exists loc, tril. split; [assumption|]. intros l i j Hl Hi Hj.
  rewrite G by assumption. f_equal. unfold mvn_cov. f_equal. apply map_ext. intros k. rewrite !U. ring.
Qed.

Lemma c71_all {D} e (trend : prog arr) (data : dict D) effs :
  clean_trend e trend -> clean_names e trend effs ->
  (forall n eff d pe, In (n, eff) effs -> NoDup (actions (own_env e n) (eff d pe))) ->
  (forall y ns o, yields e (univariate_model y trend (Some data) (Some effs) ns) o ->
     NoDup (actions e (univariate_model y trend (Some data) (Some effs) ns))) /\
  (forall y ns o, yields e (univariate_gamma_model y trend (Some data) (Some effs) ns) o ->
     NoDup (actions e (univariate_gamma_model y trend (Some data) (Some effs) ns))) /\
  (forall y ns s o, yields e (univariate_negbinomial_model y trend (Some data) (Some effs) ns s) o ->
     NoDup (actions e (univariate_negbinomial_model y trend (Some data) (Some effs) ns s))) /\
  (forall y ns c b o, yields e (multivariate_model y trend (Some data) (Some effs) ns c b) o ->
     NoDup (actions e (multivariate_model y trend (Some data) (Some effs) ns c b))).
Proof.
  intros H1 H2 H3. repeat split; intros.
  - eapply c71_normal; eassumption.
  - eapply c71_gamma; eassumption.
  - eapply c71_negbinomial; eassumption.
  - eapply c71_multivariate; eassumption.
Qed.
