(** Exact errors of the scaling, of the matching of columns, of elementwise operations and of the tables of samples. *)
From Coq Require Import Reals String Bool ZArith List Lia.
From Verif.Model Require Import Base Num XFloat Regex Arr Frame Expand Aggregate Scale Predict.
From Verif.Facts Require Import BaseFacts RaiseMore.
Import ListNotations.
Local Open Scope string_scope.

Lemma raise_zip f a b e : arr_zip f a b = Err e <-> e = TypeError /\ a_shape a <> a_shape b.
Proof.
  unfold arr_zip. destruct (list_eq_dec Nat.eq_dec (a_shape a) (a_shape b)) as [E|E].
  - split; [discriminate|tauto].
  - split; [intros [= <-]; tauto|now intros [-> _]].
Qed.

Lemma raise_match columns re e : match_columns columns (Some re) = Err e <-> e = ValueError /\ compile re = None.
Proof.
  unfold match_columns. destruct (compile re); [split; [discriminate|intros [_ [=]]]|].
  split; [intros [= <-]; tauto|now intros [-> _]].
Qed.
Lemma raise_col_match re c e : col_match re c = Err e <-> e = ValueError /\ compile re = None.
Proof.
  unfold col_match. destruct (compile re); [split; [discriminate|intros [_ [=]]]|].
  split; [intros [= <-]; tauto|now intros [-> _]].
Qed.

Lemma abs_max_none l : abs_max l = None <-> l = [].
Proof. unfold abs_max. destruct l; cbn; split; congruence. Qed.
Lemma flat_map_nil {A B} (f : A -> list B) l : flat_map f l = [] <-> forall x, In x l -> f x = [].
Proof.
  induction l as [|a l IH]; cbn; [split; [intros _ x []|reflexivity]|].
  split.
  - intros H. apply app_eq_nil in H. destruct H as [Ha Hl]. intros x [<-|I]; [exact Ha|exact (proj1 IH Hl x I)].
  - intros H. rewrite (H a (or_introl eq_refl)). cbn. apply IH. intros x I. apply H. now right.
Qed.

Lemma mapM_err_in {A B} (f : A -> res B) l e : mapM f l = Err e -> exists x, In x l /\ f x = Err e.
Proof. intros H. apply mapM_raises in H. destruct H as (l1 & x & l2 & vs & -> & _ & E). exists x. split; [apply in_elt|exact E]. Qed.
Lemma mapM_err_uniform {A B} (f : A -> res B) l e0 x : (forall x e, f x = Err e -> e = e0) -> In x l -> f x = Err e0 -> mapM f l = Err e0.
Proof.
  intros U I E. destruct (mapM f l) as [vs|e] eqn:M.
  - exfalso. revert vs M I. clear U. induction l as [|a l IH]; intros vs M I; [destruct I|]. cbn [mapM] in M.
    destruct (f a) as [b|] eqn:Fa; cbn [bind] in M; [|discriminate]. destruct (mapM f l) as [bs|] eqn:Ml; cbn [bind] in M; [|discriminate].
    destruct I as [->|I]; [congruence|exact (IH bs eq_refl I)].
  - f_equal. apply mapM_err_in in M. destruct M as (z & _ & Ez). exact (U z e Ez).
Qed.

(** base.py:469-482 *)
Lemma raise_scales user (y : frame R) e : set_y_scales user y = Err e <->
  e = ValueError /\ user = None /\
  ((f_levels y = 0%nat /\ forall r, In r (f_rows y) -> r_vals r = []) \/
   (f_levels y <> 0%nat /\ exists p, In p (series_ids y) /\ forall r, In r (rows_of y p) -> r_vals r = [])).
Proof.
  unfold set_y_scales. destruct user as [s|]; cbn [bind].
  - split; [|intros (_ & [=] & _)]. destruct s; cbn; discriminate.
  - destruct (f_levels y) as [|n].
    + destruct (abs_max (flat_map r_vals (f_rows y))) as [c|] eqn:M; cbn [bind].
      * split; [discriminate|]. intros (_ & _ & [[_ H]|[F _]]); [|congruence]. apply flat_map_nil in H. rewrite H in M. discriminate.
      * apply abs_max_none in M. split; [intros [= <-]; split; [reflexivity|split; [reflexivity|left; split; [reflexivity|now apply flat_map_nil]]]|now intros (-> & _)].
    + set (g := fun p => match abs_max (flat_map r_vals (rows_of y p)) with Some c => Ok (p, c) | None => Err ValueError end).
      assert (U : forall x e, g x = Err e -> e = ValueError) by (intros x e'; unfold g; destruct (abs_max _); congruence).
      assert (G : forall x, g x = Err ValueError <-> forall r, In r (rows_of y x) -> r_vals r = []).
      { intros x. unfold g. rewrite <- flat_map_nil, <- abs_max_none. destruct (abs_max _); split; congruence. }
      destruct (mapM g (series_ids y)) as [tab|e'] eqn:M; cbn [bind].
      * split; [discriminate|]. intros (_ & _ & [[F _]|(_ & p & I & H)]); [discriminate|].
        apply G in H. rewrite (mapM_err_uniform g _ _ p U I H) in M. discriminate.
      * apply mapM_err_in in M. destruct M as (p & I & E). assert (e' = ValueError) as -> by exact (U _ _ E). pose proof (proj1 (G p) E) as E2.
        split; [intros [= <-]; split; [reflexivity|split; [reflexivity|right; split; [discriminate|now exists p]]]|now intros (-> & _)].
Qed.

Lemma tab_rows tab (y : frame R) : (forall (x : row R) e, match tab_get tab (r_path x) with Some c => Ok c | None => Err KeyError end = @Err R e -> e = KeyError).
Proof. intros x e. destruct (tab_get tab (r_path x)); congruence. Qed.

(** base.py:511-518, 547-553 *)
Lemma raise_scaling op discrete s (y : frame R) e : apply_scale op discrete s y = Err e <->
  discrete = false /\
  ((e = AttributeError /\ exists z, s = SInt z) \/
   exists tab, (s = STable tab \/ s = SSeries tab) /\
     ((e = ValueError /\ f_levels y = 0%nat) \/
      (e = KeyError /\ f_levels y <> 0%nat /\ exists r, In r (f_rows y) /\ tab_get tab (r_path r) = None) \/
      (e = ValueError /\ s = SSeries tab /\ f_levels y <> 0%nat /\ (forall r, In r (f_rows y) -> tab_get tab (r_path r) <> None) /\
        List.length (f_rows y) <> List.length (f_cols y)))).
Proof.
  unfold apply_scale. destruct discrete; [split; [discriminate|intros [[=] _]]|].
  assert (S0 : forall tab, scale_for_each_obs tab y = Err ValueError <-> f_levels y = 0%nat).
  { intros tab. unfold scale_for_each_obs. destruct (f_levels y) as [|n]; [tauto|]. split; [|discriminate].
    intros M. apply mapM_err_in in M. destruct M as (r & _ & E). apply (tab_rows tab y) in E. discriminate. }
  assert (S1 : forall tab, scale_for_each_obs tab y = Err KeyError <-> f_levels y <> 0%nat /\ exists r, In r (f_rows y) /\ tab_get tab (r_path r) = None).
  { intros tab. unfold scale_for_each_obs. destruct (f_levels y) as [|n]; [split; [discriminate|tauto]|]. split.
    - intros M. apply mapM_err_in in M. destruct M as (r & I & E). split; [discriminate|]. exists r. split; [exact I|]. destruct (tab_get tab (r_path r)); congruence.
    - intros (_ & r & I & E). apply (mapM_err_uniform _ _ _ r (tab_rows tab y) I). now rewrite E. }
  assert (S2 : forall tab e', scale_for_each_obs tab y = Err e' -> e' = ValueError \/ e' = KeyError).
  { intros tab e'. unfold scale_for_each_obs. destruct (f_levels y) as [|n]; [intros [= <-]; tauto|].
    intros M. apply mapM_err_in in M. destruct M as (r & _ & E). apply (tab_rows tab y) in E. tauto. }
  assert (S3 : forall tab cs, scale_for_each_obs tab y = Ok cs -> f_levels y <> 0%nat /\ (forall r, In r (f_rows y) -> tab_get tab (r_path r) <> None) /\ List.length cs = List.length (f_rows y)).
  { intros tab cs H. split; [intros E; apply (S0 tab) in E; congruence|]. split.
    - intros r I E. assert (F : scale_for_each_obs tab y = Err KeyError).
      { apply S1. split; [intros E'; apply (S0 tab) in E'; congruence|now exists r]. } congruence.
    - unfold scale_for_each_obs in H. destruct (f_levels y); [discriminate|]. now apply mapM_length in H. }
  destruct s as [c|z|tab|tab].
  - split; [discriminate|]. intros (_ & [(_ & z & [=])|(tab & [[=]|[=]] & _)]).
  - split; [intros [= <-]; split; [reflexivity|left; split; [reflexivity|now exists z]]|].
    intros (_ & [(-> & _)|(tab & [[=]|[=]] & _)]). reflexivity.
  - destruct (scale_for_each_obs tab y) as [cs|e'] eqn:Sc; cbn [bind].
    + destruct (S3 _ _ Sc) as (L & A & _). split; [discriminate|].
      intros (_ & [(_ & z & [=])|(tab' & [[= <-]|[=]] & [[_ E]|[(_ & _ & r & I & E)|(_ & [=] & _)]])]); [now elim L|now elim (A r I)].
    + split.
      * intros [= <-]. split; [reflexivity|]. right. exists tab. split; [now left|].
        destruct (S2 _ _ Sc) as [-> | ->]; [left; split; [reflexivity|now apply (S0 tab)]|right; left; split; [reflexivity|now apply S1]].
      * intros (_ & [(_ & z & [=])|(tab' & [[= <-]|[=]] & [[-> E]|[(-> & L & HX)|(_ & [=] & _)]])]).
        -- apply (S0 tab) in E. congruence.
        -- assert (F : scale_for_each_obs tab y = Err KeyError) by (apply S1; tauto). congruence.
  - destruct (scale_for_each_obs tab y) as [cs|e'] eqn:Sc; cbn [bind].
    + destruct (S3 _ _ Sc) as (L & A & Len). unfold by_column. rewrite Len. destruct (Nat.eqb_spec (List.length (f_rows y)) (List.length (f_cols y))) as [E|E].
      * split; [discriminate|].
        intros (_ & [(_ & z & [=])|(tab' & [[=]|[= <-]] & [[_ E']|[(_ & _ & r & I & E')|(_ & _ & _ & _ & N)]])]); [now elim L|now elim (A r I)|now elim N].
      * split.
        -- intros [= <-]. split; [reflexivity|]. right. exists tab. split; [now right|]. right. right. tauto.
        -- intros (_ & [(_ & z & [=])|(tab' & [[=]|[= <-]] & [[_ E']|[(_ & _ & r & I & E')|(-> & _)]])]); [now elim L|now elim (A r I)|reflexivity].
    + split.
      * intros [= <-]. split; [reflexivity|]. right. exists tab. split; [now right|].
        destruct (S2 _ _ Sc) as [-> | ->]; [left; split; [reflexivity|now apply (S0 tab)]|right; left; split; [reflexivity|now apply S1]].
      * intros (_ & [(_ & z & [=])|(tab' & [[=]|[= <-]] & [[-> E]|[(-> & L & HX)|(-> & _ & L & A & _)]])]).
        -- apply (S0 tab) in E. congruence.
        -- assert (F : scale_for_each_obs tab y = Err KeyError) by (apply S1; tauto). congruence.
        -- exfalso. destruct (S2 _ _ Sc) as [-> | ->]; [now apply S0 in Sc|]. apply S1 in Sc. destruct Sc as (_ & r & I & N). now apply (A r I).
Qed.

(** base.py:431-446: the first two things that can go wrong *)
Lemma raise_samples_site lb times draws : dict_get draws "obs" = None -> predict_samples_base lb times draws = Err KeyError.
Proof. intros E. unfold predict_samples_base, dict_item. rewrite E. reflexivity. Qed.
Lemma raise_samples_axis lb times draws a : dict_get draws "obs" = Some a -> a_shape a = [] -> predict_samples_base lb times draws = Err IndexError.
Proof. intros E S. unfold predict_samples_base, dict_item. rewrite E. cbn [bind]. rewrite S. reflexivity. Qed.

(** base.py:382-413, every site with the same number of samples *)
Lemma raise_all_sites_samples lb times draws index e n : periodindex_to_multiindex lb times = Ok index ->
  (forall k v, In (k, v) draws -> exists sh, a_shape v = n :: sh) ->
  predict_all_sites_samples lb times draws = Err e <->
  e = ValueError /\ (draws = [] \/ exists k v, In (k, v) draws /\ List.length (a_flat v) <> (n * List.length index)%nat).
Proof.
  intros P S. unfold predict_all_sites_samples. rewrite P. cbn [bind].
  destruct draws as [|[name a] tl].
  - split; [intros [= <-]; tauto|]. now intros [-> _].
  - destruct (S name a (or_introl eq_refl)) as [sh ->].
    set (draws := (name, a) :: tl) in *.
    set (ok := fun kv : string * arr => (match a_shape (snd kv) with m :: _ => Nat.eqb m n | [] => false end && Nat.eqb (length (a_flat (snd kv))) (n * length index))%bool).
    assert (OK : forall k v, In (k, v) draws -> ok (k, v) = false <-> List.length (a_flat v) <> (n * List.length index)%nat).
    { intros k v I. unfold ok. cbn [snd]. destruct (S k v I) as [sh' ->]. rewrite Nat.eqb_refl. cbn [andb]. apply Nat.eqb_neq. }
    change (forallb _ draws) with (forallb ok draws).
    destruct (forallb ok draws) eqn:F.
    + split; [discriminate|]. rewrite forallb_forall in F. intros (_ & [[=]|(k & v & I & B)]).
      apply (OK k v I) in B. rewrite (F (k, v) I) in B. discriminate.
    + split; [|now intros [-> _]]. intros [= <-]. split; [reflexivity|]. right.
      assert (X : exists kv, In kv draws /\ ok kv = false).
      { clear -F. induction draws as [|kv l IH]; [discriminate|]. cbn in F. destruct (ok kv) eqn:O; [|exists kv; cbn; tauto].
        destruct (IH F) as (z & I & E). exists z. cbn. tauto. }
      destruct X as ([k v] & I & O). exists k, v. split; [exact I|]. now apply (OK k v I).
Qed.

Lemma no_obs {V} (draws : dict V) name : (forall a, ~ In (name, a) draws) -> dict_get draws name = None.
Proof.
  induction draws as [|[k v] l IH]; intros N; [reflexivity|]. cbn [dict_get].
  destruct (String.eqb_spec name k) as [<-|D]; [now elim (N v); left|]. apply IH. intros a I. apply (N a). now right.
Qed.

Lemma tab_get_none tab p : tab_get tab p = None <-> ~ In p (map fst tab).
Proof.
  induction tab as [|[q c] l IH]; cbn [tab_get map fst In]; [tauto|].
  destruct (path_eqb p q) eqn:E; [apply path_eqb_eq in E; subst q; split; [discriminate|tauto]|].
  rewrite IH. split; [|tauto]. intros N [<-|I]; [|tauto]. assert (F : path_eqb q q = true) by now apply path_eqb_eq. congruence.
Qed.

Lemma raise_scaling_in op discrete s (y : frame R) e : apply_scale op discrete s y = Err e <->
  discrete = false /\
  ((e = AttributeError /\ exists z, s = SInt z) \/
   exists tab, (s = STable tab \/ s = SSeries tab) /\
     ((e = ValueError /\ f_levels y = 0%nat) \/
      (e = KeyError /\ f_levels y <> 0%nat /\ exists r, In r (f_rows y) /\ ~ In (r_path r) (map fst tab)) \/
      (e = ValueError /\ s = SSeries tab /\ f_levels y <> 0%nat /\ (forall r, In r (f_rows y) -> In (r_path r) (map fst tab)) /\
        List.length (f_rows y) <> List.length (f_cols y)))).
Proof.
  rewrite raise_scaling.
  assert (A : forall tab, (exists r, In r (f_rows y) /\ tab_get tab (r_path r) = None) <-> exists r, In r (f_rows y) /\ ~ In (r_path r) (map fst tab)).
  { intros tab. split; intros (r & I & N); exists r; (split; [exact I|]); now apply tab_get_none. }
  assert (B : forall tab, (forall r, In r (f_rows y) -> tab_get tab (r_path r) <> None) <-> forall r, In r (f_rows y) -> In (r_path r) (map fst tab)).
  { intros tab. split; intros H r I; specialize (H r I).
    - destruct (in_dec (list_eq_dec string_dec) (r_path r) (map fst tab)) as [Y|N]; [exact Y|]. elim H. now apply tab_get_none.
    - intros N. apply tab_get_none in N. tauto. }
  split; intros (D & [H|(tab & T & H)]); (split; [exact D|]); [left; exact H|right|left; exact H|right]; exists tab; (split; [exact T|]).
  - rewrite <- A, <- B. exact H.
  - rewrite A, B. exact H.
Qed.
