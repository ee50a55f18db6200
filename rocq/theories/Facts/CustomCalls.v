(** In which order the methods of user classes are called (C96). *)
From Coq Require Import Reals String Bool ZArith List Lia Arith.
From Verif.Model Require Import Base Num Regex Frame Arr Expand Prog Likelihood Effect Forecaster Custom.
From Verif.Spec Require Import CustomSpec.
From Verif.Facts Require Import BaseFacts ForecasterFacts CustomFacts.
Import ListNotations.
Local Open Scope string_scope.

Section Fresh.
Context {S D : Type}.
Notation ueffect := (user_effect S D).

(** a fit starts from new objects: attributes of the listed objects do not matter *)
Definition same_listed (l l' : user_listed S D) : Prop :=
  fst (fst l) = fst (fst l') /\ ue_class (snd (fst l)) = ue_class (snd (fst l')) /\ snd l = snd l'.

Lemma fit_one_fresh y X scale l l' : same_listed l l' -> user_fit_one y X scale l = user_fit_one y X scale l'.
Proof. destruct l as [[n u] re], l' as [[n' u'] re']. intros (E1 & E2 & E3). cbn [fst snd] in E1, E2, E3. subst. unfold user_fit_one, user_clone. now rewrite E2. Qed.

Lemma fit_effects_fresh d d' effs effs' y X scale : ue_class d = ue_class d' -> Forall2 same_listed effs effs' ->
  user_fit_effects d effs y X scale = user_fit_effects d' effs' y X scale.
Proof.
  intros E F. unfold user_fit_effects. assert (M : mapM (user_fit_one y X scale) effs = mapM (user_fit_one y X scale) effs').
  { induction F as [|l l' effs effs' EL F IH]; [reflexivity|]. cbn [mapM]. now rewrite (fit_one_fresh y X scale l l' EL), IH. }
  rewrite M. unfold user_clone. now rewrite E.
Qed.
End Fresh.

Section Calls.
Context {S D : Type}.
Notation leffect := (user_effect (S * list call) D).
Definition is_logged (u : leffect) : Prop := exists c : user_class S D, ue_class u = logged c.

Definition called (f : user_fitted (S * list call) D) (k : nat) : Prop := calls (snd (fst f)) = CalledFit :: repeat CalledTransform k.

Lemma fit_calls (u : leffect) y X scale u' : is_logged u -> user_fit (user_clone u) y X scale = (u', None) -> calls u' = [CalledFit] /\ is_logged u'.
Proof.
  intros (c & C) F. unfold user_fit, user_clone, user_new in F. cbn [ue_class ue_state ue_base] in F. rewrite C in F. destruct (negb _ && _); [discriminate F|].
  cbn [logged u_fit u_init fst snd] in F. destruct (u_fit c _ _ _ _ _) as [s [ex|]]; [discriminate F|]. injection F as <-.
  split; [reflexivity|]. exists c. reflexivity.
Qed.

Lemma transform_calls (u u' : leffect) X fh r : is_logged u -> user_transform u X fh = (u', r) ->
  ue_class u' = ue_class u /\ ue_base u' = ue_base u /\
  ((u' = u /\ forall d, r <> Ok (Some d)) \/ calls u' = (calls u ++ [CalledTransform])%list).
Proof.
  intros (c & C) H. unfold user_transform in H. destruct (attr (b_fitted (ue_base u))) as [[]|]; [|injection H as <- <-; repeat split; left; split; [reflexivity|discriminate]..].
  destruct (user_skips u) as [[]|]; [injection H as <- <-; repeat split; left; split; [reflexivity|discriminate]| |injection H as <- <-; repeat split; left; split; [reflexivity|discriminate]].
  destruct (attr (b_cols (ue_base u))) as [cols|]; [|injection H as <- <-; repeat split; left; split; [reflexivity|discriminate]].
  destruct X as [X|]; [|injection H as <- <-; repeat split; left; split; [reflexivity|discriminate]].
  rewrite C in H. destruct (select_columns 0%R _ cols) as [XC|]; [|injection H as <- <-; repeat split; left; split; [reflexivity|discriminate]].
  cbn [logged u_transform] in H. destruct (u_transform c cols (fst (ue_state u)) XC fh) as [s r'] eqn:T. injection H as <- <-.
  split; [now rewrite C|]. split; [reflexivity|]. right. reflexivity.
Qed.

Lemma transform_some (u u' : user_effect (S * list call) D) X fh d : user_skips u = Ok false -> user_transform u X fh = (u', Ok d) -> exists d', d = Some d'.
Proof.
  intros K H. unfold user_transform in H. rewrite K in H. destruct (attr (b_fitted (ue_base u))) as [[]|]; [|discriminate H..].
  destruct (attr (b_cols (ue_base u))) as [cols|]; [|discriminate H]. destruct X as [X|]; [|discriminate H]. destruct (select_columns 0%R _ cols) as [XC|]; [|discriminate H].
  destruct (u_transform _ _ _ _ _) as [s [d'|]]; [|discriminate H]. injection H as _ <-. eauto.
Qed.

(** effect by effect: the same effect, later *)
Definition later (n : nat) (f f' : user_fitted (S * list call) D) : Prop :=
  fst (fst f') = fst (fst f) /\ snd f' = snd f /\ ue_class (snd (fst f')) = ue_class (snd (fst f)) /\ ue_base (snd (fst f')) = ue_base (snd (fst f)) /\
  exists k, k <= n /\ calls (snd (fst f')) = (calls (snd (fst f)) ++ repeat CalledTransform k)%list /\
    (user_skips (snd (fst f)) <> Ok false -> k = 0).
Definition exactly (n : nat) (f f' : user_fitted (S * list call) D) : Prop :=
  user_skips (snd (fst f)) = Ok false -> calls (snd (fst f')) = (calls (snd (fst f)) ++ repeat CalledTransform n)%list.

Lemma later_refl n f : later n f f.
Proof. repeat split. exists 0. split; [lia|]. split; [cbn [repeat]; now rewrite app_nil_r|reflexivity]. Qed.
Lemma later_refl_all n l : Forall2 (later n) l l.
Proof. induction l; constructor; [apply later_refl|assumption]. Qed.
Lemma skips_base (u u' : leffect) : ue_class u' = ue_class u -> ue_base u' = ue_base u -> user_skips u' = user_skips u.
Proof. intros E1 E2. unfold user_skips. now rewrite E1, E2. Qed.

Lemma transform_effects_calls fitted : forall X fh out fitted' r, (forall f, In f fitted -> is_logged (snd (fst f))) ->
  user_transform_effects fitted X fh out = (fitted', r) ->
  Forall2 (later 1) fitted fitted' /\ ((exists d, r = Ok d) -> Forall2 (exactly 1) fitted fitted').
Proof.
  induction fitted as [|[[name u] cols] rest IH]; intros X fh out fitted' r L H; cbn [user_transform_effects] in H.
  - injection H as <- <-. split; constructor.
  - assert (LR : forall f, In f rest -> is_logged (snd (fst f))) by (intros f I; apply L; now right).
    destruct (user_skips u) as [[]|] eqn:K.
    + destruct (user_transform_effects rest X fh out) as [rest' r'] eqn:E. injection H as <- <-. destruct (IH _ _ _ _ _ LR E) as [A B].
      split; [constructor; [apply later_refl|exact A]|]. intros G. constructor; [|now apply B]. intros Q. cbn [fst snd] in Q. congruence.
    + destruct (select_columns 0%R X cols) as [XC|].
      * destruct (user_transform u (Some XC) fh) as [u' [d|]] eqn:T.
        -- destruct (user_transform_effects rest X fh (dict_set out name d)) as [rest' r'] eqn:E. injection H as <- <-. destruct (IH _ _ _ _ _ LR E) as [A B].
           destruct (transform_calls _ _ _ _ _ (L _ (or_introl eq_refl)) T) as (C1 & C2 & C3). destruct (transform_some _ _ _ _ _ K T) as (d' & ->).
           destruct C3 as [[_ C3]|C3]; [exfalso; exact (C3 d' eq_refl)|]. split.
           ++ constructor; [|exact A]. repeat split; cbn [fst snd]; auto. exists 1. split; [lia|]. split; [exact C3|]. intros Q. congruence.
           ++ intros G. constructor; [|now apply B]. intros _. exact C3.
        -- injection H as <- <-. destruct (transform_calls _ _ _ _ _ (L _ (or_introl eq_refl)) T) as (C1 & C2 & C3). split; [|intros (d & Q); discriminate Q].
           constructor; [|apply later_refl_all]. repeat split; cbn [fst snd]; auto. destruct C3 as [[-> _]|C3].
           ++ exists 0. split; [lia|]. split; [cbn [repeat]; now rewrite app_nil_r|reflexivity].
           ++ exists 1. split; [lia|]. split; [exact C3|]. intros Q. congruence.
      * injection H as <- <-. split; [apply later_refl_all|intros (d & Q); discriminate Q].
    + injection H as <- <-. split; [apply later_refl_all|intros (d & Q); discriminate Q].
Qed.

Lemma forall2_trans3 {A B C} (P : A -> B -> Prop) (Q : B -> C -> Prop) (T : A -> C -> Prop) l m n :
  Forall2 P l m -> Forall2 Q m n -> (forall a b c, P a b -> Q b c -> T a c) -> Forall2 T l n.
Proof. intros F. revert n. induction F as [|a b l m E F IH]; intros n G T0; inversion G; subst; constructor; eauto. Qed.

Lemma after_calls uses : forall fitted, (forall f, In f fitted -> is_logged (snd (fst f))) ->
  Forall2 (later (List.length uses)) fitted (after_transforms fitted uses) /\
  (all_transformed fitted uses -> Forall2 (exactly (List.length uses)) fitted (after_transforms fitted uses)).
Proof.
  induction uses as [|[X fh] uses IH]; intros fitted L; cbn [after_transforms all_transformed List.length].
  - split; [apply later_refl_all|]. intros _. clear L. induction fitted; constructor; [|assumption]. intros _. cbn [repeat]. now rewrite app_nil_r.
  - destruct (user_transform_effects fitted X fh []) as [fitted1 r] eqn:E. cbn [fst snd]. destruct (transform_effects_calls _ _ _ _ _ _ L E) as [A B].
    assert (L1 : forall f, In f fitted1 -> is_logged (snd (fst f))).
    { intros f I. apply Forall2_In_both in A. destruct A as [_ A]. destruct (A f I) as (g & J & _ & _ & C & _). destruct (L g J) as (c & C0). exists c. congruence. }
    destruct (IH fitted1 L1) as [A' B']. split.
    + refine (forall2_trans3 _ _ _ _ _ _ A A' _). intros f g h (N1 & S1 & C1 & Q1 & k1 & K1 & G1 & Z1) (N2 & S2 & C2 & Q2 & k2 & K2 & G2 & Z2).
      split; [congruence|]. split; [congruence|]. split; [congruence|]. split; [congruence|]. exists (k1 + k2). split; [lia|]. split.
      * rewrite G2, G1, <- app_assoc. f_equal. now rewrite repeat_app.
      * intros H. rewrite (Z1 H). rewrite <- (skips_base _ _ C1 Q1) in H. now rewrite (Z2 H).
    + intros (O1 & O2). specialize (B O1). specialize (B' O2).
      refine (forall2_trans3 (fun f g => later 1 f g /\ exactly 1 f g) _ _ _ _ _ (forall2_join _ _ _ _ A B) B' _).
      intros f g h ((N1 & S1 & C1 & Q1 & _) & X1) X2 K. rewrite (X2 (eq_trans (skips_base _ _ C1 Q1) K)), (X1 K), <- app_assoc. reflexivity.
Qed.

Lemma fit_effects_calls default effs y X scale fitted : is_logged default -> (forall l, In l effs -> is_logged (snd (fst l))) ->
  user_fit_effects default effs y X scale = Ok fitted -> forall f, In f fitted -> called f 0 /\ is_logged (snd (fst f)).
Proof.
  intros LD L H f I. unfold user_fit_effects in H. destruct (mapM (user_fit_one y X scale) effs) as [l|] eqn:M; [|discriminate H]. cbn [bind] in H.
  assert (G : forall f, In f l -> called f 0 /\ is_logged (snd (fst f))).
  { intros g J. apply BaseFacts.mapM_ok in M. apply Forall2_In_both in M. destruct M as [_ M]. destruct (M g J) as ([[n u] re] & K & E). pose proof (L _ K) as LU. cbn [fst snd] in LU.
    unfold user_fit_one in E. destruct X as [X|].
    - destruct (match_columns _ _) as [cs|]; [|discriminate E]. cbn [bind] in E. destruct (select_columns 0%R X cs) as [XC|] eqn:SC; [|discriminate E]. cbn [bind] in E.
      destruct (user_fit _ _ _ _) as [u1 [ex|]] eqn:F; [discriminate E|]. injection E as <-. unfold called. cbn [fst snd]. destruct (fit_calls _ _ _ _ _ LU F) as [A B]. split; [exact A|exact B].
    - destruct (snd _); discriminate E. }
  destruct X as [X|]; [|injection H as <-; now apply G].
  destruct (user_uncovered _ _) as [|c cs] eqn:U; [injection H as <-; now apply G|].
  destruct (select_columns 0%R X (c :: cs)) as [XC|] eqn:SC; [|discriminate H]. cbn [bind] in H. destruct (user_fit _ _ _ _) as [u1 [ex|]] eqn:F; [discriminate H|]. injection H as <-.
  apply in_app_or in I. destruct I as [I|[<-|[]]]; [now apply G|]. unfold called. cbn [fst snd]. destruct (fit_calls _ _ _ _ _ LD F) as [A B]. split; [exact A|exact B].
Qed.

Lemma forall2_given {A B} (p : Prop) (P Q : A -> B -> Prop) l m : Forall2 P l m -> (p -> Forall2 Q l m) ->
  Forall2 (fun a b => P a b /\ (p -> Q a b) /\ In a l) l m.
Proof.
  intros F G. assert (H : forall l0, (forall a, In a l -> In a l0) -> Forall2 (fun a b => P a b /\ (p -> Q a b) /\ In a l0) l m).
  { intros l0. induction F as [|a b l m E F IH]; intros I; constructor.
    - split; [exact E|]. split; [|apply I; now left]. intros q. specialize (G q). inversion G; subst. assumption.
    - apply IH; [|intros x J; apply I; now right]. intros q. specialize (G q). inversion G; subst. assumption. }
  apply H. auto.
Qed.

Lemma c96_calls default effs y X scale fitted uses : is_logged default -> (forall l, In l effs -> is_logged (snd (fst l))) ->
  user_fit_effects default effs y X scale = Ok fitted ->
  Forall2 (fun f f' => fst (fst f') = fst (fst f) /\ exists k, k <= List.length uses /\ calls (snd (fst f')) = CalledFit :: repeat CalledTransform k /\
            (user_skips (snd (fst f)) <> Ok false -> k = 0) /\
            (user_skips (snd (fst f)) = Ok false -> all_transformed fitted uses -> k = List.length uses))
          fitted (after_transforms fitted uses).
Proof.
  intros LD L H. pose proof (fit_effects_calls _ _ _ _ _ _ LD L H) as G. assert (LF : forall f, In f fitted -> is_logged (snd (fst f))) by (intros f I; now apply G).
  destruct (after_calls uses fitted LF) as [A B].
  assert (C : Forall2 (fun f f' => later (List.length uses) f f' /\ (all_transformed fitted uses -> exactly (List.length uses) f f') /\ In f fitted) fitted (after_transforms fitted uses)).
  { exact (forall2_given _ _ _ _ _ A B). }
  eapply Forall2_impl; [|exact C]. intros f f' ((N & _ & _ & _ & k & K & E & Z) & X1 & I). destruct (G f I) as [CF _]. unfold called in CF. cbn [repeat] in CF.
  split; [exact N|]. exists k. rewrite CF in E. split; [exact K|]. split; [exact E|]. split; [exact Z|].
  intros Q T. specialize (X1 T Q). rewrite CF in X1. rewrite X1 in E. injection E as E. apply (f_equal (@List.length call)) in E. rewrite !repeat_length in E. lia.
Qed.
End Calls.
