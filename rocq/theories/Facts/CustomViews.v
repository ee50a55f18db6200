(** What the methods of user classes are called with (C95). *)
From Coq Require Import Reals String Bool ZArith List Lia Arith.
From Verif.Model Require Import Base Num Regex Frame Arr Expand Prog Likelihood Effect Forecaster Custom.
From Verif.Spec Require Import ForecasterSpec ComponentSpec CustomSpec.
From Verif.Facts Require Import BaseFacts FrameFacts ForecasterFacts ForecasterTransformer ProgFacts CustomFacts.
Import ListNotations.
Local Open Scope string_scope.

Lemma seen_restricted X cols XC : restricted X cols XC -> f_rows X <> [] -> columns_seen (Some XC) = cols.
Proof.
  intros (_ & C & F) N. cbn [columns_seen]. unfold frame_empty. rewrite C. destruct cols as [|c cols]; [reflexivity|].
  destruct (f_rows XC) as [|r rs]; [|reflexivity]. inversion F as [E|]. congruence.
Qed.

Lemma forall2_compose {A B C} (P : A -> B -> Prop) (Q : B -> C -> Prop) (T : A -> C -> Prop) l m n :
  Forall2 P l m -> Forall2 Q m n -> (forall a b c, P a b -> Q b c -> T a c) -> Forall2 T l n.
Proof. intros F. revert n. induction F as [|a b l m E F IH]; intros n G H0; inversion G; subst; constructor; eauto. Qed.

Lemma forall2_within {A B} (P Q : A -> B -> Prop) l m : Forall2 P l m -> (forall a b, In a l -> P a b -> Q a b) -> Forall2 Q l m.
Proof. intros F. induction F as [|a b l m E F IH]; intros H; constructor; [apply H; [now left|exact E]|]. apply IH. intros a' b' I. apply H. now right. Qed.

Section Views.
Context {S D : Type}.
Notation ueffect := (user_effect S D).
Notation ufitted := (user_fitted S D).

Lemma uncovered_iff cols (fs : list ufitted) c : In c (user_uncovered cols fs) <-> In c cols /\ forall f, In f fs -> ~ In c (snd f).
Proof.
  unfold user_uncovered. rewrite str_sort_In, strs_unique_In, filter_In, negb_true_iff. split; intros (I & E); (split; [exact I|]).
  - intros f Hf Hc. assert (existsb (fun f => str_in c (snd f)) fs = true); [|congruence]. apply existsb_exists. exists f. split; [exact Hf|]. now apply str_in_iff.
  - destruct (existsb (fun f => str_in c (snd f)) fs) eqn:B; [|reflexivity]. apply existsb_exists in B. destruct B as (f & Hf & Hc). apply str_in_iff in Hc. destruct (E f Hf Hc).
Qed.

Definition from_listed (y X : frame R) scale (l : user_listed S D) (f : ufitted) : Prop :=
  fst (fst f) = fst (fst l) /\ (forall c, In c (snd f) <-> In c (f_cols X) /\ matched (snd l) c) /\ fitted_on y X scale (snd (fst l)) (snd f) (snd (fst f)).

Lemma fit_called_on (u : ueffect) y X cols XC scale u' : frame_wf X -> select_columns 0%R X cols = Ok XC -> user_fit (user_clone u) y (Some XC) scale = (u', None) ->
  fitted_on y X scale u cols u'.
Proof.
  intros W E F. apply user_fit_called in F. destruct F as (C & _ & _ & F). split; [exact C|]. pose proof (select_restricted _ _ _ W E) as Q.
  exists XC, (columns_seen (Some XC)). split; [exact Q|]. split; [now apply seen_restricted|exact F].
Qed.

Lemma fit_effects_called default effs y X scale fitted : frame_wf X -> user_fit_effects default effs y (Some X) scale = Ok fitted ->
  exists fs rest, fitted = (fs ++ rest)%list /\ Forall2 (from_listed y X scale) effs fs /\
    ((rest = [] /\ forall c, In c (f_cols X) -> exists f, In f fs /\ In c (snd f)) \/
     (exists u' cols, rest = [(default_name, u', cols)] /\ cols <> [] /\ (forall c, In c cols <-> In c (f_cols X) /\ forall f, In f fs -> ~ In c (snd f)) /\
        fitted_on y X scale default cols u')).
Proof.
  intros W H. unfold user_fit_effects in H. destruct (mapM (user_fit_one y (Some X) scale) effs) as [fs|] eqn:M; [|discriminate H]. cbn [bind] in H. apply BaseFacts.mapM_ok in M.
  assert (F : Forall2 (from_listed y X scale) effs fs).
  { eapply Forall2_impl; [|exact M]. intros [[n u] re] [[n' u'] cols] E. unfold user_fit_one in E. destruct (match_columns (f_cols X) re) as [cs|] eqn:MC; [|discriminate E]. cbn [bind] in E.
    destruct (select_columns 0%R X cs) as [XC|] eqn:SC; [|discriminate E]. cbn [bind] in E. destruct (user_fit _ _ _ _) as [u1 [ex|]] eqn:FT; [discriminate E|]. injection E as <- <- <-.
    split; [reflexivity|]. split; [exact (ForecasterFacts.match_columns_In _ _ _ MC)|]. exact (fit_called_on _ _ _ _ _ _ _ W SC FT). }
  exists fs. destruct (user_uncovered (f_cols X) fs) as [|c cs] eqn:U.
  - injection H as <-. exists []. split; [now rewrite app_nil_r|]. split; [exact F|]. left. split; [reflexivity|]. intros c I.
    destruct (existsb (fun f => str_in c (snd f)) fs) eqn:B.
    + apply existsb_exists in B. destruct B as (f & Hf & Hc). apply str_in_iff in Hc. eauto.
    + exfalso. assert (Q : In c (user_uncovered (f_cols X) fs)); [|rewrite U in Q; destruct Q]. apply uncovered_iff. split; [exact I|]. intros f Hf Hc.
      assert (existsb (fun f => str_in c (snd f)) fs = true); [|congruence]. apply existsb_exists. exists f. split; [exact Hf|]. now apply str_in_iff.
  - destruct (select_columns 0%R X (c :: cs)) as [XC|] eqn:SC; [|discriminate H]. cbn [bind] in H. destruct (user_fit _ _ _ _) as [u1 [ex|]] eqn:FT; [discriminate H|]. injection H as <-.
    exists [(default_name, u1, c :: cs)]. split; [reflexivity|]. split; [exact F|]. right. exists u1, (c :: cs). split; [reflexivity|]. split; [discriminate|]. split.
    + intros c'. rewrite <- U. apply uncovered_iff.
    + exact (fit_called_on _ _ _ _ _ _ _ W SC FT).
Qed.

(** the columns an object remembers are those of its entry *)
Definition keeps_names (f : ufitted) : Prop := b_cols (ue_base (snd (fst f))) = Some (snd f).
Lemma fit_keeps_names (u : ueffect) y X scale u' name cols XC : frame_wf X -> f_rows X <> [] -> select_columns 0%R X cols = Ok XC -> user_fit u y (Some XC) scale = (u', None) -> keeps_names (name, u', cols).
Proof.
  intros W N E F. unfold user_fit in F. destruct (negb _ && _); [discriminate F|]. destruct (u_fit _ _ _ _ _ _) as [s [ex|]]; [discriminate F|]. injection F as <-.
  change (Some (columns_seen (Some XC)) = Some cols). f_equal. apply (seen_restricted X); [now apply select_restricted|exact N].
Qed.
Lemma fit_effects_names default effs y X scale fitted : frame_wf X -> f_rows X <> [] -> user_fit_effects default effs y (Some X) scale = Ok fitted -> forall f, In f fitted -> keeps_names f.
Proof.
  intros W N H f I. unfold user_fit_effects in H. destruct (mapM (user_fit_one y (Some X) scale) effs) as [l|] eqn:M; [|discriminate H]. cbn [bind] in H.
  assert (G : forall f, In f l -> keeps_names f).
  { intros g J. apply BaseFacts.mapM_ok in M. apply Forall2_In_both in M. destruct M as [_ M]. destruct (M g J) as ([[n u] re] & _ & E). unfold user_fit_one in E.
    destruct (match_columns _ _) as [cs|]; [|discriminate E]. cbn [bind] in E. destruct (select_columns 0%R X cs) as [XC|] eqn:SC; [|discriminate E]. cbn [bind] in E.
    destruct (user_fit _ _ _ _) as [u1 [ex|]] eqn:F; [discriminate E|]. injection E as <-. exact (fit_keeps_names _ _ _ _ _ _ _ _ W N SC F). }
  destruct (user_uncovered _ _) as [|c cs] eqn:U; [injection H as <-; now apply G|].
  destruct (select_columns 0%R X (c :: cs)) as [XC|] eqn:SC; [|discriminate H]. cbn [bind] in H. destruct (user_fit _ _ _ _) as [u1 [ex|]] eqn:F; [discriminate H|]. injection H as <-.
  apply in_app_or in I. destruct I as [I|[<-|[]]]; [now apply G|]. exact (fit_keeps_names _ _ _ _ _ _ _ _ W N SC F).
Qed.

Lemma view_of_view (u : ueffect) fh (X : frame R) levels cols : view_rows u fh (mkFrame levels cols (view_rows u fh X)) = view_rows u fh X.
Proof. unfold view_rows, in_horizon. destruct (u_filter (ue_class u)); [|reflexivity]. cbn [f_rows]. induction (f_rows X) as [|r rs IH]; [reflexivity|]. cbn [filter]. destruct (existsb _ fh) eqn:E; [|exact IH]. cbn [filter]. rewrite E. now rewrite IH. Qed.

Lemma transform_called_on (u : ueffect) X cols XC fh u' d : frame_wf X -> b_cols (ue_base u) = Some cols -> select_columns 0%R X cols = Ok XC ->
  user_transform u (Some XC) fh = (u', Ok (Some d)) -> prepared_from X fh u cols u' d.
Proof.
  intros W B E T. pose proof (select_restricted _ _ _ W E) as Q. pose proof Q as (L1 & C1 & F1).
  assert (WC : frame_wf XC).
  { apply Forall2_In_both in F1. destruct F1 as [_ F1]. intros r' Hr. destruct (F1 r' Hr) as (r & Hr0 & P & _ & V). split; [|rewrite P, L1; exact (proj2 (W r Hr0))]. rewrite C1. symmetry. exact (Forall2_len _ _ _ V). }
  destruct (user_transform_called _ _ _ _ _ WC T) as (cols' & XC' & B' & K1 & K2 & (L2 & C2 & F2) & UT). rewrite B in B'. injection B' as <-.
  split; [exact K1|]. split; [exact K2|]. exists XC'. split; [|exact UT]. cbn [f_levels f_cols f_rows] in *.
  split; [cbn [f_levels]; congruence|]. split; [exact C2|]. cbn [f_rows].
  refine (forall2_compose _ _ _ _ _ _ (restricted_view u fh X cols XC Q) F2 _). intros r r' r'' (P1 & T1 & V1) (P2 & T2 & V2). split; [congruence|]. split; [congruence|].
  clear -V1 V2 C1. assert (G : forall c v, In c cols -> cell (mkFrame (f_levels XC) (f_cols XC) (view_rows u fh XC)) r' c = Some v -> cell X r c = Some v).
  { intros c v Hc H. unfold cell in H at 1. cbn [f_cols] in H. rewrite C1, (cell_restricted X r cols (r_vals r') c V1 Hc) in H. exact H. }
  exact (forall2_within _ _ _ _ V2 G).
Qed.

Lemma transform_not_skipped (u u' : ueffect) X fh d : user_skips u = Ok false -> user_transform u X fh = (u', Ok d) -> exists d', d = Some d'.
Proof.
  intros K H. unfold user_transform in H. rewrite K in H. destruct (attr (b_fitted (ue_base u))) as [[]|]; [|discriminate H..].
  destruct (attr (b_cols (ue_base u))) as [cols|]; [|discriminate H]. destruct X as [X|]; [|discriminate H]. destruct (select_columns 0%R _ cols) as [XC|]; [|discriminate H].
  destruct (u_transform _ _ _ _ _) as [s [d'|]]; [|discriminate H]. injection H as _ <-. eauto.
Qed.

Lemma transform_effects_called (fitted : list ufitted) : forall X fh out fitted' d, frame_wf X -> (forall f, In f fitted -> keeps_names f) ->
  user_transform_effects fitted X fh out = (fitted', Ok d) ->
  Forall2 (fun f f' => fst (fst f') = fst (fst f) /\ snd f' = snd f /\
    ((user_skips (snd (fst f)) = Ok true /\ snd (fst f') = snd (fst f)) \/
     (user_skips (snd (fst f)) = Ok false /\ exists x, prepared_from X fh (snd (fst f)) (snd f) (snd (fst f')) x))) fitted fitted'.
Proof.
  induction fitted as [|[[name u] cols] rest IH]; intros X fh out fitted' d W K H; cbn [user_transform_effects] in H.
  - injection H as <- _. constructor.
  - assert (KR : forall f, In f rest -> keeps_names f) by (intros f I; apply K; now right). pose proof (K _ (or_introl eq_refl)) as KU. unfold keeps_names in KU. cbn [fst snd] in KU.
    destruct (user_skips u) as [[]|] eqn:SK; [| |discriminate H].
    + destruct (user_transform_effects rest X fh out) as [rest' r] eqn:E. injection H as <- ->. constructor; [|exact (IH _ _ _ _ _ W KR E)]. cbn [fst snd]. auto.
    + destruct (select_columns 0%R X cols) as [XC|] eqn:SC; [|discriminate H]. destruct (user_transform u (Some XC) fh) as [u' [x|]] eqn:T; [|discriminate H].
      destruct (user_transform_effects rest X fh (dict_set out name x)) as [rest' r] eqn:E. injection H as <- ->. constructor; [|exact (IH _ _ _ _ _ W KR E)]. cbn [fst snd].
      split; [reflexivity|]. split; [reflexivity|]. right. split; [exact SK|].
      assert (exists y, x = Some y) as (y & ->).
      { exact (transform_not_skipped _ _ _ _ _ SK T). }
      exists y. exact (transform_called_on _ _ _ _ _ _ _ W KU SC T).
Qed.

(** prepared data under the names of the effects *)
Lemma transform_effects_data (fitted : list ufitted) : forall X fh out fitted' d, user_transform_effects fitted X fh out = (fitted', Ok d) ->
  forall n, In n (map fst d) <-> In n (map fst out) \/ exists f, In f fitted /\ fst (fst f) = n /\ user_skips (snd (fst f)) = Ok false.
Proof.
  induction fitted as [|[[name u] cols] rest IH]; intros X fh out fitted' d H n; cbn [user_transform_effects] in H.
  - injection H as _ <-. split; [auto|]. intros [I|(f & [] & _)]. exact I.
  - destruct (user_skips u) as [[]|] eqn:SK; [| |discriminate H].
    + destruct (user_transform_effects rest X fh out) as [rest' r] eqn:E. injection H as _ ->. rewrite (IH _ _ _ _ _ E n). split; (intros [I|(f & I & N & Q)]; [now left|right]).
      * exists f. split; [now right|auto].
      * destruct I as [<-|I]; [cbn [fst snd] in Q; congruence|]. exists f. auto.
    + destruct (select_columns 0%R X cols) as [XC|]; [|discriminate H]. destruct (user_transform u (Some XC) fh) as [u' [x|]]; [|discriminate H].
      destruct (user_transform_effects rest X fh (dict_set out name x)) as [rest' r] eqn:E. injection H as _ ->. rewrite (IH _ _ _ _ _ E n), ProgFacts.dict_set_keys. split.
      * intros [[->|I]|(f & I & N & Q)]; [right|now left|right]; [exists (name, u, cols)|exists f]; cbn [fst snd]; (split; [|auto]); [now left|now right].
      * intros [I|(f & [<-|I] & N & Q)]; [left; now right|left; left; now symmetry|]. right. exists f. auto.
Qed.
End Views.
