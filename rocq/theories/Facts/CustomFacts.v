(** Effects written by users (C95-C97). *)
From Coq Require Import Reals String Bool ZArith List Lia Arith.
From Verif.Model Require Import Base Num Regex Frame Arr Expand Prog Likelihood Effect Forecaster Custom.
From Verif.Spec Require Import ForecasterSpec ComponentSpec CustomSpec.
From Verif.Facts Require Import BaseFacts FrameFacts ForecasterFacts ForecasterTransformer.
Import ListNotations.
Local Open Scope string_scope.

(** * Selected columns *)
Lemma cell_at (X : frame R) r c i : col_pos (f_cols X) c = Some i -> List.length (r_vals r) = List.length (f_cols X) ->
  cell X r c = Some (nth i (r_vals r) 0%R).
Proof.
  unfold cell. generalize (f_cols X) (r_vals r). intros cols. revert i. induction cols as [|c' cols IH]; intros i vals H L; [discriminate H|].
  destruct vals as [|v vals]; [discriminate L|]. cbn [combine dict_get]. cbn [col_pos] in H. destruct (String.eqb c c'); [injection H as <-; reflexivity|].
  destruct (col_pos cols c) as [j|]; [|discriminate H]. injection H as <-. cbn [nth]. apply IH; [reflexivity|]. now injection L.
Qed.

Lemma select_restricted (X XC : frame R) cols : frame_wf X -> select_columns 0%R X cols = Ok XC -> restricted X cols XC.
Proof.
  intros W H. unfold select_columns in H. destruct (mapM _ cols) as [pos|] eqn:M; [|discriminate H]. injection H as <-.
  apply BaseFacts.mapM_ok in M. split; [reflexivity|]. split; [reflexivity|]. cbn [f_rows].
  assert (G : forall r, In r (f_rows X) -> Forall2 (fun c v => cell X r c = Some v) cols (select_vals pos (r_vals r) 0%R)).
  { intros r I. destruct (W r I) as [L _]. unfold select_vals. clear -M L. induction M as [|c i cols pos E M IH]; cbn [map]; constructor; [|exact IH].
    apply cell_at; [|exact L]. destruct (col_pos (f_cols X) c); [congruence|discriminate E]. }
  clear W M. induction (f_rows X) as [|r rs IH]; cbn [map]; constructor.
  - split; [reflexivity|]. split; [reflexivity|]. cbn [r_vals]. apply G. now left.
  - apply IH. intros r' I. apply G. now right.
Qed.

Lemma restricted_same X X' cols A B : restricted X cols A -> restricted X' cols B -> same_values cols X X' (f_rows X) (f_rows X') -> A = B.
Proof.
  intros (LA & CA & FA) (LB & CB & FB) (L & _ & F). destruct A as [la ca ra], B as [lb cb rb]. cbn [f_levels f_cols f_rows] in *. subst.
  rewrite L. f_equal. revert rb FB. generalize dependent (f_rows X'). generalize dependent ra.
  induction (f_rows X) as [|r rs IH]; intros ra FA rs' F rb FB.
  - inversion FA; subst. inversion F; subst. inversion FB; subst. reflexivity.
  - inversion FA as [|? a ? ra' (P1 & T1 & V1) FA']; subst. inversion F as [|? r' ? rs2 (P & T & V) F']; subst. inversion FB as [|? b ? rb' (P2 & T2 & V2) FB']; subst.
    f_equal; [|now apply (IH ra' FA' rs2 F' rb' FB')].
    destruct a as [pa ta va], b as [pb tb vb]. cbn [r_path r_time r_vals] in *. subst. rewrite P, T. f_equal.
    assert (V' : forall c, In c cols -> cell X r c = cell X' r' c) by exact V. clear -V1 V2 V'. revert vb V2. induction V1 as [|c v cs vs E V1 IH]; intros vb V2; inversion V2; subst; [reflexivity|].
    f_equal.
    + rewrite (V' c (or_introl eq_refl)) in E. congruence.
    + apply IH; [intros d I; apply V'; now right|assumption].
Qed.

Lemma wf_filter (p : row R -> bool) (X : frame R) : frame_wf X -> frame_wf (filter_rows p X).
Proof. intros W r I. cbn [filter_rows f_rows] in I. apply filter_In in I. destruct I as [I _]. exact (W r I). Qed.

Lemma select_ok (X : frame R) cols : (forall c, In c cols -> In c (f_cols X)) -> exists XC, select_columns 0%R X cols = Ok XC.
Proof. intros H. now apply select_columns_iff. Qed.

Section Views.
Context {S D : Type}.
Notation uclass := (user_class S D).
Notation ueffect := (user_effect S D).


Lemma view_frame (u : ueffect) fh (X : frame R) : f_rows (if u_filter (ue_class u) then filter_fh fh X else X) = view_rows u fh X.
Proof. unfold view_rows, in_horizon, filter_fh, filter_rows. now destruct (u_filter (ue_class u)). Qed.

(** prepared data depend on the values of the effect's columns only *)
Lemma user_transform_same (u : ueffect) cols X X' fh : b_cols (ue_base u) = Some cols -> frame_wf X -> frame_wf X' ->
  same_values cols X X' (view_rows u fh X) (view_rows u fh X') ->
  user_transform u (Some X) fh = user_transform u (Some X') fh.
Proof.
  intros C W W' V. unfold user_transform. destruct (attr (b_fitted (ue_base u))) as [[]|]; [|reflexivity..].
  destruct (user_skips u) as [[]|]; [reflexivity| |reflexivity]. rewrite C. cbn [attr].
  set (Y := if u_filter (ue_class u) then filter_fh fh X else X). set (Y' := if u_filter (ue_class u) then filter_fh fh X' else X').
  assert (WY : frame_wf Y) by (unfold Y; destruct (u_filter (ue_class u)); [now apply wf_filter|exact W]).
  assert (WY' : frame_wf Y') by (unfold Y'; destruct (u_filter (ue_class u)); [now apply wf_filter|exact W']).
  assert (CY : f_cols Y = f_cols X) by (unfold Y; now destruct (u_filter (ue_class u))). assert (CY' : f_cols Y' = f_cols X') by (unfold Y'; now destruct (u_filter (ue_class u))).
  assert (LY : f_levels Y = f_levels X) by (unfold Y; now destruct (u_filter (ue_class u))). assert (LY' : f_levels Y' = f_levels X') by (unfold Y'; now destruct (u_filter (ue_class u))).
  destruct V as (L & I & F).
  destruct (select_ok Y cols) as (A & EA); [intros c Hc; rewrite CY; now apply I|]. destruct (select_ok Y' cols) as (B & EB); [intros c Hc; rewrite CY'; now apply I|].
  rewrite EA, EB. assert (A = B) as ->; [|reflexivity].
  apply (restricted_same Y Y' cols); [now apply select_restricted|now apply select_restricted|]. split; [congruence|]. split; [intros c Hc; rewrite CY, CY'; now apply I|].
  unfold Y at 2, Y' at 2. rewrite !view_frame. eapply Forall2_impl; [|exact F]. intros r r' (P & T & V). split; [exact P|]. split; [exact T|].
  intros c Hc. unfold cell. rewrite CY, CY'. exact (V c Hc).
Qed.

(** what the methods are given *)
Lemma user_fit_called (u : ueffect) y X scale u' : user_fit u y (Some X) scale = (u', None) ->
  ue_class u' = ue_class u /\ (u_multivariate (ue_class u) = true \/ f_levels X = 0%nat) /\
  (f_rows X <> [] -> ue_base u' = mkBase (Some (f_cols X)) (Some true)) /\
  u_fit (ue_class u) (columns_seen (Some X)) (ue_state u) y (Some X) scale = (ue_state u', None).
Proof.
  unfold user_fit. intros H. destruct (negb (u_multivariate (ue_class u)) && is_panel (Some X)) eqn:B; [discriminate H|].
  destruct (u_fit (ue_class u) _ (ue_state u) y (Some X) scale) as [s [ex|]]; [discriminate H|]. injection H as <-. cbn [ue_class ue_base ue_state].
  split; [reflexivity|]. split; [|split; [intros N; change (if frame_empty X then [] else f_cols X) with (columns_seen (Some X)); now rewrite columns_seen_rows|reflexivity]].
  apply andb_false_iff in B. destruct B as [B|B]; [left; now destruct (u_multivariate (ue_class u))|]. right. unfold is_panel in B. destruct (Nat.eqb_spec (f_levels X) 0); [assumption|discriminate B].
Qed.

Lemma user_fit_one_called (y X : frame R) scale name (u : ueffect) regex name' u' cols : frame_wf X ->
  user_fit_one y (Some X) scale (name, u, regex) = Ok (name', u', cols) ->
  name' = name /\ (forall c, In c cols <-> In c (f_cols X) /\ matched regex c) /\ ue_class u' = ue_class u /\
  exists XC, restricted X cols XC /\ u_fit (ue_class u) (columns_seen (Some XC)) (u_init (ue_class u)) y (Some XC) scale = (ue_state u', None).
Proof.
  intros W H. unfold user_fit_one in H. destruct (match_columns (f_cols X) regex) as [cs|] eqn:M; [|discriminate H]. cbn [bind] in H.
  destruct (select_columns 0%R X cs) as [XC|] eqn:E; [|discriminate H]. cbn [bind] in H.
  destruct (user_fit (user_clone u) y (Some XC) scale) as [u1 [ex|]] eqn:F; [discriminate H|]. injection H as <- <- <-.
  split; [reflexivity|]. split; [exact (ForecasterFacts.match_columns_In _ _ _ M)|]. apply user_fit_called in F. destruct F as (C & _ & _ & F).
  split; [exact C|]. exists XC. split; [now apply select_restricted|exact F].
Qed.

Lemma user_transform_called (u : ueffect) X fh d u' : frame_wf X -> user_transform u (Some X) fh = (u', Ok (Some d)) ->
  exists cols XC, b_cols (ue_base u) = Some cols /\ ue_class u' = ue_class u /\ ue_base u' = ue_base u /\
    restricted (mkFrame (f_levels X) (f_cols X) (view_rows u fh X)) cols XC /\
    u_transform (ue_class u) cols (ue_state u) XC fh = (ue_state u', Ok d).
Proof.
  intros W. unfold user_transform. destruct (attr (b_fitted (ue_base u))) as [[]|]; [|discriminate..].
  destruct (user_skips u) as [[]|]; [discriminate| |discriminate]. destruct (b_cols (ue_base u)) as [cols|]; [|discriminate]. cbn [attr].
  set (Y := if u_filter (ue_class u) then filter_fh fh X else X). destruct (select_columns 0%R Y cols) as [XC|] eqn:E; [|discriminate].
  destruct (u_transform (ue_class u) cols (ue_state u) XC fh) as [s [d'|]] eqn:T; [|discriminate]. cbn [bind]. intros [= <- ->]. exists cols, XC.
  split; [reflexivity|]. split; [reflexivity|]. split; [reflexivity|]. split; [|exact T].
  assert (EY : Y = mkFrame (f_levels X) (f_cols X) (view_rows u fh X)). { unfold Y, view_rows, filter_fh, filter_rows, in_horizon. destruct (u_filter (ue_class u)); [reflexivity|]. now destruct X. }
  rewrite <- EY. apply select_restricted; [|exact E]. unfold Y. destruct (u_filter (ue_class u)); [now apply wf_filter|exact W].
Qed.
End Views.

(** * The table restricted twice *)
Lemma cell_restricted (X : frame R) r cols vals c : Forall2 (fun c v => cell X r c = Some v) cols vals -> In c cols ->
  dict_get (combine cols vals) c = cell X r c.
Proof.
  induction 1 as [|c' v cols vals E F IH]; intros I; [destruct I|]. cbn [combine dict_get]. destruct (String.eqb c c') eqn:Q.
  - apply String.eqb_eq in Q. subst. now symmetry.
  - apply IH. destruct I as [->|I]; [now rewrite String.eqb_refl in Q|exact I].
Qed.

Lemma forall2_filter {A B} (P : A -> B -> Prop) (p : A -> bool) (q : B -> bool) l m : Forall2 P l m -> (forall a b, P a b -> p a = q b) ->
  Forall2 P (filter p l) (filter q m).
Proof.
  intros F H. induction F as [|a b l m E F IH]; cbn [filter]; [constructor|]. rewrite <- (H a b E). destruct (p a); [constructor; assumption|assumption].
Qed.

Lemma forall2_flip3 {A B C} (P : A -> B -> Prop) (Q : A -> C -> Prop) (Rr : B -> C -> Prop) l m n :
  Forall2 P l m -> Forall2 Q l n -> (forall a b c, P a b -> Q a c -> Rr b c) -> Forall2 Rr m n.
Proof.
  intros F. revert n. induction F as [|a b l m E F IH]; intros n G H; inversion G; subst; constructor; [eapply H; eassumption|]. apply IH; assumption.
Qed.

Section Lists.
Context {S D : Type}.
Notation ueffect := (user_effect S D).

Lemma restricted_view (u : ueffect) fh X cols XC : restricted X cols XC ->
  Forall2 (fun r r' => r_path r' = r_path r /\ r_time r' = r_time r /\ Forall2 (fun c v => cell X r c = Some v) cols (r_vals r')) (view_rows u fh X) (view_rows u fh XC).
Proof.
  intros (_ & _ & F). unfold view_rows, in_horizon. destruct (u_filter (ue_class u)); [|exact F].
  apply (forall2_filter _ _ _ _ _ F). intros r r' (_ & T & _). now rewrite T.
Qed.

Lemma select_cell X cols XC r r' c : f_cols XC = cols -> Forall2 (fun c v => cell X r c = Some v) cols (r_vals r') -> In c cols -> cell XC r' c = cell X r c.
Proof. intros C F I. unfold cell at 1. rewrite C. now apply cell_restricted. Qed.

Lemma forall2_join {A B} (P Q : A -> B -> Prop) l m : Forall2 P l m -> Forall2 Q l m -> Forall2 (fun a b => P a b /\ Q a b) l m.
Proof. intros F. induction F; intros G; inversion G; subst; constructor; auto. Qed.

Lemma user_transform_twice (u : ueffect) cols cols' X X' XC XC' fh : b_cols (ue_base u) = Some cols' -> (forall c, In c cols' -> In c cols) ->
  frame_wf X -> frame_wf X' -> select_columns 0%R X cols = Ok XC -> select_columns 0%R X' cols = Ok XC' ->
  same_values cols X X' (view_rows u fh X) (view_rows u fh X') -> user_transform u (Some XC) fh = user_transform u (Some XC') fh.
Proof.
  intros C SUB W W' E E' (L & I & F). pose proof (select_restricted _ _ _ W E) as Q. pose proof (select_restricted _ _ _ W' E') as Q'.
  assert (WC : frame_wf XC).
  { destruct Q as (L1 & C1 & F1). apply Forall2_In_both in F1. destruct F1 as [_ F1]. intros r' Hr. destruct (F1 r' Hr) as (r & Hr0 & P & _ & V).
    destruct (W r Hr0) as [_ W1]. split; [rewrite C1; symmetry; exact (Forall2_len _ _ _ V)|now rewrite P, L1]. }
  assert (WC' : frame_wf XC').
  { destruct Q' as (L1 & C1 & F1). apply Forall2_In_both in F1. destruct F1 as [_ F1]. intros r' Hr. destruct (F1 r' Hr) as (r & Hr0 & P & _ & V).
    destruct (W' r Hr0) as [_ W1]. split; [rewrite C1; symmetry; exact (Forall2_len _ _ _ V)|now rewrite P, L1]. }
  apply (user_transform_same u cols'); [exact C|exact WC|exact WC'|]. pose proof (restricted_view u fh _ _ _ Q) as V. pose proof (restricted_view u fh _ _ _ Q') as V'.
  destruct Q as (L1 & C1 & _), Q' as (L1' & C1' & _). split; [congruence|]. split; [intros c Hc; rewrite C1, C1'; split; now apply SUB|].
  assert (V2 : Forall2 (fun r' s => r_path s = r_path r' /\ r_time s = r_time r' /\ forall c, In c cols' -> cell XC s c = cell X' r' c) (view_rows u fh X') (view_rows u fh XC)).
  { clear V'. refine (forall2_flip3 _ _ _ _ _ _ F V _). intros r r' s (P & T & G) (P2 & T2 & G2). split; [congruence|]. split; [congruence|]. intros c Hc.
    rewrite (select_cell X cols XC r s c C1 G2 (SUB c Hc)). exact (G c (SUB c Hc)). }
  refine (forall2_flip3 _ _ _ _ _ _ V2 V' _). intros r' s s' (P & T & G) (P2 & T2 & G2). split; [congruence|]. split; [congruence|]. intros c Hc.
  rewrite (G c Hc). symmetry. exact (select_cell X' cols XC' r' s' c C1' G2 (SUB c Hc)).
Qed.

(** the columns an effect has been given are those it remembers, or it remembers none (no rows) *)
Definition remembers (f : user_fitted S D) : Prop := exists cols', b_cols (ue_base (snd (fst f))) = Some cols' /\ forall c, In c cols' -> In c (snd f).

Lemma user_fit_remembers (u : ueffect) y X scale u' name cols XC : select_columns 0%R X cols = Ok XC -> user_fit u y (Some XC) scale = (u', None) -> remembers (name, u', cols).
Proof.
  intros E F. unfold user_fit in F. destruct (negb _ && _); [discriminate F|]. destruct (u_fit _ _ _ _ _ _) as [s [ex|]]; [discriminate F|]. injection F as <-.
  exists (columns_seen (Some XC)). split; [reflexivity|]. cbn [snd]. apply select_columns_cols in E. destruct E as (C & _). intros c. cbn [columns_seen]. destruct (frame_empty XC); [intros []|now rewrite C].
Qed.

Lemma user_fit_effects_remember default effs y X scale fitted : user_fit_effects default effs y (Some X) scale = Ok fitted -> forall f, In f fitted -> remembers f.
Proof.
  unfold user_fit_effects. intros H f I. destruct (mapM _ effs) as [l|] eqn:M; [|discriminate H]. cbn [bind] in H.
  assert (G : forall f, In f l -> remembers f).
  { intros g J. apply BaseFacts.mapM_ok in M. apply Forall2_In_both in M. destruct M as [_ M]. destruct (M g J) as ([[n u] re] & _ & E). unfold user_fit_one in E.
    destruct (match_columns _ _) as [cs|]; [|discriminate E]. cbn [bind] in E. destruct (select_columns 0%R X cs) as [XC|] eqn:SC; [|discriminate E]. cbn [bind] in E.
    destruct (user_fit _ _ _ _) as [u1 [ex|]] eqn:F; [discriminate E|]. injection E as <-. exact (user_fit_remembers _ _ _ _ _ _ _ _ SC F). }
  destruct (user_uncovered _ _) as [|c cs] eqn:U; [injection H as <-; now apply G|].
  destruct (select_columns 0%R X (c :: cs)) as [XC|] eqn:SC; [|discriminate H]. cbn [bind] in H. destruct (user_fit _ _ _ _) as [u1 [ex|]] eqn:F; [discriminate H|]. injection H as <-.
  apply in_app_or in I. destruct I as [I|[<-|[]]]; [now apply G|]. exact (user_fit_remembers _ _ _ _ _ _ _ _ SC F).
Qed.

Lemma user_transform_effects_same fitted : forall X X' fh out, frame_wf X -> frame_wf X' -> (forall f, In f fitted -> remembers f) ->
  (forall f, In f fitted -> same_values (snd f) X X' (view_rows (snd (fst f)) fh X) (view_rows (snd (fst f)) fh X')) ->
  user_transform_effects fitted X fh out = user_transform_effects fitted X' fh out.
Proof.
  induction fitted as [|[[name u] cols] rest IH]; intros X X' fh out W W' RM V; [reflexivity|]. cbn [user_transform_effects].
  assert (T : forall out, user_transform_effects rest X fh out = user_transform_effects rest X' fh out).
  { intros o. apply IH; [exact W|exact W'| |]; intros f I; [apply RM|apply V]; now right. }
  destruct (user_skips u) as [[]|]; [now rewrite T| |reflexivity].
  pose proof (V _ (or_introl eq_refl)) as V0. cbn [fst snd] in V0. destruct (RM _ (or_introl eq_refl)) as (cols' & C & SUB). cbn [fst snd] in C, SUB.
  destruct (select_ok X cols) as (XC & E); [intros c Hc; now apply V0|]. destruct (select_ok X' cols) as (XC' & E'); [intros c Hc; now apply V0|]. rewrite E, E'.
  rewrite (user_transform_twice u cols cols' X X' XC XC' fh C SUB W W' E E' V0). destruct (user_transform u (Some XC') fh) as [u' [d|]]; [now rewrite T|reflexivity].
Qed.
End Lists.
