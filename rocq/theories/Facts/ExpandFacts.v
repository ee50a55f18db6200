(** Facts about Model/Expand.v *)
From Coq Require Import String Ascii Bool ZArith Lia List Permutation.
From Verif.Model Require Import Base Regex Frame Expand.
From Verif.Spec Require Import FrameSpec RegexSpec.
From Verif.Facts Require Import BaseFacts RegexFacts.
Import ListNotations.

Section Lookup.
Context {V : Type}.
Implicit Types (vals : list V).

Lemma col_pos_None cols c : col_pos cols c = None <-> ~ In c cols.
Proof.
  induction cols as [|x cols IH]; simpl; [tauto|].
  destruct (String.eqb_spec c x) as [->|N]; [intuition congruence|].
  destruct (col_pos cols c); simpl; intuition congruence.
Qed.

Lemma col_pos_nth cols c i : col_pos cols c = Some i -> nth_error cols i = Some c.
Proof.
  revert i. induction cols as [|x cols IH]; simpl; [discriminate|]. intros i.
  destruct (String.eqb_spec c x) as [->|N]; [intros [= <-]; reflexivity|].
  destruct (col_pos cols c); simpl; [|discriminate]. intros [= <-]. simpl. now apply IH.
Qed.

Lemma value_of_pos cols vals c i :
  length vals = length cols -> col_pos cols c = Some i -> value_of cols vals c = nth_error vals i.
Proof.
  revert vals i. induction cols as [|x cols IH]; intros [|v vals] i L; simpl in *; try discriminate.
  destruct (String.eqb_spec c x); [intros [= <-]; reflexivity|].
  destruct (col_pos cols c) eqn:E; simpl; [|discriminate]. intros [= <-]. simpl. apply IH; auto.
Qed.

Lemma value_of_not_in cols vals c : ~ In c cols -> value_of cols vals c = None.
Proof.
  revert vals. induction cols as [|x cols IH]; intros [|v vals] H; simpl in *; try reflexivity.
  destruct (String.eqb_spec c x); [subst; tauto|]. apply IH. tauto.
Qed.

Lemma value_of_app cols vals n v c :
  length vals = length cols -> ~ In n cols ->
  value_of (cols ++ [n]) (vals ++ [v]) c = if String.eqb c n then Some v else value_of cols vals c.
Proof.
  revert vals. induction cols as [|x cols IH]; intros [|w vals] L H; simpl in *; try discriminate.
  - reflexivity.
  - rewrite IH by (auto; tauto). destruct (String.eqb_spec c x) as [->|N]; [|reflexivity].
    destruct (String.eqb_spec x n); [subst; tauto|reflexivity].
Qed.

Lemma set_nth_length i (v : V) l : length (set_nth i v l) = length l.
Proof.
  unfold set_nth. rewrite app_length, firstn_length.
  destruct (skipn i l) as [|x tl] eqn:E.
  - assert (length (skipn i l) = 0) by now rewrite E. rewrite skipn_length in *. simpl. lia.
  - assert (length (skipn i l) = S (length tl)) by now rewrite E. rewrite skipn_length in *. simpl. lia.
Qed.

Lemma set_nth_S i (v x : V) l : set_nth (S i) v (x :: l) = x :: set_nth i v l.
Proof. reflexivity. Qed.

Lemma value_of_set cols vals n i v c :
  length vals = length cols -> col_pos cols n = Some i ->
  value_of cols (set_nth i v vals) c = if String.eqb c n then Some v else value_of cols vals c.
Proof.
  revert vals i. induction cols as [|x cols IH]; intros [|w vals] i L; simpl in *; try discriminate.
  destruct (String.eqb_spec n x) as [->|N].
  - intros [= <-]. cbn. destruct (String.eqb_spec c x); reflexivity.
  - destruct (col_pos cols n) as [j|] eqn:E; simpl; [|discriminate]. intros [= <-].
    rewrite set_nth_S. rewrite (IH vals j) by auto.
    destruct (String.eqb_spec c x) as [->|N2]; [|reflexivity].
    destruct (String.eqb_spec x n); [congruence|reflexivity].
Qed.

Lemma value_of_drop keepf cols vals c :
  length vals = length cols -> 
  value_of (map snd (filter fst (combine (map keepf cols) cols)))
           (map snd (filter fst (combine (map keepf cols) vals))) c =
  if keepf c then value_of cols vals c else None.
Proof.
  revert vals. induction cols as [|x cols IH]; intros [|w vals] L; simpl in *; try discriminate.
  - destruct (keepf c); reflexivity.
  - destruct (keepf x) eqn:E; simpl.
    + rewrite IH by auto. destruct (String.eqb_spec c x) as [->|N]; [now rewrite E|reflexivity].
    + rewrite IH by auto. destruct (String.eqb_spec c x) as [->|N]; [now rewrite E|reflexivity].
Qed.

Lemma combine_map_filter {A} (keepf : A -> bool) l :
  map snd (filter fst (combine (map keepf l) l)) = filter keepf l.
Proof.
  induction l as [|x l IH]; simpl; [reflexivity|]. destruct (keepf x); simpl; now rewrite IH.
Qed.

Lemma drop_length (keepf : string -> bool) cols vals :
  length vals = length cols ->
  length (map snd (filter fst (combine (map keepf cols) vals))) =
  length (map snd (filter fst (combine (map keepf cols) cols))).
Proof.
  revert vals. induction cols as [|x cols IH]; intros [|w vals] L; simpl in *; try discriminate; auto.
  destruct (keepf x); simpl; auto.
Qed.
End Lookup.

Lemma filter_all {A} (l : list A) : filter (fun _ => true) l = l.
Proof. induction l; simpl; congruence. Qed.

Section Expand.
Context {V : Type} (zero : V) (isna : V -> bool).
Hypothesis zero_not_na : isna zero = false.

Definition pname (p : string * path) : string := get_col_name (fst p) (snd p).

(** X' has the rows of X and its cells are described by h *)
Definition Inv (h : row V -> string -> option V) (X X' : frame V) : Prop :=
  f_levels X' = f_levels X /\
  Forall2 (fun r r' => r_path r' = r_path r /\ r_time r' = r_time r /\
                       length (r_vals r') = length (f_cols X') /\
                       forall c, value_of (f_cols X') (r_vals r') c = h r c)
          (f_rows X) (f_rows X').

Definition base (X : frame V) (r : row V) (c : string) := value_of (f_cols X) (r_vals r) c.

Lemma Inv_base X : frame_wf X -> Inv (base X) X X.
Proof.
  intros W. split; [reflexivity|]. unfold base.
  assert (H : forall r, In r (f_rows X) -> length (r_vals r) = length (f_cols X))
    by (intros r Hr; apply W; assumption).
  revert H. generalize (f_rows X) as rows. intros rows. induction rows as [|r rows IH]; intros H;
  constructor; [|apply IH; intros; apply H; simpl; auto].
  repeat split; auto. apply H; simpl; auto.
Qed.

Lemma Forall2_map_r {A B C} (P : A -> C -> Prop) (g : B -> C) l l' :
  Forall2 (fun a b => P a (g b)) l l' -> Forall2 P l (map g l').
Proof. induction 1; simpl; constructor; auto. Qed.

Lemma Forall2_impl {A B} (P Q : A -> B -> Prop) l l' :
  (forall a b, In a l -> P a b -> Q a b) -> Forall2 P l l' -> Forall2 Q l l'.
Proof.
  intros H F. induction F; constructor; [apply H; simpl; auto|].
  apply IHF. intros. apply H; simpl; auto.
Qed.

Lemma Inv_set_col h X X' n :
  Inv h X X' ->
  Inv (fun r c => if String.eqb c n then Some zero else h r c) X (set_col X' n (fun _ => zero)).
Proof.
  intros [L F]. unfold set_col. destruct (col_pos (f_cols X') n) as [i|] eqn:E.
  - split; [assumption|]. cbn. apply Forall2_map_r.
    eapply Forall2_impl; [|exact F]. cbn. intros r r' _ (P & T & Len & H).
    repeat split; auto. { now rewrite set_nth_length. }
    intros c. rewrite (value_of_set _ _ n) by auto. now rewrite H.
  - apply col_pos_None in E. split; [assumption|]. cbn. apply Forall2_map_r.
    eapply Forall2_impl; [|exact F]. cbn. intros r r' _ (P & T & Len & H).
    repeat split; auto. { rewrite !app_length; simpl; lia. }
    intros c. rewrite value_of_app by auto. now rewrite H.
Qed.

Lemma set_col_cols (X : frame V) n g :
  f_cols (set_col X n g) = if str_in n (f_cols X) then f_cols X else f_cols X ++ [n].
Proof.
  unfold set_col. destruct (col_pos (f_cols X) n) as [i|] eqn:E; cbn.
  - assert (str_in n (f_cols X) = true) as ->; [|reflexivity].
    apply str_in_iff. apply col_pos_nth in E. eapply nth_error_In; eauto.
  - apply col_pos_None in E. apply str_in_false in E. now rewrite E.
Qed.

Lemma Forall2_combine_map {A B C} (P : A -> C -> Prop) (Q : A -> B -> Prop) (g : B * A -> C) l l' :
  Forall2 Q l l' -> (forall a b, In a l -> Q a b -> P a (g (b, a))) ->
  Forall2 P l (map g (combine l' l)).
Proof.
  intros F H. induction F; simpl; constructor; [apply H; simpl; auto | apply IHF; intros; apply H; simpl; auto].
Qed.

Lemma Inv_copy h X X' X2 c i :
  frame_wf X -> Inv h X X' ->
  copy_column zero isna X X' c i = Ok X2 ->
  f_cols X2 = f_cols X' /\
  Inv (fun r c' => if String.eqb c' (get_col_name c i)
                   then option_map (fillna zero isna)
                          (if path_eqb (r_path r) i then base X r c else h r c')
                   else h r c') X X2.
Proof.
  intros W [L F]. unfold copy_column.
  destruct (col_pos (f_cols X) c) as [src|] eqn:Es; [|discriminate].
  destruct (col_pos (f_cols X') (get_col_name c i)) as [dst|] eqn:Ed; [|discriminate].
  intros [= <-]. split; [reflexivity|]. split; [assumption|]. cbn.
  eapply Forall2_combine_map; [exact F|]. intros r r' Hr (P & T & Len & H). cbn.
  repeat split; auto. { now rewrite set_nth_length. }
  intros c'. rewrite (value_of_set _ _ (get_col_name c i)) by auto. rewrite H.
  destruct (String.eqb_spec c' (get_col_name c i)) as [->|N]; [|reflexivity].
  rewrite P. destruct (path_eqb (r_path r) i).
  - unfold base, get_val. destruct (W r Hr) as [Lr _]. rewrite (value_of_pos _ _ _ src) by auto.
    assert (HL : src < length (r_vals r)).
    { rewrite Lr. apply nth_error_Some. rewrite (col_pos_nth _ _ _ Es). discriminate. }
    rewrite (nth_error_nth' _ zero HL). reflexivity.
  - rewrite <- H. rewrite (value_of_pos _ _ _ dst) by auto. unfold get_val.
    assert (HL : dst < length (r_vals r')).
    { rewrite Len. apply nth_error_Some. rewrite (col_pos_nth _ _ _ Ed). discriminate. }
    rewrite (nth_error_nth' _ zero HL). reflexivity.
Qed.

Lemma copy_column_ok X X' c i :
  In c (f_cols X) -> In (get_col_name c i) (f_cols X') ->
  exists X2, copy_column zero isna X X' c i = Ok X2.
Proof.
  intros H1 H2. unfold copy_column.
  destruct (col_pos (f_cols X) c) eqn:E1; [|apply col_pos_None in E1; tauto].
  destruct (col_pos (f_cols X') (get_col_name c i)) eqn:E2; [|apply col_pos_None in E2; tauto].
  eauto.
Qed.

(** ** loops as folds over pairs *)
Definition zero_pairs (matched : list string) (ids : list path) : list (string * path) :=
  flat_map (fun m => map (fun i => (m, i)) ids) matched.
Definition copy_pairs (matched : list string) (ids : list path) : list (string * path) :=
  flat_map (fun i => map (fun c => (c, i)) matched) ids.

Lemma fold_left_flat_map {A B C} (f : C -> B -> C) (g : A -> list B) l c :
  fold_left f (flat_map g l) c = fold_left (fun c a => fold_left f (g a) c) l c.
Proof. revert c. induction l as [|a l IH]; intros c; simpl; [reflexivity|]. now rewrite fold_left_app, IH. Qed.

Lemma fold_left_map {A B C} (f : C -> B -> C) (g : A -> B) l c :
  fold_left f (map g l) c = fold_left (fun c a => f c (g a)) l c.
Proof. revert c. induction l; intros c; simpl; auto. Qed.

Lemma foldM_app {A S} (f : S -> A -> res S) l1 l2 s :
  foldM f s (l1 ++ l2) = (s' <- foldM f s l1 ;; foldM f s' l2).
Proof. revert s. induction l1 as [|x l1 IH]; intros s; simpl; [reflexivity|]. destruct (f s x); simpl; auto. Qed.

Lemma foldM_map {A B S} (f : S -> B -> res S) (g : A -> B) l s :
  foldM f s (map g l) = foldM (fun s a => f s (g a)) s l.
Proof. revert s. induction l as [|x l IH]; intros s; simpl; [reflexivity|]. destruct (f s (g x)); simpl; auto. Qed.

Lemma foldM_flat_map {A B S} (f : S -> B -> res S) (g : A -> list B) l s :
  foldM f s (flat_map g l) = foldM (fun s a => foldM f s (g a)) s l.
Proof.
  revert s. induction l as [|a l IH]; intros s; simpl; [reflexivity|]. rewrite foldM_app.
  destruct (foldM f s (g a)); simpl; auto.
Qed.

Lemma add_zero_pairs matched ids X :
  add_zero_columns zero matched ids X =
  fold_left (fun X p => set_col X (pname p) (fun _ => zero)) (zero_pairs matched ids) X.
Proof.
  unfold add_zero_columns, zero_pairs. rewrite fold_left_flat_map.
  revert X. induction matched as [|m matched IH]; intros X; simpl; [reflexivity|].
  rewrite fold_left_map. apply IH.
Qed.

Lemma copy_columns_pairs matched ids Xo X :
  copy_columns zero isna matched ids Xo X =
  foldM (fun X p => copy_column zero isna Xo X (fst p) (snd p)) X (copy_pairs matched ids).
Proof.
  unfold copy_columns, copy_pairs. rewrite foldM_flat_map.
  revert X. induction ids as [|i ids IH]; intros X; simpl; [reflexivity|].
  rewrite foldM_map. simpl. destruct (foldM _ X matched); simpl; auto.
Qed.

Lemma add_zero_Inv X ps : forall h X', Inv h X X' ->
  Inv (fun r c => if str_in c (map pname ps) then Some zero else h r c) X
      (fold_left (fun X p => set_col X (pname p) (fun _ => zero)) ps X').
Proof.
  induction ps as [|p ps IH]; intros h X' H; simpl; [exact H|].
  pose proof (IH _ _ (Inv_set_col _ _ _ (pname p) H)) as G.
  destruct G as [L F]. split; [assumption|]. eapply Forall2_impl; [|exact F].
  cbn. intros r r' _ (P & T & Len & Hc). repeat split; auto.
  intros c. rewrite Hc. destruct (String.eqb_spec c (pname p)) as [->|N]; cbn.
  - destruct (str_in (pname p) (map pname ps)); reflexivity.
  - reflexivity.
Qed.

Lemma add_zero_cols ps : forall X' : frame V,
  NoDup (f_cols X' ++ map pname ps) ->
  f_cols (fold_left (fun X p => set_col X (pname p) (fun _ => zero)) ps X')
  = f_cols X' ++ map pname ps.
Proof.
  induction ps as [|p ps IH]; intros X' N; simpl; [now rewrite app_nil_r|].
  assert (E : f_cols (set_col X' (pname p) (fun _ => zero)) = f_cols X' ++ [pname p]).
  { rewrite set_col_cols. assert (str_in (pname p) (f_cols X') = false) as ->; [|reflexivity].
    apply str_in_false. simpl in N. apply NoDup_remove_2 in N. rewrite in_app_iff in N. tauto. }
  rewrite IH; rewrite E, <- app_assoc; [reflexivity|exact N].
Qed.

Definition pick (ps : list (string * path)) (c : string) : option (string * path) :=
  find (fun p => String.eqb c (pname p)) ps.

Lemma copy_Inv X ps : frame_wf X -> forall h X',
  Inv h X X' -> NoDup (map pname ps) ->
  (forall p, In p ps -> In (fst p) (f_cols X) /\ In (pname p) (f_cols X')) ->
  exists X2, foldM (fun X' p => copy_column zero isna X X' (fst p) (snd p)) X' ps = Ok X2 /\
    f_cols X2 = f_cols X' /\
    Inv (fun r c => match pick ps c with
                    | Some p => option_map (fillna zero isna)
                                  (if path_eqb (r_path r) (snd p) then base X r (fst p) else h r c)
                    | None => h r c
                    end) X X2.
Proof.
  intros W. induction ps as [|p ps IH]; intros h X' HI ND HP; simpl.
  - exists X'. repeat split; try apply HI.
  - destruct (HP p) as [H1 H2]; [simpl; auto|].
    destruct (copy_column_ok X X' (fst p) (snd p) H1 H2) as [X1 E1]. rewrite E1. simpl.
    destruct (Inv_copy _ _ _ _ _ _ W HI E1) as [C1 I1].
    simpl in ND. apply NoDup_cons_iff in ND as [ND1 ND2].
    destruct (IH _ _ I1 ND2) as (X2 & E2 & C2 & I2).
    { intros q Hq. rewrite C1. apply HP. simpl; auto. }
    exists X2. split; [exact E2|]. split; [congruence|].
    destruct I2 as [L F]. split; [assumption|]. eapply Forall2_impl; [|exact F]. cbn.
    intros r r' _ (P & T & Len & Hc). repeat split; auto. intros c. rewrite Hc.
    unfold pick. cbn. fold (pname p). destruct (String.eqb_spec c (pname p)) as [->|N].
    + assert (find (fun q => String.eqb (pname p) (pname q)) ps = None) as ->; [|reflexivity].
      destruct (find _ ps) as [q|] eqn:Ef; [|reflexivity]. exfalso.
      apply find_some in Ef as [Hq Eq]. apply String.eqb_eq in Eq. apply ND1.
      rewrite Eq. now apply in_map.
    + reflexivity.
Qed.

Lemma zero_pairs_In matched ids p : In p (zero_pairs matched ids) <-> In (fst p) matched /\ In (snd p) ids.
Proof.
  unfold zero_pairs. rewrite in_flat_map. destruct p as [c i]. simpl. split.
  - intros (m & Hm & H). apply in_map_iff in H as (j & [= <- <-] & Hj). auto.
  - intros [H1 H2]. exists c. split; [assumption|]. apply in_map_iff. eauto.
Qed.
Lemma copy_pairs_In matched ids p : In p (copy_pairs matched ids) <-> In (fst p) matched /\ In (snd p) ids.
Proof.
  unfold copy_pairs. rewrite in_flat_map. destruct p as [c i]. simpl. split.
  - intros (m & Hm & H). apply in_map_iff in H as (j & [= <- <-] & Hj). auto.
  - intros [H1 H2]. exists i. split; [assumption|]. apply in_map_iff. eauto.
Qed.

Lemma NoDup_flat_pairs {A B} (l1 : list A) (l2 : list B) :
  NoDup l1 -> NoDup l2 -> NoDup (flat_map (fun a => map (fun b => (a, b)) l2) l1).
Proof.
  intros H1 H2. induction H1 as [|a l1 Ha H1 IH]; simpl; [constructor|].
  assert (G : NoDup (map (fun b : B => (a, b)) l2)).
  { clear -H2. induction H2; simpl; constructor; auto. rewrite in_map_iff. intros (? & [= ->] & ?). auto. }
  assert (D : forall p, In p (map (fun b : B => (a, b)) l2) ->
                 ~ In p (flat_map (fun a => map (fun b => (a, b)) l2) l1)).
  { intros p Hp Hq. apply in_map_iff in Hp as (b & <- & Hb).
    apply in_flat_map in Hq as (a' & Ha' & Hq). apply in_map_iff in Hq as (b' & [= -> ->] & _). auto. }
  revert G D. generalize (map (fun b : B => (a, b)) l2) as l. intros l G. induction G as [|p l Hp G IH2];
  intros D; simpl; [assumption|]. constructor.
  - rewrite in_app_iff. intros [H|H]; [auto|]. apply (D p); simpl; auto.
  - apply IH2. intros q Hq. apply D. simpl; auto.
Qed.

Lemma NoDup_map_inj {A B} (f : A -> B) l :
  NoDup l -> (forall x y, In x l -> In y l -> f x = f y -> x = y) -> NoDup (map f l).
Proof.
  induction 1 as [|x l Hx H IH]; intros Inj; simpl; constructor.
  - rewrite in_map_iff. intros (y & E & Hy). apply Inj in E; simpl; auto. subst. auto.
  - apply IH. intros; apply Inj; simpl; auto.
Qed.

Lemma copy_pairs_NoDup matched ids :
  NoDup (map pname (zero_pairs matched ids)) -> NoDup matched -> NoDup ids ->
  NoDup (map pname (copy_pairs matched ids)).
Proof.
  intros H Hm Hi. 
  assert (P : Permutation (copy_pairs matched ids) (zero_pairs matched ids)).
  { apply NoDup_Permutation.
    - unfold copy_pairs.
      assert (NoDup (map (fun p : path * string => (snd p, fst p))
                 (flat_map (fun i => map (fun c => (i, c)) matched) ids))).
      { apply NoDup_map_inj; [now apply NoDup_flat_pairs|]. intros [] [] _ _ [= -> ->]; reflexivity. }
      rewrite flat_map_concat_map, concat_map, map_map in H0.
      rewrite flat_map_concat_map. erewrite map_ext in H0; [exact H0|].
      intros i. cbn. rewrite map_map. reflexivity.
    - now apply NoDup_flat_pairs.
    - intros p. now rewrite zero_pairs_In, copy_pairs_In. }
  eapply Permutation_NoDup; [|exact H]. apply Permutation_map. now apply Permutation_sym.
Qed.

(** Main fact: transform replaces every matched column by its copies. *)
Theorem expand_transform_spec (e : expander) (X : frame V) ids matched :
  ids = series_ids X -> matched = ex_matched e ->
  frame_wf X -> f_levels X <> 0 -> ex_skip e = false ->
  NoDup (f_cols X) -> NoDup matched -> (forall c, In c matched -> In c (f_cols X)) ->
  NoDup (f_cols X ++ map pname (zero_pairs matched ids)) ->
  exists X' e', expand_transform zero isna e X = Ok (X', e') /\
    f_levels X' = f_levels X /\
    f_cols X' = filter (fun c => negb (str_in c matched)) (f_cols X) ++ map pname (zero_pairs matched ids) /\
    Forall2 (fun r r' =>
       r_path r' = r_path r /\ r_time r' = r_time r /\ length (r_vals r') = length (f_cols X') /\
       (forall c, ~ In c matched -> In c (f_cols X) ->
          value_of (f_cols X') (r_vals r') c = value_of (f_cols X) (r_vals r) c) /\
       (forall c i, In c matched -> In i ids ->
          value_of (f_cols X') (r_vals r') (get_col_name c i) =
          if path_eqb (r_path r) i
          then option_map (fillna zero isna) (value_of (f_cols X) (r_vals r) c)
          else Some zero))
      (f_rows X) (f_rows X').
Proof.
  intros Hids Hmat W Lv Sk NDc NDm Sub ND.
  unfold expand_transform. rewrite Sk. destruct (f_levels X) as [|lv] eqn:ELv; [congruence|].
  rewrite <- ELv in *.
  set (X1 := add_zero_columns zero (ex_matched e) (series_ids X) X).
  pose proof (Inv_base X W) as I0.
  pose proof (add_zero_Inv X (zero_pairs matched ids) _ _ I0) as I1.
  pose proof (add_zero_cols (zero_pairs matched ids) X ND) as C1.
  assert (E1 : X1 = fold_left (fun X p => set_col X (pname p) (fun _ => zero)) (zero_pairs matched ids) X)
    by (unfold X1; rewrite add_zero_pairs; subst; reflexivity).
  rewrite <- E1 in I1, C1.
  assert (NDi : NoDup ids) by (subst; apply paths_unique_NoDup).
  assert (NDz : NoDup (map pname (zero_pairs matched ids))).
  { clear -ND. induction (f_cols X) as [|c l IH]; simpl in ND; [assumption|]. inversion ND; auto. }
  assert (NDp : NoDup (map pname (copy_pairs matched ids))) by now apply copy_pairs_NoDup.
  destruct (copy_Inv X (copy_pairs matched ids) W _ _ I1 NDp) as (X2 & E2 & C2 & [L2 F2]).
  { intros p Hp. apply copy_pairs_In in Hp as [Hp1 Hp2]. split; [auto|].
    rewrite C1, in_app_iff. right. apply in_map. apply zero_pairs_In. auto. }
  rewrite copy_columns_pairs. rewrite <- Hids, <- Hmat. rewrite E2. simpl.
  eexists _, _. split; [reflexivity|]. split; [exact L2|].
  assert (Dj : forall c, In c matched -> ~ In c (map pname (zero_pairs matched ids))).
  { intros c Hc Hin. apply Sub in Hc. clear -ND Hc Hin.
    induction (f_cols X) as [|x l IH]; simpl in *; [contradiction|].
    inversion ND; subst. destruct Hc as [->|Hc]; [|auto]. apply H1. apply in_app_iff. auto. }
  split.
  { unfold drop_columns. cbn. rewrite combine_map_filter, C2, C1, filter_app. f_equal.
    rewrite (filter_ext_in _ (fun _ => true)); [apply filter_all|].
    intros c Hc. destruct (str_in c matched) eqn:Em; [|reflexivity].
    apply str_in_iff in Em. exfalso. eapply Dj; eauto. }
  unfold drop_columns. cbn. apply Forall2_map_r. eapply Forall2_impl; [|exact F2]. cbn.
  intros r r' Hr (P & T & Len & Hc). repeat split; auto.
  { apply drop_length. assumption. }
  - intros c Hnm Hin. rewrite value_of_drop by assumption.
    apply str_in_false in Hnm. rewrite Hnm. cbn. rewrite Hc.
    assert (Hnn : ~ In c (map pname (zero_pairs matched ids))).
    { intros Hz. clear -ND Hin Hz.
      induction (f_cols X) as [|x l IH]; simpl in *; [contradiction|].
      inversion ND; subst. destruct Hin as [->|Hin]; [|auto]. apply H1. apply in_app_iff. auto. }
    assert (pick (copy_pairs matched ids) c = None) as ->.
    { unfold pick. destruct (find _ _) as [q|] eqn:Ef; [|reflexivity]. exfalso.
      apply find_some in Ef as [Hq Eq]. apply String.eqb_eq in Eq. apply Hnn. subst c.
      apply in_map. apply zero_pairs_In. now apply copy_pairs_In. }
    apply str_in_false in Hnn. rewrite Hnn. reflexivity.
  - intros c i Hcm Hi. rewrite value_of_drop by assumption.
    assert (Hz : In (pname (c, i)) (map pname (zero_pairs matched ids)))
      by (apply in_map; apply zero_pairs_In; auto).
    assert (Em : str_in (get_col_name c i) matched = false).
    { apply str_in_false. intros Hx. eapply Dj; eauto. }
    rewrite Em. cbn. rewrite Hc.
    assert (pick (copy_pairs matched ids) (get_col_name c i) = Some (c, i)) as ->.
    { unfold pick. destruct (find _ _) as [q|] eqn:Ef.
      - apply find_some in Ef as [Hq Eq]. apply String.eqb_eq in Eq. f_equal.
        assert (Hci : In (c, i) (copy_pairs matched ids)) by (apply copy_pairs_In; auto).
        clear -NDp Hq Hci Eq. revert NDp Hq Hci. generalize (copy_pairs matched ids) as l.
        induction l as [|x l IH]; simpl; [contradiction|]. intros ND [->|Hq] [Hx|Hx].
        + assumption.
        + inversion ND; subst. exfalso. apply H1. rewrite <- Eq. change (get_col_name c i) with (pname (c, i)).
          now apply in_map.
        + subst x. inversion ND; subst. exfalso. apply H1.
          change (pname (c, i)) with (get_col_name c i). rewrite Eq. now apply in_map.
        + inversion ND; auto.
      - exfalso. assert (Hci : In (c, i) (copy_pairs matched ids)) by (apply copy_pairs_In; auto).
        apply (find_none _ _ Ef) in Hci. unfold pname in Hci. cbn in Hci. rename Hci into Ef'. rewrite String.eqb_refl in Ef'. discriminate. }
    cbn. destruct (path_eqb (r_path r) i); [reflexivity|].
    apply str_in_iff in Hz. change (pname (c, i)) with (get_col_name c i) in Hz. rewrite Hz. simpl.
    unfold fillna. rewrite zero_not_na. reflexivity.
Qed.
End Expand.

(** ** names *)
Definition no_char (a : ascii) (s : string) : Prop := ~ In a (list_ascii_of_string s).

Lemma split_last_char {A} (a : A) (x1 x2 y1 y2 : list A) :
  ~ In a y1 -> ~ In a y2 -> x1 ++ a :: y1 = x2 ++ a :: y2 -> x1 = x2 /\ y1 = y2.
Proof.
  revert x2. induction x1 as [|b x1 IH]; intros [|c x2] N1 N2 E; simpl in *.
  - injection E as ->. auto.
  - injection E as -> ->. exfalso. apply N1. apply in_app_iff. right. now left.
  - injection E as -> <-. exfalso. apply N2. apply in_app_iff. right. now left.
  - injection E as -> E. apply IH in E as [-> ->]; auto.
Qed.

Lemma concat_chars sep (l : list string) a :
  ~ In a (list_ascii_of_string sep) -> Forall (no_char a) l -> ~ In a (list_ascii_of_string (String.concat sep l)).
Proof.
  intros Hs. induction 1 as [|s l H F IH]; simpl; [auto|].
  destruct l as [|s2 l]; [exact H|].
  rewrite !laos_app, !in_app_iff. unfold no_char in H. tauto.
Qed.

Lemma join_dash_inj l1 : forall l2, length l1 = length l2 ->
  Forall (no_char "-"%char) l1 -> Forall (no_char "-"%char) l2 ->
  String.concat "-" l1 = String.concat "-" l2 -> l1 = l2.
Proof.
  induction l1 as [|s l1 IH]; intros [|t l2] L F1 F2 E; simpl in L; try discriminate; [reflexivity|].
  inversion F1; inversion F2; subst.
  destruct l1 as [|s2 l1]; destruct l2 as [|t2 l2]; simpl in L; try discriminate.
  - simpl in E. now subst.
  - rewrite !concat_cons in E.
    assert (E' := f_equal list_ascii_of_string E). rewrite !laos_app in E'.
    change (list_ascii_of_string "-") with ["-"%char] in E'. simpl app in E'.
    assert (G : forall (a : ascii) x1 y1 x2 y2, ~ In a x1 -> ~ In a x2 -> x1 ++ a :: y1 = x2 ++ a :: y2 ->
                  x1 = x2 /\ y1 = y2).
    { clear. intros a x1. induction x1 as [|b x1 IH]; intros y1 [|c x2] y2 N1 N2 E; simpl in *.
      - injection E as ->. auto.
      - injection E as -> ->. exfalso. auto.
      - injection E as -> <-. exfalso. auto.
      - injection E as -> E. apply IH in E as [-> ->]; auto. }
    apply G in E' as [E1 E2]; auto.
    apply laos_inj in E1. apply laos_inj in E2. subst. f_equal. apply IH; auto.
Qed.

Lemma get_col_name_inj c1 c2 i1 i2 :
  length i1 = length i2 ->
  Forall (no_char "_"%char) i1 -> Forall (no_char "_"%char) i2 ->
  (length i1 <= 1 \/ Forall (no_char "-"%char) i1 /\ Forall (no_char "-"%char) i2) ->
  get_col_name c1 i1 = get_col_name c2 i2 -> c1 = c2 /\ i1 = i2.
Proof.
  intros L U1 U2 D E. unfold get_col_name in E.
  apply (f_equal list_ascii_of_string) in E. rewrite !laos_app in E.
  change (list_ascii_of_string "_dup_") with (["_"; "d"; "u"; "p"] ++ ["_"])%char in E.
  rewrite <- !app_assoc in E. rewrite !app_assoc in E. cbn [app] in E.
  rewrite <- !app_assoc in E. 
  assert (E' : (list_ascii_of_string c1 ++ ["_"; "d"; "u"; "p"]%char) ++ "_"%char :: list_ascii_of_string (String.concat "-" i1)
             = (list_ascii_of_string c2 ++ ["_"; "d"; "u"; "p"]%char) ++ "_"%char :: list_ascii_of_string (String.concat "-" i2)).
  { rewrite <- !app_assoc. exact E. }
  apply split_last_char in E' as [E1 E2].
  - apply app_inv_tail in E1. apply laos_inj in E1. apply laos_inj in E2. split; [assumption|].
    destruct D as [D|[D1 D2]]; [|now apply join_dash_inj].
    destruct i1 as [|s [|]], i2 as [|t [|]]; simpl in *; try lia; [reflexivity|]. now subst.
  - apply concat_chars; [|assumption]. simpl. intros [H|[]]. discriminate.
  - apply concat_chars; [|assumption]. simpl. intros [H|[]]. discriminate.
Qed.

(** ** which columns are expanded by HierarchicalProphet *)
Lemma str_insert_In x y l : In x (str_insert y l) <-> x = y \/ In x l.
Proof.
  induction l as [|z l IH]; simpl; [intuition|].
  destruct (String.leb y z); simpl; [intuition|]. rewrite IH. intuition.
Qed.
Lemma str_sort_In x l : In x (str_sort l) <-> In x l.
Proof. induction l as [|y l IH]; simpl; [tauto|]. rewrite str_insert_In, IH. intuition. Qed.

Lemma columns_to_expand_In cols shared c :
  In c (columns_to_expand cols shared) <-> In c cols /\ ~ In c shared.
Proof.
  unfold columns_to_expand. rewrite str_sort_In, strs_unique_In, filter_In, negb_true_iff, str_in_false.
  tauto.
Qed.

Lemma compile_all ps : Forall literal ps ->
  mapM (fun p => match compile p with Some r => Ok r | None => Err ValueError end) ps
  = Ok (map (fun p => lit_seq (list_ascii_of_string p) REps) ps).
Proof.
  intros F. apply mapM_map. intros p Hp. rewrite Forall_forall in F.
  now rewrite compile_literal by auto.
Qed.

Lemma existsb_map {A B} (f : B -> bool) (g : A -> B) l :
  existsb f (map g l) = existsb (fun a => f (g a)) l.
Proof. induction l; simpl; congruence. Qed.

Lemma existsb_ext_in {A} (f g : A -> bool) l :
  (forall a, In a l -> f a = g a) -> existsb f l = existsb g l.
Proof. induction l as [|a l IH]; intros H; simpl; [reflexivity|]. rewrite H, IH; simpl; auto. intros; apply H; simpl; auto. Qed.

Lemma prefix_refl s : String.prefix s s = true.
Proof. apply prefix_starts. exists EmptyString. induction s; simpl; congruence. Qed.

Lemma expand_fit_literal {V} order ps (X : frame V) : Forall literal ps -> f_levels X <> 0 ->
  exists e, expand_fit order ps X = Ok e /\ ex_skip e = false /\
    ex_matched e = order (filter (fun c => existsb (fun p => String.prefix p c) ps) (strs_unique (f_cols X))).
Proof.
  intros F L. unfold expand_fit. rewrite compile_all by assumption. simpl.
  destruct (f_levels X); [congruence|]. eexists. split; [reflexivity|]. split; [reflexivity|].
  simpl. f_equal. apply filter_ext. intros c. rewrite existsb_map. apply existsb_ext_in.
  intros p Hp. apply literal_match; [|apply compile_literal]; rewrite Forall_forall in F; auto.
Qed.

Theorem expand_bottom_columns {V} (zero : V) isna order shared (X : frame V) :
  (forall l, Permutation (order l) l) -> isna zero = false ->
  frame_wf X -> f_levels X <> 0 -> NoDup (f_cols X) ->
  Forall literal (f_cols X) ->
  (forall c s, In c (f_cols X) -> ~ In c shared -> In s (f_cols X) -> In s shared ->
     String.prefix c s = false) ->
  (forall c i c' i', In c (f_cols X) -> In c' (f_cols X) -> In i (series_ids X) -> In i' (series_ids X) ->
     get_col_name c i = get_col_name c' i' -> c = c' /\ i = i') ->
  (forall c i, In c (f_cols X) -> In i (series_ids X) -> ~ In (get_col_name c i) (f_cols X)) ->
  exists X' e', expand_bottom zero isna order shared X = Ok (X', e') /\
    (forall n, In n (f_cols X') <->
       (In n (f_cols X) /\ In n shared) \/
       (exists c i, In c (f_cols X) /\ ~ In c shared /\ In i (series_ids X) /\ n = get_col_name c i)) /\
    Forall2 (fun r r' => r_path r' = r_path r /\ r_time r' = r_time r /\
       forall c, In c (f_cols X) -> In c shared ->
         value_of (f_cols X') (r_vals r') c = value_of (f_cols X) (r_vals r) c)
      (f_rows X) (f_rows X').
Proof.
  intros Ho Hz W L ND Lit Pre Inj Fresh.
  unfold expand_bottom.
  assert (FL : Forall literal (columns_to_expand (f_cols X) shared)).
  { apply Forall_forall. intros c Hc. apply columns_to_expand_In in Hc as [Hc _].
    rewrite Forall_forall in Lit. auto. }
  destruct (expand_fit_literal order (columns_to_expand (f_cols X) shared) X FL L) as (e & Ee & Es & Em).
  rewrite Ee. simpl.
  assert (Min : forall c, In c (ex_matched e) <-> In c (f_cols X) /\ ~ In c shared).
  { intros c. rewrite Em.
    assert (In c (order (filter (fun c => existsb (fun p => String.prefix p c) (columns_to_expand (f_cols X) shared)) (strs_unique (f_cols X)))) <->
            In c (filter (fun c => existsb (fun p => String.prefix p c) (columns_to_expand (f_cols X) shared)) (strs_unique (f_cols X)))).
    { split; apply Permutation_in; [|apply Permutation_sym]; apply Ho. }
    rewrite H, filter_In, strs_unique_In, existsb_exists. split.
    - intros [Hc (p & Hp & Hpre)]. split; [assumption|]. intros Hs.
      apply columns_to_expand_In in Hp as [Hp1 Hp2]. rewrite Pre in Hpre by assumption. discriminate.
    - intros [Hc Hs]. split; [assumption|]. exists c. split; [|apply prefix_refl].
      apply columns_to_expand_In. auto. }
  assert (NDm : NoDup (ex_matched e)).
  { rewrite Em. eapply Permutation_NoDup; [apply Permutation_sym, Ho|].
    apply NoDup_filter. apply strs_unique_NoDup. }
  destruct (expand_transform_spec zero isna Hz e X _ _ eq_refl eq_refl W L Es ND NDm)
    as (X' & e' & Et & Lv & Cs & F).
  - intros c Hc. now apply Min.
  - assert (NDz : NoDup (map pname (zero_pairs (ex_matched e) (series_ids X)))).
    { apply NoDup_map_inj.
      - apply NoDup_flat_pairs; [assumption|apply paths_unique_NoDup].
      - intros [c i] [c' i'] H1 H2 E. apply zero_pairs_In in H1 as [H1 H1'].
        apply zero_pairs_In in H2 as [H2 H2']. simpl in *. unfold pname in E. simpl in E.
        apply Min in H1 as [H1 _]. apply Min in H2 as [H2 _].
        destruct (Inj c i c' i') as [-> ->]; auto. }
    assert (Dj : forall n, In n (map pname (zero_pairs (ex_matched e) (series_ids X))) -> ~ In n (f_cols X)).
    { intros n Hn. apply in_map_iff in Hn as ([c i] & <- & Hp). apply zero_pairs_In in Hp as [Hc Hi].
      simpl in *. apply Min in Hc as [Hc _]. apply Fresh; auto. }
    clear -ND NDz Dj. induction (f_cols X) as [|x l IH]; simpl; [assumption|].
    inversion ND; subst. constructor.
    + rewrite in_app_iff. intros [H|H]; [auto|]. apply (Dj x H). simpl; auto.
    + apply IH; auto. intros n Hn Hl. apply (Dj n Hn). simpl; auto.
  - exists X', e'. split; [exact Et|]. split.
    + intros n. rewrite Cs, in_app_iff, filter_In, negb_true_iff, str_in_false, Min.
      split.
      * intros [[H1 H2]|H].
        -- left. split; [assumption|]. destruct (in_dec string_dec n shared); tauto.
        -- right. apply in_map_iff in H as ([c i] & <- & Hp). apply zero_pairs_In in Hp as [Hc Hi].
           simpl in *. apply Min in Hc as [Hc Hs]. exists c, i. auto.
      * intros [[H1 H2]|(c & i & Hc & Hs & Hi & ->)]; [tauto|]. right.
        change (get_col_name c i) with (pname (c, i)). apply in_map. apply zero_pairs_In. simpl.
        split; [|assumption]. apply Min. auto.
    + eapply Forall2_impl; [|exact F]. cbn. intros r r' _ (P & T & _ & Hc & _). repeat split; auto.
      intros c H1 H2. apply Hc; [|assumption]. rewrite Min. tauto.
Qed.

Lemma expand_single_unchanged {V} (zero : V) isna order ps (X : frame V) e :
  f_levels X = 0 -> expand_fit order ps X = Ok e -> forall X2, expand_transform zero isna e X2 = Ok (X2, e).
Proof.
  intros L H X2. unfold expand_fit in H. destruct (mapM _ ps); [|discriminate]. simpl in H.
  rewrite L in H. injection H as <-. reflexivity.
Qed.
