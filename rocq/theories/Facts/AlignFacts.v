(** Lemmas on the order of rows in arrays. *)
From Coq Require Import Reals String Bool ZArith List Sorted Permutation Lia.
From Verif.Model Require Import Base Num Frame Arr Prog Effect Expand Aggregate.
From Verif.Spec Require Import FrameSpec ScaleSpec ProgSpec EffectSpec ForecasterSpec AlignSpec.
From Verif.Facts Require Import BaseFacts OrderFacts FrameFacts FrameProps ExpandFacts EffectFacts EffectFourier.
Import ListNotations.
Local Open Scope string_scope.

Section Unique.
Context {A : Type} (eqb : A -> A -> bool).
Hypothesis eqb_eq : forall a b, eqb a b = true <-> a = b.

Lemma unique_aux_ext s1 : forall l s2, (forall x, In x s1 <-> In x s2) -> unique_aux eqb s1 l = unique_aux eqb s2 l.
Proof.
  intros l. revert s1. induction l as [|x l IH]; intros s1 s2 H; simpl; [reflexivity|].
  assert (existsb (eqb x) s1 = existsb (eqb x) s2) as ->.
  { apply eq_true_iff_eq. rewrite !existsb_eqb by assumption. apply H. }
  destruct (existsb (eqb x) s2); [apply IH; exact H|]. f_equal. apply IH. intros y. simpl. rewrite H. tauto.
Qed.

Lemma unique_aux_filter p l : forall s, unique_aux eqb (p :: s) l = unique_aux eqb s (filter (fun x => negb (eqb x p)) l).
Proof.
  induction l as [|x l IH]; intros s; simpl; [reflexivity|]. destruct (eqb x p) eqn:E; simpl; [apply IH|].
  destruct (existsb (eqb x) s); [apply IH|]. f_equal. rewrite <- IH. apply unique_aux_ext. intros y. simpl. tauto.
Qed.

Lemma unique_cons p l : unique eqb (p :: l) = p :: unique eqb (filter (fun x => negb (eqb x p)) l).
Proof. unfold unique. simpl. now rewrite unique_aux_filter. Qed.
End Unique.

(** rows sorted by label are grouped by series *)
Definition row_sorted {V} := StronglySorted (fun a b : row V => label_leb (r_path a, r_time a) (r_path b, r_time b) = true).

Lemma sorted_rows {V} (f : frame V) : sorted_index f <-> row_sorted (f_rows f).
Proof.
  unfold sorted_index, labels, row_sorted. induction (f_rows f) as [|r l IH]; simpl; [split; constructor|].
  split; intros H; inversion H as [|? ? H1 H2]; subst; constructor; try tauto; rewrite Forall_forall in *; intros x Hx.
  - apply H2. apply in_map_iff. eauto.
  - apply in_map_iff in Hx as (r' & <- & Hr). apply H2. exact Hr.
Qed.

Lemma leb_path a b t u : label_leb (a, t) (b, u) = true -> path_cmp a b <> Gt.
Proof. unfold label_leb. simpl. destruct (path_cmp a b); congruence. Qed.

Lemma run_first {V} (p : path) (l : list (row V)) : row_sorted l -> (forall r, In r l -> path_cmp p (r_path r) <> Gt) ->
  (filter (fun r => path_eqb (r_path r) p) l ++ filter (fun r => negb (path_eqb (r_path r) p)) l)%list = l.
Proof.
  induction l as [|r l IH]; intros S0 H; simpl; [reflexivity|]. inversion S0 as [|? ? S1 S2]; subst.
  destruct (path_eqb (r_path r) p) eqn:E; simpl.
  - f_equal. apply IH; [exact S1|]. intros x Hx. apply H. now right.
  - assert (L : path_cmp p (r_path r) = Lt).
    { specialize (H r (or_introl eq_refl)). destruct (path_cmp p (r_path r)) eqn:C; [|reflexivity|congruence].
      apply path_cmp_eq in C. subst. assert (path_eqb (r_path r) (r_path r) = true) by now apply path_eqb_eq. congruence. }
    assert (N : forall x, In x l -> path_eqb (r_path x) p = false).
    { intros x Hx. rewrite Forall_forall in S2. specialize (S2 x Hx). apply leb_path in S2.
      destruct (path_eqb (r_path x) p) eqn:Ex; [|reflexivity]. apply path_eqb_eq in Ex. rewrite Ex in S2.
      rewrite path_cmp_antisym, L in S2. simpl in S2. congruence. }
    rewrite filter_none by exact N. simpl. f_equal. apply FrameFacts.filter_all. intros x Hx. now rewrite N.
Qed.

Lemma row_sorted_filter {V} q (l : list (row V)) : row_sorted l -> row_sorted (filter q l).
Proof.
  unfold row_sorted. induction 1 as [|r l H IH F]; simpl; [constructor|]. destruct (q r); [|exact IH]. constructor; [exact IH|].
  rewrite Forall_forall in *. intros x Hx. apply filter_In in Hx. apply F. tauto.
Qed.

Lemma filter_len_le {A} (q : A -> bool) l : List.length (filter q l) <= List.length l.
Proof. induction l as [|x l IH]; simpl; [lia|]. destruct (q x); simpl; lia. Qed.

Lemma flat_map_ext_in {A B} (f g : A -> list B) l : (forall x, In x l -> f x = g x) -> flat_map f l = flat_map g l.
Proof. induction l as [|x l IH]; intros H; simpl; [reflexivity|]. rewrite H by (simpl; auto). f_equal. apply IH. intros y Hy. apply H. now right. Qed.

Lemma grouped {V} : forall n (l : list (row V)), List.length l <= n -> row_sorted l ->
  flat_map (fun p => filter (fun r => path_eqb (r_path r) p) l) (paths_unique (map r_path l)) = l.
Proof.
  induction n as [|n IH]; intros l Hn S0; [destruct l; [reflexivity|simpl in Hn; lia]|].
  destruct l as [|r l]; [reflexivity|]. cbn [map]. unfold paths_unique. rewrite unique_cons by apply path_eqb_eq.
  rewrite filter_map_comm. fold (paths_unique (map r_path (filter (fun a => negb (path_eqb (r_path a) (r_path r))) l))).
  cbn [flat_map]. inversion S0 as [|? ? S1 S2]; subst.
  set (l2 := filter (fun a => negb (path_eqb (r_path a) (r_path r))) l).
  assert (PR : path_eqb (r_path r) (r_path r) = true) by now apply path_eqb_eq.
  assert (E : flat_map (fun p => filter (fun r0 => path_eqb (r_path r0) p) (r :: l)) (paths_unique (map r_path l2)) = l2).
  { rewrite <- (IH l2) at 2.
    - apply flat_map_ext_in. intros p Hp. apply (proj1 (paths_unique_In _ _)) in Hp. apply in_map_iff in Hp as (x & <- & Hx).
      unfold l2 in *. apply filter_In in Hx as [Hx Nx]. rewrite filter_filter. simpl.
      destruct (path_eqb (r_path r) (r_path x)) eqn:Ex.
      { apply path_eqb_eq in Ex. rewrite <- Ex, PR in Nx. discriminate. }
      apply filter_ext. intros y. destruct (path_eqb (r_path y) (r_path x)) eqn:Ey; [|now rewrite andb_false_r].
      rewrite andb_true_r. symmetry. destruct (path_eqb (r_path y) (r_path r)) eqn:Er; [|reflexivity].
      apply path_eqb_eq in Ey, Er. rewrite <- Er, Ey in Ex. assert (path_eqb (r_path x) (r_path x) = true) by now apply path_eqb_eq. congruence.
    - unfold l2. simpl in Hn. pose proof (filter_len_le (fun a => negb (path_eqb (r_path a) (r_path r))) l). lia.
    - apply row_sorted_filter. exact S1. }
  unfold paths_unique in E. unfold path in *. fold l2. rewrite E. pose proof (run_first (r_path r) (r :: l) S0) as RF. simpl in RF. rewrite PR in RF. simpl in RF.
  simpl. rewrite PR. simpl. apply RF. intros x [<-|Hx].
  - rewrite path_cmp_refl. discriminate.
  - rewrite Forall_forall in S2. specialize (S2 x Hx). now apply leb_path in S2.
Qed.

Lemma ordered_sorted {V} (f : frame V) : sorted_index f -> ordered_rows f = f_rows f.
Proof.
  intros S0. unfold ordered_rows. destruct (f_levels f); [reflexivity|]. unfold rows_of, series_ids.
  apply (grouped (List.length (f_rows f))); [lia|]. now apply sorted_rows.
Qed.

Lemma filter_fh_sorted {V} fh (X : frame V) : sorted_index X -> sorted_index (filter_fh fh X).
Proof. rewrite !sorted_rows. unfold filter_fh, filter_rows. simpl. apply row_sorted_filter. Qed.

(** ascending lists with the same elements are equal *)
Lemma ascending_eq L1 L2 : ascending L1 -> ascending L2 -> (forall x, In x L1 <-> In x L2) -> L1 = L2.
Proof.
  intros [S1 N1] [S2 N2] H. apply (key_sorted_unique (fun x => x)); [auto|now apply NoDup_Permutation| |];
  apply strong_key_sorted; rewrite map_id; assumption.
Qed.

Lemma horizon_labels {V} fh (X : frame V) x : In x (labels (filter_fh fh X)) <-> In x (labels X) /\ In (snd x) fh.
Proof.
  unfold labels. rewrite filter_fh_rows. unfold horizon_rows. rewrite !in_map_iff. split.
  - intros (r & <- & Hr). apply filter_In in Hr as [Hr E]. destruct (in_dec Z.eq_dec (r_time r) fh); [|discriminate]. split; [eauto|assumption].
  - intros ((r & <- & Hr) & E). exists r. split; [reflexivity|]. apply filter_In. split; [exact Hr|].
    simpl in E. destruct (in_dec Z.eq_dec (r_time r) fh); [reflexivity|contradiction].
Qed.

Lemma NoDup_labels_filter {V} q (X : frame V) : NoDup (labels X) -> NoDup (labels (filter_rows q X)).
Proof.
  unfold labels, filter_rows. simpl. induction (f_rows X) as [|r l IH]; simpl; intros N; [constructor|]. inversion N; subst.
  destruct (q r); [|auto]. simpl. constructor; [|auto]. intros I. apply in_map_iff in I as (x & E & Hx). apply filter_In in Hx.
  apply H1. rewrite <- E. apply in_map_iff. exists x. tauto.
Qed.

(** the labels of the rows of an array *)
Lemma array_labels {V} fh (X : frame V) L : sorted_index X -> NoDup (labels X) -> ascending L ->
  (forall p t, In (p, t) L <-> In (p, t) (labels X) /\ In t fh) ->
  map (fun r => (r_path r, r_time r)) (ordered_rows (filter_fh fh X)) = L.
Proof.
  intros S0 N A H. rewrite ordered_sorted by now apply filter_fh_sorted. apply ascending_eq; [|exact A|].
  - split; [now apply filter_fh_sorted|]. now apply NoDup_labels_filter.
  - intros [p t]. rewrite H. exact (horizon_labels fh X (p, t)).
Qed.

(** * data of plain effects on frames with several series *)
Lemma select_value (X Y : frame R) cols : frame_wf X -> select_columns 0%R X cols = Ok Y ->
  exists g, f_rows Y = map g (f_rows X) /\ f_cols Y = cols /\ f_levels Y = f_levels X /\
    forall r, In r (f_rows X) -> r_path (g r) = r_path r /\ r_time (g r) = r_time r /\ List.length (r_vals (g r)) = List.length cols /\
      forall j c, nth_error cols j = Some c -> value_of (f_cols X) (r_vals r) c = Some (nth j (r_vals (g r)) 0%R).
Proof.
  intros W. unfold select_columns. rewrite mapM_cols. destruct (forallb _ cols) eqn:F; [|discriminate]. cbn [bind]. intros [= <-].
  cbn [f_rows f_cols f_levels]. eexists. split; [reflexivity|]. split; [reflexivity|]. split; [reflexivity|]. intros r Hr. cbn [r_path r_time r_vals].
  split; [reflexivity|]. split; [reflexivity|]. unfold select_vals. rewrite !map_length. split; [reflexivity|]. intros j c Hj.
  rewrite map_map. pose proof (map_nth_error (fun x => nth match col_pos (f_cols X) x with Some i => i | None => 0 end (r_vals r) 0%R) j cols Hj) as M.
  apply nth_error_nth with (d := 0%R) in M. cbv beta in M.
  rewrite forallb_forall in F. assert (In c cols) as I by (eapply nth_error_In; eauto). apply F in I. apply str_in_iff in I.
  destruct (col_pos (f_cols X) c) as [i|] eqn:E; [|apply col_pos_None in E; contradiction].
  rewrite M. rewrite (value_of_pos _ _ _ i) by (try apply W; auto).
  apply nth_error_nth'. pose proof (col_pos_nth _ _ _ E) as CN. assert (i < List.length (f_cols X)) by (apply nth_error_Some; congruence).
  destruct (W r Hr) as [-> _]. assumption.
Qed.

Lemma select_wf (X Y : frame R) cols : frame_wf X -> select_columns 0%R X cols = Ok Y -> frame_wf Y.
Proof.
  intros W H. destruct (select_value X Y cols W H) as (g & E & C & L & G). intros r Hr. rewrite E in Hr. apply in_map_iff in Hr as (x & <- & Hx).
  destruct (G x Hx) as (Gp & _ & Gl & _). rewrite Gp, Gl, C, L. split; [reflexivity|]. apply W. exact Hx.
Qed.

Lemma plain_inner order e X0 s e' : plain e = true -> fit order e X0 s = (e', None) ->
  plain e' = true /\ inner_transform e' = fun X fh => a <- frame_array X ;; Ok (EArr a).
Proof.
  intros Pe F. destruct e; try discriminate; simpl in F;
    unfold base_fit in F; destruct (negb (supports_multivariate _) && is_panel X0); try discriminate;
    simpl in F; injection F as <-; split; reflexivity.
Qed.

Lemma plain_data order e X0 s e' fh (X : frame R) d : plain e = true -> fit order e X0 s = (e', None) -> frame_wf X ->
  columns_seen X0 <> [] -> transform e' (Some X) fh = Ok d ->
  exists a F g, d = EArr a /\ frame_array F = Ok a /\ f_cols F = columns_seen X0 /\ f_levels F = f_levels X /\
    f_rows F = map g (f_rows (filter_fh fh X)) /\
    forall r, In r (f_rows (filter_fh fh X)) -> r_path (g r) = r_path r /\ r_time (g r) = r_time r /\ List.length (r_vals (g r)) = List.length (columns_seen X0) /\
      forall j c, nth_error (columns_seen X0) j = Some c -> value_of (f_cols X) (r_vals r) c = Some (nth j (r_vals (g r)) 0%R).
Proof.
  intros Pe Ft W NE H. pose proof (fit_cols _ _ _ _ _ Ft) as [C Fi]. pose proof (fit_input_columns _ _ _ _ _ Ft) as IC.
  pose proof (should_skip_fitted _ _ _ _ _ Ft) as SK. destruct (plain_inner _ _ _ _ _ Pe Ft) as [_ T].
  unfold transform in H. rewrite Fi in H. simpl in H. rewrite SK, IC in H. destruct (columns_seen X0) as [|c0 cs] eqn:EC; [congruence|].
  cbn [bind] in H. destruct (select_columns 0%R (filter_fh fh X) (c0 :: cs)) as [Y|] eqn:ES; [|discriminate]. cbn [bind] in H. rewrite T in H.
  destruct (frame_array Y) as [a|] eqn:EA; [|discriminate]. cbn [bind] in H. injection H as <-.
  assert (W2 : frame_wf (filter_fh fh X)) by (apply filter_rows_wf; exact W).
  destruct (select_value _ _ _ W2 ES) as (g & E1 & E2 & E3 & E4). exists a, Y, g. repeat (split; [assumption || reflexivity|]). exact E4.
Qed.

(** positions of the array and labels *)
Lemma plain_data_at order e X0 s e' fh (X : frame R) d L : plain e = true -> fit order e X0 s = (e', None) -> frame_wf X ->
  columns_seen X0 <> [] -> transform e' (Some X) fh = Ok d ->
  map (fun r => (r_path r, r_time r)) (ordered_rows (filter_fh fh X)) = L ->
  exists a, d = EArr a /\ data_at X (columns_seen X0) L a.
Proof.
  intros Pe Ft W NE H EL. destruct (plain_data _ _ _ _ _ _ _ _ Pe Ft W NE H) as (a & F & g & -> & EA & EC & ELv & ER & G).
  exists a. split; [reflexivity|]. destruct (frame_array_rows F a EA) as (rest & E1 & E2 & E3).
  set (g' := fun r => mkRow (r_path r) (r_time r) (r_vals (g r))).
  assert (EO : ordered_rows F = map g' (ordered_rows (filter_fh fh X))).
  { apply ordered_rows_map; [exact ELv| |reflexivity]. rewrite ER. apply map_ext_in. intros r Hr. destruct (G r Hr) as (G1 & G2 & _).
    unfold g'. rewrite <- G1, <- G2. now destruct (g r). }
  assert (I : forall r, In r (ordered_rows (filter_fh fh X)) -> In r (f_rows (filter_fh fh X))).
  { intros r Hr. unfold ordered_rows in Hr. destruct (f_levels (filter_fh fh X)); [exact Hr|]. apply in_flat_map in Hr as (p & _ & Hr).
    unfold rows_of in Hr. apply filter_In in Hr. tauto. }
  assert (U : forall x, In x (map r_vals (ordered_rows F)) -> List.length x = List.length (columns_seen X0)).
  { intros x Hx. rewrite EO, map_map in Hx. apply in_map_iff in Hx as (r & <- & Hr). unfold g'. simpl. apply G. auto. }
  split.
  - rewrite E3, (concat_length_uniform (List.length (columns_seen X0))) by exact U. rewrite map_length, EO, map_length, <- EL, map_length. reflexivity.
  - intros q p t Hq. rewrite <- EL in Hq. destruct (nth_error (ordered_rows (filter_fh fh X)) q) as [r|] eqn:Er.
    2:{ apply nth_error_None in Er. assert (nth_error (map (fun r => (r_path r, r_time r)) (ordered_rows (filter_fh fh X))) q = None) as N by (apply nth_error_None; now rewrite map_length).
        congruence. }
    rewrite (map_nth_error _ _ _ Er) in Hq. injection Hq as <- <-. assert (Hr : In r (f_rows (filter_fh fh X))) by (apply I; eapply nth_error_In; eauto).
    exists r. split; [unfold filter_fh, filter_rows in Hr; simpl in Hr; apply filter_In in Hr; tauto|]. split; [reflexivity|]. split; [reflexivity|].
    intros j c Hj. destruct (G r Hr) as (_ & _ & _ & G3). rewrite (G3 j c Hj). f_equal. unfold entry. rewrite E3. symmetry.
    apply nth_concat_uniform; [exact U| |apply nth_error_Some; congruence].
    rewrite EO, map_map. exact (map_nth_error (fun r => r_vals (g' r)) _ _ Er).
Qed.

Lemma data_at_select (X Y : frame R) cols L a : frame_wf X -> select_columns 0%R X cols = Ok Y -> data_at Y cols L a -> data_at X cols L a.
Proof.
  intros W H [DL D]. destruct (select_value X Y cols W H) as (g & E & C & _ & G). split; [exact DL|]. intros q p t Hq.
  destruct (D q p t Hq) as (r & Hr & <- & <- & V). rewrite E in Hr. apply in_map_iff in Hr as (x & <- & Hx).
  destruct (G x Hx) as (G1 & G2 & G3 & G4). exists x. split; [exact Hx|]. split; [now rewrite G1|]. split; [now rewrite G2|].
  intros j c Hj. rewrite (G4 j c Hj). f_equal. specialize (V j c Hj). rewrite C in V.
  destruct (col_pos cols c) as [i|] eqn:EP.
  - pose proof (G4 i c (col_pos_nth _ _ _ EP)) as G5. rewrite (G4 j c Hj) in G5. injection G5 as G5. rewrite G5.
    rewrite (value_of_pos _ _ _ i) in V by (auto; rewrite G3; reflexivity). now apply nth_error_nth with (d := 0%R) in V.
  - apply col_pos_None in EP. elim EP. eapply nth_error_In; eauto.
Qed.
