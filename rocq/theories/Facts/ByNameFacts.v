(** Columns are found by name. *)
From Coq Require Import Reals ZArith String Bool List Lia.
From Verif.Model Require Import Base Num Regex Frame Expand Arr Prog Effect Trend TrendProg Engine Forecaster Predict.
From Verif.Spec Require Import FrameSpec ForecasterSpec ByNameSpec.
From Verif.Facts Require Import BaseFacts FrameFacts ExpandFacts ForecasterInv.
Import ListNotations.
Local Open Scope string_scope.

(** [same_columns] with rows of the right lengths *)
Definition agr (N : string -> Prop) (c1 c2 : list string) (r1 r2 : row R) : Prop :=
  r_path r1 = r_path r2 /\ r_time r1 = r_time r2 /\ List.length (r_vals r1) = List.length c1 /\ List.length (r_vals r2) = List.length c2 /\
  forall n, N n -> value_of c1 (r_vals r1) n = value_of c2 (r_vals r2) n.
Definition ag (N : string -> Prop) (X1 X2 : frame R) : Prop :=
  f_levels X1 = f_levels X2 /\ (forall n, N n -> In n (f_cols X1) <-> In n (f_cols X2)) /\ Forall2 (agr N (f_cols X1) (f_cols X2)) (f_rows X1) (f_rows X2).
(** both fail alike, or both succeed *)
Definition ag_res (N : string -> Prop) (a b : res (frame R)) : Prop := match a, b with Ok X1, Ok X2 => ag N X1 X2 | Err e, Err e' => e = e' | _, _ => False end.

Lemma same_ag N X1 X2 : frame_wf X1 -> frame_wf X2 -> same_columns N X1 X2 -> ag N X1 X2.
Proof.
  intros W1 W2 (L & C & F). split; [exact L|]. split; [exact C|].
  assert (Q1 : Forall (fun r => List.length (r_vals r) = List.length (f_cols X1)) (f_rows X1)) by (apply Forall_forall; intros r Hr; now destruct (W1 r Hr)).
  assert (Q2 : Forall (fun r => List.length (r_vals r) = List.length (f_cols X2)) (f_rows X2)) by (apply Forall_forall; intros r Hr; now destruct (W2 r Hr)).
  clear W1 W2. induction F as [|r1 r2 l1 l2 (P & T & V) F IH]; [constructor|]. inversion Q1; inversion Q2; subst. constructor; [|auto]. repeat split; assumption.
Qed.
Lemma ag_weaken (N N' : string -> Prop) X1 X2 : (forall n, N' n -> N n) -> ag N X1 X2 -> ag N' X1 X2.
Proof. intros H (L & C & F). split; [exact L|]. split; [auto|]. eapply Forall2_impl; [|exact F]. intros r1 r2 _ (P & T & A & B & V). repeat split; auto. Qed.
Lemma ag_paths N X1 X2 : ag N X1 X2 -> map r_path (f_rows X1) = map r_path (f_rows X2).
Proof. intros (_ & _ & F). induction F as [|? ? ? ? (P & _) F IH]; cbn; congruence. Qed.
Lemma ag_times N X1 X2 : ag N X1 X2 -> map r_time (f_rows X1) = map r_time (f_rows X2).
Proof. intros (_ & _ & F). induction F as [|? ? ? ? (_ & P & _) F IH]; cbn; congruence. Qed.
Lemma ag_ids N X1 X2 : ag N X1 X2 -> series_ids X1 = series_ids X2.
Proof. intros A. unfold series_ids. now rewrite (ag_paths _ _ _ A). Qed.

Lemma ag_filter N (p : row R -> bool) X1 X2 : (forall r1 r2, r_path r1 = r_path r2 -> r_time r1 = r_time r2 -> p r1 = p r2) -> ag N X1 X2 -> ag N (filter_rows p X1) (filter_rows p X2).
Proof.
  intros HP (L & C & F). split; [exact L|]. split; [exact C|]. cbn [filter_rows f_rows f_cols].
  clear -HP F. induction F as [|r1 r2 l1 l2 (P & T & V) F IH]; cbn [filter]; [constructor|]. rewrite (HP r1 r2 P T). destruct (p r2); [constructor; [repeat split; try assumption; apply V|]|]; auto.
Qed.
Lemma ag_fh N fh X1 X2 : ag N X1 X2 -> ag N (filter_fh fh X1) (filter_fh fh X2).
Proof. apply ag_filter. intros r1 r2 _ E. now rewrite E. Qed.
Lemma ag_bottom N X1 X2 : ag N X1 X2 -> ag_res N (loc_bottom_series X1) (loc_bottom_series X2).
Proof.
  intros A. pose proof A as (L & _). unfold loc_bottom_series, get_bottom_series_idx. rewrite <- L, <- (ag_ids _ _ _ A). destruct (f_levels X1) as [|[|k]]; [exact A| |]; cbn [bind]; unfold get_multiindex_loc.
  all: match goal with |- context [filter ?q ?l] => destruct (filter q l) as [|p0 l']; [reflexivity|] end; apply ag_filter; [|exact A]; intros r1 r2 E _; now rewrite E.
Qed.

Lemma pos_same (N : string -> Prop) (c1 c2 : list string) c : N c -> (In c c1 <-> In c c2) -> match col_pos c1 c, col_pos c2 c with
  | Some i, Some j => forall r1 r2, agr N c1 c2 r1 r2 -> nth i (r_vals r1) 0%R = nth j (r_vals r2) 0%R | None, None => True | _, _ => False end.
Proof.
  intros H C. destruct (col_pos c1 c) as [i|] eqn:E1, (col_pos c2 c) as [j|] eqn:E2; [| | |exact I].
  - intros r1 r2 (_ & _ & L1 & L2 & V). pose proof (V c H) as Q. rewrite (value_of_pos _ _ _ _ L1 E1), (value_of_pos _ _ _ _ L2 E2) in Q.
    destruct (nth_error (r_vals r1) i) eqn:N1; [rewrite (nth_error_nth _ _ 0%R N1); symmetry; apply nth_error_nth; congruence|]. apply nth_error_None in N1. rewrite nth_overflow by exact N1. symmetry in Q. apply nth_error_None in Q. now rewrite nth_overflow.
  - apply col_pos_None in E2. apply E2, C. apply col_pos_nth in E1. now apply nth_error_In in E1.
  - apply col_pos_None in E1. apply E1, C. apply col_pos_nth in E2. now apply nth_error_In in E2.
Qed.

(** selected columns *)
Lemma ag_select (N : string -> Prop) X1 X2 cols : (forall n, In n cols -> N n) -> ag N X1 X2 -> select_columns 0%R X1 cols = select_columns 0%R X2 cols.
Proof.
  intros I (L & C & F). unfold select_columns. rewrite <- L.
  assert (M : forall cs, (forall n, In n cs -> N n) ->
    match mapM (fun c => match col_pos (f_cols X1) c with Some i => Ok i | None => Err KeyError end) cs, mapM (fun c => match col_pos (f_cols X2) c with Some i => Ok i | None => Err KeyError end) cs with
    | Ok p1, Ok p2 => forall r1 r2, agr N (f_cols X1) (f_cols X2) r1 r2 -> select_vals p1 (r_vals r1) 0%R = select_vals p2 (r_vals r2) 0%R
    | Err e1, Err e2 => e1 = e2 | _, _ => False end).
  { induction cs as [|c cs IH]; intros H; [cbn; reflexivity|]. cbn [mapM]. specialize (IH (fun n Hn => H n (or_intror Hn))).
    assert (NC : N c) by (apply H; now left). pose proof (pos_same N _ _ c NC (C c NC)) as Q. destruct (col_pos (f_cols X1) c) as [i|], (col_pos (f_cols X2) c) as [j|]; try contradiction Q; cbn [bind]; [|reflexivity].
    destruct (mapM (fun c => match col_pos (f_cols X1) c with Some i => Ok i | None => Err KeyError end) cs) as [p1|e1], (mapM (fun c => match col_pos (f_cols X2) c with Some i => Ok i | None => Err KeyError end) cs) as [p2|e2]; try contradiction IH; cbn [bind]; [|exact IH].
    intros r1 r2 A. cbn [select_vals map]. f_equal; [now apply Q|now apply IH]. }
  specialize (M cols I). destruct (mapM (fun c => match col_pos (f_cols X1) c with Some i => Ok i | None => Err KeyError end) cols) as [p1|e1], (mapM (fun c => match col_pos (f_cols X2) c with Some i => Ok i | None => Err KeyError end) cols) as [p2|e2]; try contradiction M; cbn [bind]; [|now rewrite M]. do 2 f_equal.
  clear I C. induction F as [|r1 r2 l1 l2 A F IH]; cbn [map]; [reflexivity|]. rewrite (M _ _ A), IH. destruct A as (-> & -> & _). reflexivity.
Qed.

(** columns copied for every series *)
Lemma ag_set (N : string -> Prop) X1 X2 name v : ag N X1 X2 -> ag (fun n => N n \/ n = name) (set_col X1 name (fun _ => v)) (set_col X2 name (fun _ => v)).
Proof.
  intros (L & C & F).
  assert (G : forall (X : frame R), exists h, set_col X name (fun _ => v) = mkFrame (f_levels X) (f_cols (set_col X name (fun _ => v))) (map h (f_rows X)) /\ forall r, r_path (h r) = r_path r /\ r_time (h r) = r_time r /\
    (List.length (r_vals r) = List.length (f_cols X) -> List.length (r_vals (h r)) = List.length (f_cols (set_col X name (fun _ => v))) /\
      forall n, value_of (f_cols (set_col X name (fun _ => v))) (r_vals (h r)) n = if String.eqb n name then Some v else value_of (f_cols X) (r_vals r) n)).
  { intros X. unfold set_col. destruct (col_pos (f_cols X) name) as [i|] eqn:E; cbn [f_cols].
    - eexists. split; [reflexivity|]. intros r. cbn [r_path r_time r_vals]. do 2 (split; [reflexivity|]). intros Q. split; [now rewrite set_nth_length|]. intros n. now apply value_of_set.
    - eexists. split; [reflexivity|]. intros r. cbn [r_path r_time r_vals]. do 2 (split; [reflexivity|]). intros Q. split; [rewrite !app_length; cbn; lia|]. intros n. apply value_of_app; [exact Q|]. now apply col_pos_None. }
  destruct (G X1) as (h1 & E1 & G1). destruct (G X2) as (h2 & E2 & G2).
  assert (CO : forall (X : frame R) n, In n (f_cols (set_col X name (fun _ => v))) <-> In n (f_cols X) \/ n = name).
  { intros X n. rewrite set_col_cols. destruct (str_in name (f_cols X)) eqn:S; [apply str_in_iff in S; split; [auto|intros [H| ->]; auto]|]. rewrite in_app_iff. cbn. intuition congruence. }
  split; [rewrite E1, E2; exact L|]. split.
  - intros n H. rewrite !CO. destruct H as [H|H]; [rewrite (C n H); tauto|tauto].
  - rewrite E1, E2. cbn [f_rows f_cols]. clear E1 E2 C CO G. induction F as [|r1 r2 l1 l2 (P & T & L1 & L2 & V) F IH]; cbn [map]; constructor; [|exact IH].
    destruct (G1 r1) as (P1 & T1 & A1). destruct (G2 r2) as (P2 & T2 & A2). destruct (A1 L1) as [A1' B1]. destruct (A2 L2) as [A2' B2]. split; [congruence|]. split; [congruence|]. split; [exact A1'|]. split; [exact A2'|]. intros n H. rewrite B1, B2. destruct (String.eqb_spec n name); [reflexivity|]. apply V. tauto.
Qed.
Lemma ag_zero_pairs (ps : list (string * path)) : forall (N : string -> Prop) X1 X2, ag N X1 X2 ->
  ag (fun n => N n \/ exists p, In p ps /\ n = pname p) (fold_left (fun X p => set_col X (pname p) (fun _ => 0%R)) ps X1) (fold_left (fun X p => set_col X (pname p) (fun _ => 0%R)) ps X2).
Proof.
  induction ps as [|p ps IH]; intros N X1 X2 A; cbn [fold_left].
  - eapply ag_weaken; [|exact A]. intros n [H|(p & [] & _)]. exact H.
  - eapply ag_weaken; [|apply IH; apply ag_set; exact A]. cbn. intros n [H|(q & [<-|H] & E)]; eauto.
Qed.
Lemma ag_copy (No N : string -> Prop) Xo1 Xo2 X1 X2 c i : No c -> N (get_col_name c i) -> ag No Xo1 Xo2 -> ag N X1 X2 -> ag_res N (copy_column 0%R (fun _ => false) Xo1 X1 c i) (copy_column 0%R (fun _ => false) Xo2 X2 c i).
Proof.
  intros HC HN (_ & Co & Fo) (L & C & F). unfold copy_column.
  pose proof (pos_same No _ _ c HC (Co c HC)) as Q. pose proof (pos_same N _ _ _ HN (C _ HN)) as Q'.
  destruct (col_pos (f_cols Xo1) c) as [i1|], (col_pos (f_cols Xo2) c) as [i2|]; try contradiction Q; cbn; [|reflexivity].
  destruct (col_pos (f_cols X1) (get_col_name c i)) as [d1|] eqn:D1, (col_pos (f_cols X2) (get_col_name c i)) as [d2|] eqn:D2; try contradiction Q'; cbn; [|reflexivity].
  split; [exact L|]. split; [exact C|]. cbn [f_rows f_cols]. clear L C Co. revert Fo. generalize (f_rows Xo1) (f_rows Xo2). induction F as [|r1 r2 l1 l2 A F IH]; intros o1 o2 Fo; [constructor|]. inversion Fo as [|s1 s2 t1 t2 B Fo']; subst; cbn [combine map]; [constructor|]. constructor; [|now apply IH].
  pose proof A as (P & T & L1 & L2 & V). split; [exact P|]. split; [exact T|]. cbn [r_vals]. split; [now rewrite set_nth_length|]. split; [now rewrite set_nth_length|]. intros n H. rewrite (value_of_set _ _ _ _ _ _ L1 D1), (value_of_set _ _ _ _ _ _ L2 D2).
  destruct (String.eqb n (get_col_name c i)); [|now apply V]. unfold fillna, get_val. rewrite P. now rewrite (Q _ _ B), (Q' _ _ A).
Qed.
Lemma ag_copy_pairs (No N : string -> Prop) Xo1 Xo2 (ps : list (string * path)) : (forall p, In p ps -> No (fst p) /\ N (pname p)) -> ag No Xo1 Xo2 -> forall X1 X2, ag N X1 X2 ->
  ag_res N (foldM (fun Y p => copy_column 0%R (fun _ => false) Xo1 Y (fst p) (snd p)) X1 ps) (foldM (fun Y p => copy_column 0%R (fun _ => false) Xo2 Y (fst p) (snd p)) X2 ps).
Proof.
  intros H Ao. induction ps as [|p ps IH]; intros X1 X2 A; cbn [foldM]; [exact A|]. destruct (H p (or_introl eq_refl)) as [H1 H2]. pose proof (ag_copy No N _ _ _ _ _ (snd p) H1 H2 Ao A) as Q.
  destruct (copy_column _ _ Xo1 X1 _ _) as [Y1|], (copy_column _ _ Xo2 X2 _ _) as [Y2|]; try contradiction Q; cbn [bind]; [|exact Q]. apply IH; [|exact Q]. intros q Hq. apply H. now right.
Qed.
Lemma ag_drop (N : string -> Prop) X1 X2 cols : ag N X1 X2 -> ag N (drop_columns X1 cols) (drop_columns X2 cols).
Proof.
  intros (L & C & F). split; [exact L|]. unfold drop_columns. cbn [f_cols f_rows]. split.
  - intros n H. rewrite (combine_map_filter (fun c => negb (str_in c cols))), (combine_map_filter (fun c => negb (str_in c cols)) (f_cols X2)). rewrite !filter_In, (C n H). tauto.
  - clear C. induction F as [|r1 r2 l1 l2 (P & T & L1 & L2 & V) F IH]; cbn [map]; constructor; [|exact IH]. split; [exact P|]. split; [exact T|]. cbn [r_vals]. split; [now apply drop_length|]. split; [now apply drop_length|].
    intros n H. rewrite (value_of_drop (fun c => negb (str_in c cols)) (f_cols X1)), (value_of_drop (fun c => negb (str_in c cols)) (f_cols X2)) by assumption. now rewrite (V n H).
Qed.
(** the expansion of the columns of a panel *)
Lemma ag_expand (N : string -> Prop) e X1 X2 : (forall n, In n (ex_matched e) -> N n) -> ag N X1 X2 ->
  match expand_transform 0%R (fun _ => false) e X1, expand_transform 0%R (fun _ => false) e X2 with
  | Ok (Z1, e1), Ok (Z2, e2) => ag N Z1 Z2 /\ e1 = e2 | Err x, Err x' => x = x' | _, _ => False end.
Proof.
  intros M A. unfold expand_transform. destruct (ex_skip e); [auto|]. pose proof A as (L & _). rewrite <- L, <- (ag_ids _ _ _ A). destruct (f_levels X1); [reflexivity|]. rewrite !add_zero_pairs, !copy_columns_pairs.
  pose proof (ag_zero_pairs (zero_pairs (ex_matched e) (series_ids X1)) N X1 X2 A) as A0.
  assert (H : forall p, In p (copy_pairs (ex_matched e) (series_ids X1)) -> N (fst p) /\ (N (pname p) \/ exists q, In q (zero_pairs (ex_matched e) (series_ids X1)) /\ pname p = pname q)).
  { intros p Hp. apply copy_pairs_In in Hp. split; [apply M, Hp|]. right. exists p. split; [|reflexivity]. now apply zero_pairs_In. }
  pose proof (ag_copy_pairs N _ X1 X2 _ H A _ _ A0) as Q.
  destruct (foldM _ _ _) as [Z1|], (foldM _ _ _) as [Z2|]; try contradiction Q; cbn [bind]; [|exact Q]. split; [|reflexivity]. apply ag_drop. eapply ag_weaken; [|exact Q]. intros m Hm; cbn beta; now left.
Qed.

(** effects and trends *)
Lemma transform_same (N : string -> Prop) e X1 X2 fh : (forall l n, input_feature_column_names e = Ok l -> In n l -> N n) -> ag N X1 X2 -> transform e (Some X1) fh = transform e (Some X2) fh.
Proof.
  intros H A. unfold transform. destruct (attr (b_fitted (get_base e))) as [b|]; [|reflexivity]. cbn [bind]. destruct (negb b); [reflexivity|]. destruct (should_skip_predict e) as [sk|]; [|reflexivity]. cbn [bind]. destruct sk; [reflexivity|].
  destruct (input_feature_column_names e) as [l|]; [|reflexivity]. cbn [bind]. rewrite (ag_select N _ _ l (fun n => H l n eq_refl) (ag_fh _ fh _ _ A)). reflexivity.
Qed.
Lemma effects_same (N : string -> Prop) g X1 X2 fh : (forall x n, In x g -> In n (snd x) -> N n) -> ag N X1 X2 -> transform_effects g X1 fh = transform_effects g X2 fh.
Proof.
  intros H A. unfold transform_effects. generalize (@nil (string * edata)). induction g as [|[[m e] cols] g IH]; intros o; cbn [foldM]; [reflexivity|].
  rewrite (ag_select N X1 X2 cols (fun n => H _ n (or_introl eq_refl)) A). match goal with |- bind ?a _ = bind ?a _ => destruct a as [o'|]; [|reflexivity] end. cbn [bind]. apply IH. intros x n Hx. apply H. now right.
Qed.
Lemma trend_same ns_of (N : string -> Prop) t X1 X2 fh : (forall n, trend_column t n -> N n) -> ag N X1 X2 -> trend_transform ns_of t X1 fh = trend_transform ns_of t X2 fh.
Proof.
  intros H A. assert (T : forall b, (forall l n, b_cols b = Some l -> In n l -> N n) -> trend_rows b X1 fh = trend_rows b X2 fh).
  { intros b Hb. unfold trend_rows. destruct (attr (b_fitted b)) as [q|]; [|reflexivity]. cbn [bind]. destruct (negb q); [reflexivity|]. destruct (b_cols b) as [l|]; [|reflexivity]. cbn [attr bind]. apply (ag_select N); [intros n; now apply Hb|now apply ag_fh]. }
  destruct t as [p c b f|s b f|e]; cbn [trend_transform].
  - rewrite T; [reflexivity|]. intros l n E I. apply H. cbn. eauto.
  - rewrite T; [reflexivity|]. intros l n E I. apply H. cbn. eauto.
  - rewrite (transform_same N e X1 X2 fh); [reflexivity| |exact A]. intros l n E I. apply H. cbn. eauto.
Qed.
