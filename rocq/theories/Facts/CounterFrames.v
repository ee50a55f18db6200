(** Two scenarios: what the forecaster prepares from exogenous data which differ in some columns. *)
From Coq Require Import Reals Lra ZArith String Ascii Bool List Lia.
From Verif.Model Require Import Base Num Frame Arr Prog Likelihood Effect Trend TrendProg Scale Expand Forecaster.
From Verif.Spec Require Import FrameSpec ProgSpec EffectSpec ForecasterSpec SiteSpec ComponentSpec CounterSpec.
From Verif.Facts Require Import BaseFacts FrameFacts ExpandFacts NumFacts ProgFacts ForecasterFacts ForecasterInv SiteFacts HorizonFacts ComponentFacts CounterFacts.
Import ListNotations.
Local Open Scope string_scope.

(** * Frames which agree on some columns *)
Definition row_agree (cols : list string) (Q : string -> Prop) (r r' : row R) : Prop :=
  r_path r = r_path r' /\ r_time r = r_time r' /\ List.length (r_vals r) = List.length cols /\ List.length (r_vals r') = List.length cols /\
  forall n, Q n -> value_of cols (r_vals r) n = value_of cols (r_vals r') n.
Definition agree_on (Q : string -> Prop) (X X' : frame R) : Prop :=
  f_levels X = f_levels X' /\ f_cols X = f_cols X' /\ Forall2 (row_agree (f_cols X) Q) (f_rows X) (f_rows X').

Lemma agree_intro S X X' : agree_except S X X' -> rectangular X -> rectangular X' -> agree_on (fun n => ~ In n S) X X'.
Proof.
  intros (L & C & F) W W'. split; [exact L|]. split; [exact C|]. unfold rectangular in *. rewrite <- C in W'. clear C.
  induction F as [|r r' l l' (P & T & V) F IH]; constructor; inversion W; inversion W'; subst; [|auto]. unfold row_agree. auto.
Qed.
Lemma agree_weaken (Q Q' : string -> Prop) X X' : agree_on Q X X' -> (forall n, Q' n -> Q n) -> agree_on Q' X X'.
Proof.
  intros (L & C & F) W. split; [exact L|]. split; [exact C|]. eapply Forall2_weaken; [exact F|]. intros r r' _ (A & B & D & D' & E). unfold row_agree. auto 8.
Qed.
Lemma agree_refl Q X : rectangular X -> agree_on Q X X.
Proof. intros W. split; [reflexivity|]. split; [reflexivity|]. unfold rectangular in W. induction W as [|r l H F IH]; constructor; [unfold row_agree; auto 8|exact IH]. Qed.

Lemma agree_paths Q X X' : agree_on Q X X' -> map r_path (f_rows X) = map r_path (f_rows X').
Proof. intros (_ & _ & F). induction F as [|r r' l l' (P & _) F IH]; simpl; congruence. Qed.
Lemma agree_times Q X X' : agree_on Q X X' -> map r_time (f_rows X) = map r_time (f_rows X').
Proof. intros (_ & _ & F). induction F as [|r r' l l' (_ & P & _) F IH]; simpl; congruence. Qed.
Lemma agree_ids Q X X' : agree_on Q X X' -> series_ids X = series_ids X'.
Proof. intros H. unfold series_ids. now rewrite (agree_paths _ _ _ H). Qed.

Lemma agree_nth Q cols r r' n i : row_agree cols Q r r' -> Q n -> col_pos cols n = Some i -> nth i (r_vals r) 0%R = nth i (r_vals r') 0%R.
Proof.
  intros (_ & _ & W & W' & V) HQ P. specialize (V n HQ). rewrite (value_of_pos _ _ _ _ W P), (value_of_pos _ _ _ _ W' P) in V.
  destruct (nth_error (r_vals r) i) eqn:E; symmetry in V.
  - rewrite (nth_error_nth _ _ _ E). symmetry. now apply nth_error_nth.
  - rewrite !nth_overflow; [reflexivity|now apply nth_error_None|now apply nth_error_None].
Qed.

(** the columns of an effect that avoids what changed look the same *)
Lemma agree_select Q X X' cols : agree_on Q X X' -> (forall n, In n cols -> Q n) -> select_columns 0%R X cols = select_columns 0%R X' cols.
Proof.
  intros (L & C & F) HQ. unfold select_columns. rewrite <- C, <- L.
  destruct (mapM _ cols) as [pos|] eqn:M; [|reflexivity]. cbn [bind]. do 2 f_equal. apply BaseFacts.mapM_ok in M.
  assert (G : forall r r', row_agree (f_cols X) Q r r' -> select_vals pos (r_vals r) 0%R = select_vals pos (r_vals r') 0%R).
  { intros r r' A. unfold select_vals. clear F C L. induction M as [|n i cols pos E M IH]; [reflexivity|]. cbn [map]. f_equal; [|apply IH; intros; apply HQ; simpl; auto].
    destruct (col_pos (f_cols X) n) as [j|] eqn:P; [|discriminate]. injection E as ->. eapply agree_nth; eauto. apply HQ. simpl. auto. }
  clear L C M HQ. revert F. generalize (f_rows X) (f_rows X'). intros l l' F. induction F as [|r r' l l' A F IH]; [reflexivity|]. cbn [map]. rewrite IH, (G _ _ A). destruct A as (-> & -> & _). reflexivity.
Qed.

Lemma agree_filter Q (p : path * Z -> bool) X X' : agree_on Q X X' ->
  agree_on Q (filter_rows (fun r => p (r_path r, r_time r)) X) (filter_rows (fun r => p (r_path r, r_time r)) X').
Proof.
  intros (L & C & F). split; [exact L|]. split; [exact C|]. cbn [filter_rows f_rows f_cols].
  induction F as [|r r' l l' A F IH]; [constructor|]. cbn [filter]. pose proof A as (P & T & _). rewrite P, T. destruct (p _); [constructor|]; auto.
Qed.

Lemma agree_bottom Q X X' : agree_on Q X X' -> match loc_bottom_series X, loc_bottom_series X' with
  | Ok B, Ok B' => agree_on Q B B' | Err x, Err x' => x = x' | _, _ => False end.
Proof.
  intros H. pose proof H as (L & C & F). unfold loc_bottom_series, get_bottom_series_idx. rewrite <- L, <- (agree_ids _ _ _ H).
  assert (G : forall idx, match get_multiindex_loc X idx, get_multiindex_loc X' idx with Ok B, Ok B' => agree_on Q B B' | Err x, Err x' => x = x' | _, _ => False end).
  { intros [|p0 idx]; [reflexivity|]. cbn [get_multiindex_loc]. exact (agree_filter Q (fun q => path_in (firstn (List.length p0) (fst q)) (p0 :: idx)) X X' H). }
  destruct (f_levels X) as [|[|k]]; cbn [bind]; [exact H|apply G|apply G].
Qed.

(** * Expansion *)
Lemma agree_set Q X X' name (v : R) : agree_on Q X X' -> agree_on Q (set_col X name (fun _ => v)) (set_col X' name (fun _ => v)).
Proof.
  intros (L & C & F). unfold set_col. rewrite <- C. destruct (col_pos (f_cols X) name) as [i|] eqn:P.
  - split; [exact L|]. split; [reflexivity|]. cbn [f_cols f_rows]. clear C.
    induction F as [|r r' l l' (A & B & W & W' & V) F IH]; constructor; [|exact IH]. unfold row_agree. cbn [r_path r_time r_vals]. rewrite !set_nth_length.
    repeat (split; [assumption|]). intros n HQ. rewrite (value_of_set _ (r_vals r) _ _ _ _ W P), (value_of_set _ (r_vals r') _ _ _ _ W' P). destruct (String.eqb n name); auto.
  - apply col_pos_None in P. split; [exact L|]. split; [reflexivity|]. cbn [f_cols f_rows]. clear C.
    induction F as [|r r' l l' (A & B & W & W' & V) F IH]; constructor; [|exact IH]. unfold row_agree. cbn [r_path r_time r_vals]. rewrite !app_length. cbn [List.length].
    split; [exact A|]. split; [exact B|]. split; [lia|]. split; [lia|]. intros n HQ. rewrite !value_of_app by assumption. destruct (String.eqb n name); auto.
Qed.

Lemma agree_zeros Q matched ids : forall X X', agree_on Q X X' -> agree_on Q (add_zero_columns 0%R matched ids X) (add_zero_columns 0%R matched ids X').
Proof.
  unfold add_zero_columns. induction matched as [|m matched IH]; intros X X' H; [exact H|]. cbn [fold_left]. apply IH.
  clear IH. revert X X' H. induction ids as [|i ids IH]; intros X X' H; [exact H|]. cbn [fold_left]. apply IH. now apply agree_set.
Qed.

Definition agree_res Q (r r' : res (frame R)) : Prop := match r, r' with Ok B, Ok B' => agree_on Q B B' | Err x, Err x' => x = x' | _, _ => False end.

Lemma agree_copy Q Qo Xo Xo' X X' c i : agree_on Qo Xo Xo' -> agree_on Q X X' -> (Q (get_col_name c i) -> Qo c) ->
  agree_res Q (copy_column 0%R (fun _ => false) Xo X c i) (copy_column 0%R (fun _ => false) Xo' X' c i).
Proof.
  intros (Lo & Co & Fo) (L & C & F) HQ. unfold copy_column. rewrite <- Co, <- C.
  destruct (col_pos (f_cols Xo) c) as [src|] eqn:Ps; [|reflexivity]. destruct (col_pos (f_cols X) (get_col_name c i)) as [dst|] eqn:Pd; [|reflexivity].
  split; [exact L|]. split; [reflexivity|]. cbn [f_rows f_cols]. clear Co C L Lo. revert Fo. generalize (f_rows Xo) (f_rows Xo'). 
  induction F as [|r r' l l' A F IH]; intros lo lo' Fo; [constructor|]. inversion Fo as [|ro ro' lo0 lo0' Ao Fo0]; subst; [constructor|].
  cbn [combine map]. constructor; [|now apply IH]. pose proof A as (P & T & W & W' & V). unfold row_agree. cbn [r_path r_time r_vals]. rewrite !set_nth_length.
  repeat (split; [assumption|]). intros n HN. rewrite (value_of_set _ (r_vals r) _ _ _ _ W Pd), (value_of_set _ (r_vals r') _ _ _ _ W' Pd). destruct (String.eqb_spec n (get_col_name c i)) as [->|NE]; [|auto].
  f_equal. unfold fillna. cbn beta iota. unfold get_val. rewrite <- P. destruct (path_eqb (r_path r) i); [eapply agree_nth; eauto|eapply agree_nth; eauto].
Qed.

Lemma agree_fold {A} Q (g g' : frame R -> A -> res (frame R)) l : (forall a X X', In a l -> agree_on Q X X' -> agree_res Q (g X a) (g' X' a)) ->
  forall X X', agree_on Q X X' -> agree_res Q (foldM g X l) (foldM g' X' l).
Proof.
  intros S. induction l as [|a l IH]; intros X X' H; [exact H|]. cbn [foldM]. pose proof (S a X X' (or_introl eq_refl) H) as G. unfold agree_res in G.
  destruct (g X a) as [B|], (g' X' a) as [B'|]; try contradiction; cbn [bind]; [|exact G]. apply IH; [|exact G]. intros; apply S; simpl; auto.
Qed.

Lemma agree_drop Q X X' cols : agree_on Q X X' -> agree_on Q (drop_columns X cols) (drop_columns X' cols).
Proof.
  intros (L & C & F). unfold drop_columns. rewrite <- C. split; [exact L|]. split; [reflexivity|]. cbn [f_rows f_cols]. clear C L.
  set (kf := fun c => negb (str_in c cols)). induction F as [|r r' l l' (P & T & W & W' & V) F IH]; constructor; [|exact IH].
  unfold row_agree. cbn [r_path r_time r_vals]. split; [exact P|]. split; [exact T|]. split; [now apply drop_length|]. split; [now apply drop_length|].
  intros n HQ. rewrite !value_of_drop by assumption. destruct (kf n); auto.
Qed.

Lemma agree_expand S e X X' : agree_on (fun n => ~ In n S) X X' ->
  match expand_transform 0%R (fun _ => false) e X, expand_transform 0%R (fun _ => false) e X' with
  | Ok (B, _), Ok (B', _) => agree_on (fun n => ~ shows true S n) B B' | Err x, Err x' => x = x' | _, _ => False end.
Proof.
  intros H. assert (HW : agree_on (fun n => ~ shows true S n) X X') by (eapply agree_weaken; [exact H|]; cbv beta; intros n N I; apply N; left; exact I).
  unfold expand_transform. destruct (ex_skip e); [exact HW|]. rewrite <- (proj1 H). destruct (f_levels X) as [|k]; [reflexivity|]. rewrite <- (agree_ids _ _ _ H).
  assert (G : agree_res (fun n => ~ shows true S n) (copy_columns 0%R (fun _ => false) (ex_matched e) (series_ids X) X (add_zero_columns 0%R (ex_matched e) (series_ids X) X))
     (copy_columns 0%R (fun _ => false) (ex_matched e) (series_ids X) X' (add_zero_columns 0%R (ex_matched e) (series_ids X) X'))).
  { unfold copy_columns. apply agree_fold; [|now apply agree_zeros]. intros i Y Y' _ HY. apply agree_fold; [|exact HY]. intros c Z Z' _ HZ.
    eapply agree_copy; [exact H|exact HZ|]. cbv beta. intros N I. apply N. right. split; [reflexivity|]. exists c, i. auto. }
  unfold agree_res in G. destruct (copy_columns _ _ _ _ X _) as [B|], (copy_columns _ _ _ _ X' _) as [B'|]; try contradiction; cbn [bind]; [now apply agree_drop|exact G].
Qed.

(** * Prepared data *)
Lemma prepared_same fitted fh X X' d d' name :
  transform_effects fitted X fh = Ok d -> transform_effects fitted X' fh = Ok d' ->
  (forall e cols, In (name, e, cols) fitted -> select_columns 0%R X cols = select_columns 0%R X' cols) -> dict_get d name = dict_get d' name.
Proof.
  unfold transform_effects. assert (G : forall acc acc', dict_get acc name = dict_get acc' name -> forall d d',
    foldM (fun out f => let '(name, e, cols) := f in skip <- should_skip_predict e ;; if (skip : bool) then Ok out
           else XC <- select_columns 0%R X cols ;; d <- transform e (Some XC) fh ;; Ok (dict_set out name d)) acc fitted = Ok d ->
    foldM (fun out f => let '(name, e, cols) := f in skip <- should_skip_predict e ;; if (skip : bool) then Ok out
           else XC <- select_columns 0%R X' cols ;; d <- transform e (Some XC) fh ;; Ok (dict_set out name d)) acc' fitted = Ok d' ->
    (forall e cols, In (name, e, cols) fitted -> select_columns 0%R X cols = select_columns 0%R X' cols) -> dict_get d name = dict_get d' name).
  { induction fitted as [|[[nm e] cols] fitted IH]; intros acc acc' E a b H H' S; cbn [foldM] in H, H'.
    - injection H as <-. injection H' as <-. exact E.
    - assert (S' : forall e cols, In (name, e, cols) fitted -> select_columns 0%R X cols = select_columns 0%R X' cols) by (intros; eapply S; right; eassumption).
      destruct (should_skip_predict e) as [[|]|]; cbn [bind] in H, H'; try discriminate; [eapply (IH acc acc'); eassumption|].
      destruct (select_columns 0%R X cols) as [XC|] eqn:E1; cbn [bind] in H; [|discriminate]. destruct (select_columns 0%R X' cols) as [XC'|] eqn:E1'; cbn [bind] in H'; [|discriminate].
      destruct (transform e (Some XC) fh) as [x|] eqn:E2; cbn [bind] in H; [|discriminate]. destruct (transform e (Some XC') fh) as [x'|] eqn:E2'; cbn [bind] in H'; [|discriminate].
      refine (IH _ _ _ _ _ H H' S'). rewrite !dict_get_set. destruct (String.eqb_spec name nm) as [->|NE]; [|exact E].
      rewrite (S e cols (or_introl eq_refl)), E1' in E1. injection E1 as ->. rewrite E2' in E2. congruence. }
  intros H H'. eapply G; eauto.
Qed.

Lemma select_length X cols B : select_columns 0%R X cols = Ok B -> List.length (f_rows B) = List.length (f_rows X).
Proof. unfold select_columns. destruct (mapM _ cols); [|discriminate]. cbn [bind]. intros [= <-]. cbn [f_rows]. now rewrite map_length. Qed.

Lemma trend_same ns_of Q t X X' times td td' : agree_on Q X X' -> (forall e, t <> TEffect e) ->
  trend_transform ns_of t X times = Ok td -> trend_transform ns_of t X' times = Ok td' -> td = td'.
Proof.
  intros A NE H H'. destruct t as [p c b f|ps b loc|e]; cbn [trend_transform] in H, H'.
  - destruct (trend_rows b X times); [|discriminate]. destruct (trend_rows b X' times); [|discriminate]. cbn [bind] in H, H'. destruct (attr f); [|discriminate]. cbn [bind] in H, H'. congruence.
  - inv_bind H. inv_bind H'. injection H as <-. injection H' as <-. unfold flat_transform. unfold trend_rows in E, E0. inv_bind E. inv_bind E0.
    assert (x2 = x1) by congruence. subst x2. destruct (negb x1); [discriminate|]. inv_bind E. inv_bind E0. assert (x3 = x2) by congruence. subst x3.
    apply select_length in E, E0. rewrite E, E0. assert (LR : List.length (f_rows (filter_fh times X)) = List.length (f_rows (filter_fh times X'))); [|now rewrite LR].
    pose proof (agree_filter Q (fun q => existsb (Z.eqb (snd q)) times) X X' A) as (_ & _ & F). exact (Forall2_len _ _ _ F).
  - now destruct (NE e).
Qed.
