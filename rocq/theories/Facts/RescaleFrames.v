(** Exogenous columns in other units: frames, expansion and prepared data. *)
From Coq Require Import Reals Lra ZArith String Ascii Bool List Lia.
From Verif.Model Require Import Base Num Frame Arr Prog Likelihood Effect Trend TrendProg Scale Expand Forecaster.
From Verif.Spec Require Import FrameSpec ProgSpec EffectSpec ForecasterSpec CounterSpec RescaleSpec.
From Verif.Facts Require Import BaseFacts FrameFacts ExpandFacts NumFacts ForecasterFacts ForecasterInv HorizonFacts CounterFrames.
Import ListNotations.
Local Open Scope string_scope.

(** * Rows *)
Lemma scale_vals_length ks vs : List.length ks = List.length vs -> List.length (scale_vals ks vs) = List.length vs.
Proof. intros H. unfold scale_vals. rewrite map_length, combine_length. lia. Qed.
Lemma scale_vals_nth ks : forall vs i, i < List.length ks -> nth i (scale_vals ks vs) 0%R = (nth i ks 0 * nth i vs 0)%R.
Proof.
  unfold scale_vals. induction ks as [|k ks IH]; intros vs i L; [simpl in L; lia|]. destruct vs as [|v vs]; [destruct i; simpl; ring|].
  destruct i as [|i]; [reflexivity|]. cbn [combine map nth]. apply IH. simpl in L. lia.
Qed.
Lemma scale_vals_app ks vs k v : List.length ks = List.length vs -> scale_vals (ks ++ [k])%list (vs ++ [v])%list = (scale_vals ks vs ++ [(k * v)%R])%list.
Proof. revert vs. unfold scale_vals. induction ks as [|x ks IH]; intros [|y vs] L; try discriminate; [reflexivity|]. cbn [app combine map]. f_equal. apply IH. now injection L. Qed.
Lemma scale_vals_set ks : forall vs i v, List.length ks = List.length vs -> scale_vals ks (set_nth i v vs) = set_nth i (nth i ks 0 * v)%R (scale_vals ks vs).
Proof.
  unfold scale_vals, set_nth. induction ks as [|k ks IH]; intros [|x vs] i v L; try discriminate; [destruct i; reflexivity|]. destruct i as [|i]; [reflexivity|].
  cbn [combine map firstn skipn app nth fst snd]. f_equal. rewrite IH by (now injection L). reflexivity.
Qed.

Definition units_row (cols : list string) (k : string -> R) (r r' : row R) : Prop :=
  r_path r = r_path r' /\ r_time r = r_time r' /\ List.length (r_vals r) = List.length cols /\ r_vals r' = scale_vals (map k cols) (r_vals r).
Definition units_of (k : string -> R) (X X' : frame R) : Prop :=
  f_levels X = f_levels X' /\ f_cols X = f_cols X' /\ Forall2 (units_row (f_cols X) k) (f_rows X) (f_rows X').

Lemma units_intro k X : rectangular X -> units_of k X (in_units k X).
Proof.
  intros W. split; [reflexivity|]. split; [reflexivity|]. cbn [in_units f_rows]. unfold rectangular in W. induction W as [|r l H F IH]; constructor; [|exact IH].
  unfold units_row. cbn [r_path r_time r_vals]. auto.
Qed.
Lemma units_empty k levels index : units_of k (empty_frame levels index) (empty_frame levels index).
Proof.
  split; [reflexivity|]. split; [reflexivity|]. cbn [empty_frame f_rows f_cols]. induction index as [|x l IH]; constructor; [|exact IH]. unfold units_row. cbn. auto.
Qed.
Lemma units_no_cols k X : rectangular X -> f_cols X = [] -> units_of k X X.
Proof.
  intros W C. split; [reflexivity|]. split; [reflexivity|]. unfold rectangular in W. rewrite C in *. induction W as [|r l H F IH]; constructor; [|exact IH].
  unfold units_row. destruct (r_vals r); [|discriminate]. auto.
Qed.

Lemma units_paths k X X' : units_of k X X' -> map r_path (f_rows X) = map r_path (f_rows X').
Proof. intros (_ & _ & F). induction F as [|r r' l l' (P & _) F IH]; simpl; congruence. Qed.
Lemma units_times k X X' : units_of k X X' -> map r_time (f_rows X) = map r_time (f_rows X').
Proof. intros (_ & _ & F). induction F as [|r r' l l' (_ & P & _) F IH]; simpl; congruence. Qed.
Lemma units_ids k X X' : units_of k X X' -> series_ids X = series_ids X'.
Proof. intros H. unfold series_ids. now rewrite (units_paths _ _ _ H). Qed.
Lemma units_no_columns k X X' : units_of k X X' -> no_columns X = no_columns X'.
Proof. intros (_ & C & _). unfold no_columns. now rewrite C. Qed.

Definition units_res k (r r' : res (frame R)) : Prop := match r, r' with Ok B, Ok B' => units_of k B B' | Err x, Err x' => x = x' | _, _ => False end.

Lemma units_select k X X' cols : units_of k X X' -> units_res k (select_columns 0%R X cols) (select_columns 0%R X' cols).
Proof.
  intros (L & C & F). unfold select_columns, units_res. rewrite <- C, <- L.
  destruct (mapM _ cols) as [pos|] eqn:M; [|reflexivity]. cbn [bind]. apply BaseFacts.mapM_ok in M.
  split; [reflexivity|]. split; [reflexivity|]. cbn [f_rows f_cols].
  assert (G : forall r r', units_row (f_cols X) k r r' -> select_vals pos (r_vals r') 0%R = scale_vals (map k cols) (select_vals pos (r_vals r) 0%R)).
  { intros r r' (_ & _ & W & E). rewrite E. unfold select_vals, scale_vals at 2. clear F L C. induction M as [|n i cols pos E1 M IH]; [reflexivity|].
    cbn [map combine fst snd]. f_equal; [|exact IH]. destruct (col_pos (f_cols X) n) as [j|] eqn:P; [|discriminate]. injection E1 as ->.
    pose proof (col_pos_nth _ _ _ P) as N. rewrite scale_vals_nth by (rewrite map_length; apply nth_error_Some; congruence). f_equal.
    rewrite (nth_indep _ _ (k n)) by (rewrite map_length; apply nth_error_Some; congruence). rewrite map_nth. f_equal. now apply nth_error_nth. }
  assert (LP : List.length pos = List.length cols) by (symmetry; exact (Forall2_len _ _ _ M)).
  clear L C M. induction F as [|r r' l l' A F IH]; [constructor|]. cbn [map]. constructor; [|exact IH]. unfold units_row. cbn [r_path r_time r_vals].
  split; [exact (proj1 A)|]. split; [exact (proj1 (proj2 A))|]. split; [unfold select_vals; now rewrite map_length|]. now apply G.
Qed.

Lemma units_filter k (p : path * Z -> bool) X X' : units_of k X X' ->
  units_of k (filter_rows (fun r => p (r_path r, r_time r)) X) (filter_rows (fun r => p (r_path r, r_time r)) X').
Proof.
  intros (L & C & F). split; [exact L|]. split; [exact C|]. cbn [filter_rows f_rows f_cols].
  induction F as [|r r' l l' A F IH]; [constructor|]. cbn [filter]. pose proof A as (P & T & _). rewrite P, T. destruct (p _); [constructor|]; auto.
Qed.
Lemma units_fh k fh X X' : units_of k X X' -> units_of k (filter_fh fh X) (filter_fh fh X').
Proof. exact (units_filter k (fun q => existsb (Z.eqb (snd q)) fh) X X'). Qed.

Lemma units_rows_of {A} cols k (g g' : A -> list (row R)) l : (forall a, Forall2 (units_row cols k) (g a) (g' a)) ->
  match mapM (fun a => match g a with [] => Err KeyError | r :: rs => Ok (r :: rs) end) l, mapM (fun a => match g' a with [] => Err KeyError | r :: rs => Ok (r :: rs) end) l with
  | Ok a, Ok b => Forall2 (units_row cols k) (concat a) (concat b) | Err x, Err x' => x = x' | _, _ => False end.
Proof.
  intros H. induction l as [|a l IH]; [constructor|]. cbn [mapM]. specialize (H a). destruct H as [|r r' u u' A1 Q]; cbn [bind]; [reflexivity|].
  destruct (mapM _ l) as [x|], (mapM _ l) as [y|]; try contradiction; cbn [bind]; [|exact IH]. cbn [concat]. apply Forall2_app; [constructor; assumption|exact IH].
Qed.
Lemma units_loc k X X' index : units_of k X X' -> units_res k (loc_index X index) (loc_index X' index).
Proof.
  intros (L & C & F). unfold loc_index, units_res.
  pose proof (units_rows_of (f_cols X) k (fun pt : list string * Z => filter (fun r => path_eqb (r_path r) (fst pt) && Z.eqb (r_time r) (snd pt)) (f_rows X))
    (fun pt => filter (fun r => path_eqb (r_path r) (fst pt) && Z.eqb (r_time r) (snd pt)) (f_rows X')) index) as G.
  lapply G; clear G; [intros G|].
  - destruct (mapM _ _) as [a|], (mapM _ _) as [b|]; try contradiction; cbn [bind]; [|exact G]. split; [exact L|]. split; [exact C|exact G].
  - intros pt. induction F as [|r r' l l' A F IH]; [constructor|]. cbn [filter]. pose proof A as (P & T & _). rewrite P, T. destruct (_ && _); [constructor|]; auto.
Qed.

Lemma units_bottom k X X' : units_of k X X' -> units_res k (loc_bottom_series X) (loc_bottom_series X').
Proof.
  intros H. pose proof H as (L & C & F). unfold loc_bottom_series, get_bottom_series_idx. rewrite <- L, <- (units_ids _ _ _ H).
  assert (G : forall idx, units_res k (get_multiindex_loc X idx) (get_multiindex_loc X' idx)).
  { intros [|p0 idx]; [reflexivity|]. cbn [get_multiindex_loc]. exact (units_filter k (fun q => path_in (firstn (List.length p0) (fst q)) (p0 :: idx)) X X' H). }
  destruct (f_levels X) as [|[|n]]; cbn [bind]; [exact H|apply G|apply G].
Qed.

(** * Expansion *)
Lemma nth_units (k : string -> R) cols n i : col_pos cols n = Some i -> nth i (map k cols) 0%R = k n.
Proof.
  intros P. pose proof (col_pos_nth _ _ _ P) as N. rewrite (nth_indep _ _ (k n)) by (rewrite map_length; apply nth_error_Some; congruence).
  rewrite map_nth. f_equal. now apply nth_error_nth.
Qed.

Lemma units_set k X X' name : units_of k X X' -> units_of k (set_col X name (fun _ => 0%R)) (set_col X' name (fun _ => 0%R)).
Proof.
  intros (L & C & F). unfold set_col. rewrite <- C. destruct (col_pos (f_cols X) name) as [i|] eqn:P.
  - split; [exact L|]. split; [reflexivity|]. cbn [f_cols f_rows]. clear C.
    induction F as [|r r' l l' (A & B & W & E) F IH]; constructor; [|exact IH]. unfold units_row. cbn [r_path r_time r_vals]. rewrite !set_nth_length.
    repeat (split; [assumption|]). rewrite E, scale_vals_set by (now rewrite map_length). now rewrite Rmult_0_r.
  - split; [exact L|]. split; [reflexivity|]. cbn [f_cols f_rows]. clear C.
    induction F as [|r r' l l' (A & B & W & E) F IH]; constructor; [|exact IH]. unfold units_row. cbn [r_path r_time r_vals]. rewrite !app_length. cbn [List.length].
    split; [exact A|]. split; [exact B|]. split; [lia|]. rewrite map_app. cbn [map]. rewrite scale_vals_app by (now rewrite map_length). now rewrite E, Rmult_0_r.
Qed.

Lemma units_zeros k matched ids : forall X X', units_of k X X' -> units_of k (add_zero_columns 0%R matched ids X) (add_zero_columns 0%R matched ids X').
Proof.
  unfold add_zero_columns. induction matched as [|m matched IH]; intros X X' H; [exact H|]. cbn [fold_left]. apply IH.
  clear IH. revert X X' H. induction ids as [|i ids IH]; intros X X' H; [exact H|]. cbn [fold_left]. apply IH. now apply units_set.
Qed.

Lemma units_copy k Xo Xo' X X' c i : copies_alike k -> units_of k Xo Xo' -> units_of k X X' ->
  units_res k (copy_column 0%R (fun _ => false) Xo X c i) (copy_column 0%R (fun _ => false) Xo' X' c i).
Proof.
  intros KC (Lo & Co & Fo) (L & C & F). unfold copy_column. rewrite <- Co, <- C.
  destruct (col_pos (f_cols Xo) c) as [src|] eqn:Ps; [|reflexivity]. destruct (col_pos (f_cols X) (get_col_name c i)) as [dst|] eqn:Pd; [|reflexivity].
  split; [exact L|]. split; [reflexivity|]. cbn [f_rows f_cols]. clear Co C L Lo. revert Fo. generalize (f_rows Xo) (f_rows Xo').
  induction F as [|r r' l l' A F IH]; intros lo lo' Fo; [constructor|]. inversion Fo as [|ro ro' lo0 lo0' Ao Fo0]; subst; [constructor|].
  cbn [combine map]. constructor; [|now apply IH]. pose proof A as (P & T & W & E). pose proof Ao as (_ & _ & Wo & Eo). unfold units_row. cbn [r_path r_time r_vals]. rewrite set_nth_length.
  repeat (split; [assumption|]). rewrite scale_vals_set by (now rewrite map_length). rewrite E. f_equal. rewrite (nth_units k _ _ _ Pd).
  unfold fillna. cbn beta iota. unfold get_val. rewrite <- P, E, Eo. destruct (path_eqb (r_path r) i).
  - rewrite scale_vals_nth, (nth_units k _ _ _ Ps); [|rewrite map_length; apply nth_error_Some; rewrite (col_pos_nth _ _ _ Ps); discriminate].
    f_equal. symmetry. exact (KC c i).
  - rewrite scale_vals_nth, (nth_units k _ _ _ Pd); [reflexivity|]. rewrite map_length; apply nth_error_Some; rewrite (col_pos_nth _ _ _ Pd); discriminate.
Qed.

Lemma units_fold {A} k (g g' : frame R -> A -> res (frame R)) l : (forall a X X', In a l -> units_of k X X' -> units_res k (g X a) (g' X' a)) ->
  forall X X', units_of k X X' -> units_res k (foldM g X l) (foldM g' X' l).
Proof.
  intros S. induction l as [|a l IH]; intros X X' H; [exact H|]. cbn [foldM]. pose proof (S a X X' (or_introl eq_refl) H) as G. unfold units_res in G.
  destruct (g X a) as [B|], (g' X' a) as [B'|]; try contradiction; cbn [bind]; [|exact G]. apply IH; [|exact G]. intros; apply S; simpl; auto.
Qed.

Lemma units_drop k X X' cols : units_of k X X' -> units_of k (drop_columns X cols) (drop_columns X' cols).
Proof.
  intros (L & C & F). unfold drop_columns. rewrite <- C. split; [exact L|]. split; [reflexivity|]. cbn [f_rows f_cols]. clear C L.
  set (kf := fun c => negb (str_in c cols)). induction F as [|r r' l l' (P & T & W & E) F IH]; constructor; [|exact IH].
  unfold units_row. cbn [r_path r_time r_vals]. split; [exact P|]. split; [exact T|]. split; [now apply drop_length|]. rewrite E.
  clear -W. unfold scale_vals. revert W. generalize (r_vals r). induction (f_cols X) as [|c cs IH]; intros [|v vs] W; try discriminate; [reflexivity|].
  cbn [map combine filter fst snd]. destruct (kf c); cbn [map combine fst snd]; [f_equal|]; apply IH; now injection W.
Qed.

Definition expand_res k (r r' : res (frame R * expander)) : Prop :=
  match r, r' with Ok (B, x), Ok (B', x') => units_of k B B' /\ x = x' | Err x, Err x' => x = x' | _, _ => False end.
Lemma units_expand k e X X' : copies_alike k -> units_of k X X' ->
  expand_res k (expand_transform 0%R (fun _ => false) e X) (expand_transform 0%R (fun _ => false) e X').
Proof.
  intros KC H. unfold expand_transform. destruct (ex_skip e); [split; [exact H|reflexivity]|]. rewrite <- (proj1 H). destruct (f_levels X) as [|n]; [reflexivity|]. rewrite <- (units_ids _ _ _ H).
  assert (G : units_res k (copy_columns 0%R (fun _ => false) (ex_matched e) (series_ids X) X (add_zero_columns 0%R (ex_matched e) (series_ids X) X))
     (copy_columns 0%R (fun _ => false) (ex_matched e) (series_ids X) X' (add_zero_columns 0%R (ex_matched e) (series_ids X) X'))).
  { unfold copy_columns. apply units_fold; [|now apply units_zeros]. intros i Y Y' _ HY. apply units_fold; [|exact HY]. intros c Z Z' _ HZ. now apply units_copy. }
  unfold units_res in G. destruct (copy_columns _ _ _ _ X _) as [B|], (copy_columns _ _ _ _ X' _) as [B'|]; try contradiction; cbn [bind expand_res]; [|exact G]. split; [now apply units_drop|reflexivity].
Qed.
Lemma units_expand_fit order k regex X X' : units_of k X X' -> expand_fit order regex X = expand_fit order regex X'.
Proof. intros H. unfold expand_fit. pose proof H as (L & C & _). now rewrite <- C, <- L, (units_ids _ _ _ H). Qed.
Lemma units_expand_bottom order k shared X X' : copies_alike k -> units_of k X X' ->
  expand_res k (expand_bottom 0%R (fun _ => false) order shared X) (expand_bottom 0%R (fun _ => false) order shared X').
Proof.
  intros KC H. unfold expand_bottom. pose proof H as (L & C & _). rewrite <- C, (units_expand_fit order _ _ _ _ H). destruct (expand_fit order _ X'); cbn [bind]; [now apply units_expand|reflexivity].
Qed.
