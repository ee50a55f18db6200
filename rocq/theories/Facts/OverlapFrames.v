(** The same dates in two horizons: frames. *)
From Coq Require Import Reals Lra ZArith String Ascii Bool List Lia Sorted Permutation.
From Verif.Model Require Import Base Num Frame Arr Prog Likelihood Effect Trend TrendProg Scale Expand Forecaster.
From Verif.Spec Require Import FrameSpec ProgSpec EffectSpec ForecasterSpec OverlapSpec.
From Verif.Facts Require Import BaseFacts FrameFacts NumFacts ArrFacts ExpandFacts TrendFacts ProgFacts ForecasterFacts ForecasterInv ForecasterProps HorizonFacts RescaleEffects LogisticFit OverlapFacts.
Import ListNotations.
Local Open Scope string_scope.

Lemma in_order_nodup ts : in_order ts -> NoDup ts.
Proof.
  induction 1 as [|t ts S IH F]; constructor; [|exact IH]. intros I. rewrite Forall_forall in F. specialize (F _ I). lia.
Qed.
Lemma filter_dates (X : frame R) ts : filter (fun r => if in_dec Z.eq_dec (r_time r) ts then true else false) (f_rows X) = f_rows (filter_fh ts X).
Proof.
  unfold filter_fh, filter_rows. cbn [f_rows]. apply filter_ext. intros r. destruct (in_dec _ _ _) as [I|I]; symmetry.
  - apply existsb_exists. exists (r_time r). split; [exact I|apply Z.eqb_refl].
  - destruct (existsb _ _) eqn:E; [|reflexivity]. apply existsb_exists in E as (t & Ht & E). apply Z.eqb_eq in E. subst t. contradiction.
Qed.
Lemma covers_labels X ts : covers X ts -> labels (filter_fh ts X) = flat_map (fun p => map (fun t => (p, t)) ts) (series_of X).
Proof. unfold covers, labels. now rewrite filter_dates. Qed.

Lemma labels_paths (X Y : frame R) : labels X = labels Y -> map r_path (f_rows X) = map r_path (f_rows Y).
Proof. unfold labels. intros H. apply (f_equal (map fst)) in H. now rewrite !map_map in H. Qed.
Lemma series_ids_labels (X Y : frame R) : labels X = labels Y -> series_ids X = series_ids Y.
Proof. intros H. unfold series_ids. now rewrite (labels_paths _ _ H). Qed.
Lemma series_of_labels (X Y : frame R) : f_levels X = f_levels Y -> labels X = labels Y -> series_of X = series_of Y.
Proof. intros L H. unfold series_of. rewrite L. now rewrite (series_ids_labels _ _ H). Qed.
Lemma filter_labels ts (X Y : frame R) : labels X = labels Y -> labels (filter_fh ts X) = labels (filter_fh ts Y).
Proof.
  unfold labels, filter_fh, filter_rows. cbn [f_rows]. intros H.
  assert (K : forall l : list (row R), map (fun r => (r_path r, r_time r)) (filter (fun r => existsb (Z.eqb (r_time r)) ts) l) = filter (fun pt => existsb (Z.eqb (snd pt)) ts) (map (fun r => (r_path r, r_time r)) l)).
  { intros l. symmetry. now apply filter_map_comm. }
  now rewrite !K, H.
Qed.
Lemma covers_same X Y ts : f_levels X = f_levels Y -> labels X = labels Y -> covers X ts -> covers Y ts.
Proof.
  intros L H C. unfold covers in *. rewrite filter_dates in *. change (labels (filter_fh ts Y) = flat_map (fun p => map (fun t => (p, t)) ts) (series_of Y)).
  change (labels (filter_fh ts X) = flat_map (fun p => map (fun t => (p, t)) ts) (series_of X)) in C. now rewrite <- (filter_labels ts X Y H), <- (series_of_labels X Y L H).
Qed.
Lemma select_labels (X Z : frame R) cols : select_columns 0%R X cols = Ok Z -> labels Z = labels X /\ f_levels Z = f_levels X /\ f_cols Z = cols /\ Forall (fun r => List.length (r_vals r) = List.length cols) (f_rows Z).
Proof.
  unfold select_columns. intros H. destruct (mapM _ cols) as [pos|] eqn:M; [|discriminate]. cbn [bind] in H. injection H as <-. unfold labels. cbn [f_rows f_levels f_cols].
  rewrite map_map. cbn [r_path r_time]. repeat split. apply Forall_forall. intros r Hr. apply in_map_iff in Hr as (r0 & <- & _). cbn [r_vals]. unfold select_vals. rewrite map_length. now apply mapM_length in M.
Qed.

(** ** series of the filtered frame *)
Lemma map_fst_pairs {A B} (ts : list B) (p : A) : map fst (map (fun t => (p, t)) ts) = repeat p (List.length ts).
Proof. induction ts as [|t ts IH]; [reflexivity|]. cbn [map fst List.length repeat]. now rewrite IH. Qed.
Lemma fst_blocks {A B} (ts : list B) (ids : list A) : map fst (flat_map (fun p => map (fun t => (p, t)) ts) ids) = flat_map (fun p => repeat p (List.length ts)) ids.
Proof. induction ids as [|p ids IH]; [reflexivity|]. cbn [flat_map]. now rewrite map_app, IH, map_fst_pairs. Qed.
Lemma series_of_nodup X : NoDup (series_of X).
Proof. unfold series_of. destruct (f_levels X); [constructor; [intros []|constructor]|apply paths_unique_NoDup]. Qed.
Lemma covered_ids X ts : ts <> [] -> covers X ts -> f_levels X <> 0 -> series_ids (filter_fh ts X) = series_ids X.
Proof.
  intros N C L. apply covers_labels in C. unfold series_ids at 1. assert (S : series_of X = series_ids X) by (unfold series_of; now destruct (f_levels X)). rewrite S in C.
  unfold labels in C. apply (f_equal (map fst)) in C. rewrite map_map, fst_blocks in C. change (map r_path (f_rows (filter_fh ts X)) = flat_map (fun p => repeat p (List.length ts)) (series_ids X)) in C. rewrite C. destruct ts as [|t ts]; [congruence|]. apply (unique_groups (fun _ => List.length ts)). apply paths_unique_NoDup.
Qed.
Lemma covered_series X ts : ts <> [] -> covers X ts -> series_of (filter_fh ts X) = series_of X.
Proof.
  intros N C. unfold series_of. change (f_levels (filter_fh ts X)) with (f_levels X). destruct (f_levels X) eqn:L; [reflexivity|]. apply covered_ids; auto. now rewrite L.
Qed.

(** ** blocks of rows *)
Lemma nodup_pairs {A B} (ids : list A) (ts : list B) : NoDup ids -> NoDup ts -> NoDup (flat_map (fun p => map (fun t => (p, t)) ts) ids).
Proof.
  intros NI NT. induction NI as [|p ids I NI IH]; [constructor|]. cbn [flat_map]. apply ModelProps.nodup_app; [|exact IH|].
  - apply FinFun.Injective_map_NoDup; [|exact NT]. intros a b E. now injection E.
  - intros [q t] H1 H2. apply in_map_iff in H1 as (t' & E & _). injection E as <- <-. apply in_flat_map in H2 as (p' & I' & H2). apply in_map_iff in H2 as (t'' & E & _). injection E as <- <-. contradiction.
Qed.
Lemma nth_pairs {A B} (ids : list A) (ts : list B) i j p t : nth_error ids i = Some p -> nth_error ts j = Some t ->
  nth_error (flat_map (fun p => map (fun t => (p, t)) ts) ids) (i * List.length ts + j) = Some (p, t).
Proof.
  intros I J. rewrite flat_map_concat_map. rewrite (nth_error_concat (List.length ts) _ _ ltac:(apply Forall_forall; intros r Hr; apply in_map_iff in Hr as (q & <- & _); apply map_length) i j).
  - rewrite (nth_error_map_some _ _ _ _ I). now apply nth_error_map_some.
  - apply nth_error_Some. congruence.
  - reflexivity.
Qed.
Lemma length_pairs {A B} (ids : list A) (ts : list B) : List.length (flat_map (fun p => map (fun t => (p, t)) ts) ids) = List.length ids * List.length ts.
Proof. induction ids as [|p ids IH]; [reflexivity|]. cbn [flat_map List.length Nat.mul]. rewrite app_length, map_length. lia. Qed.
Lemma block_rows T : forall ids (l : list (row R)), NoDup ids -> map r_path l = flat_map (fun p => repeat p T) ids ->
  l = flat_map (fun p => filter (fun r => path_eqb (r_path r) p) l) ids /\ (forall p, In p ids -> List.length (filter (fun r => path_eqb (r_path r) p) l) = T).
Proof.
  induction ids as [|p ids IH]; intros l N H; [destruct l; [|discriminate]; split; [reflexivity|intros ? []]|].
  inversion_clear N as [|? ? I N']. cbn [flat_map] in H. apply map_eq_app in H as (l1 & l2 & -> & H1 & H2). destruct (IH l2 N' H2) as [E L].
  assert (A1 : forall r, In r l1 -> r_path r = p) by (intros r Hr; apply (in_map r_path) in Hr; rewrite H1 in Hr; now apply repeat_spec in Hr).
  assert (A2 : forall r, In r l2 -> In (r_path r) ids).
  { intros r Hr. apply (in_map r_path) in Hr. rewrite H2 in Hr. apply in_flat_map in Hr as (q & Iq & Hq). apply repeat_spec in Hq. now rewrite Hq. }
  assert (F1 : filter (fun r => path_eqb (r_path r) p) l1 = l1) by (apply FrameFacts.filter_all; intros r Hr; rewrite (A1 r Hr); apply path_eqb_refl).
  assert (F2 : filter (fun r => path_eqb (r_path r) p) l2 = []).
  { apply filter_none. intros r Hr. apply not_true_iff_false. intros E'. apply path_eqb_eq in E'. apply A2 in Hr. congruence. }
  assert (F3 : forall q, In q ids -> filter (fun r => path_eqb (r_path r) q) l1 = []).
  { intros q Iq. apply filter_none. intros r Hr. apply not_true_iff_false. intros E'. apply path_eqb_eq in E'. rewrite (A1 r Hr) in E'. congruence. }
  split.
  - cbn [flat_map]. rewrite filter_app, F1, F2, app_nil_r. f_equal. rewrite E at 1. rewrite !flat_map_concat_map. f_equal. apply map_ext_in. intros q Iq. now rewrite filter_app, F3.
  - intros q [<-|Iq]; rewrite filter_app.
    + rewrite F1, F2, app_nil_r. rewrite <- (map_length r_path), H1. apply repeat_length.
    + rewrite F3 by exact Iq. now apply L.
Qed.

(** ** the array of the rows of a horizon *)
Lemma covered_array Z ts a : ts <> [] -> in_order ts -> covers Z ts -> frame_array (filter_fh ts Z) = Ok a ->
  exists s, a_shape a = (s ++ [List.length (f_cols Z)])%list /\ prod_shape s = List.length (f_rows (filter_fh ts Z)) /\ a_flat a = concat (map r_vals (f_rows (filter_fh ts Z))).
Proof.
  intros N O C H. pose proof (covers_labels _ _ C) as LB. unfold frame_array, series_to_tensor_or_array in H. change (f_levels (filter_fh ts Z)) with (f_levels Z) in H. change (f_cols (filter_fh ts Z)) with (f_cols Z) in H.
  destruct (f_levels Z) as [|lv] eqn:L.
  - cbn [bind arr_of_data] in H. injection H as <-. cbn [a_shape a_flat]. exists [List.length (map r_vals (f_rows (filter_fh ts Z)))]. split; [reflexivity|]. rewrite map_length. split; [apply Nat.mul_1_r|reflexivity].
  - assert (S : series_of Z = series_ids Z) by (unfold series_of; now rewrite L). rewrite S in LB. assert (PB : map r_path (f_rows (filter_fh ts Z)) = flat_map (fun p => repeat p (List.length ts)) (series_ids Z)).
    { apply (f_equal (map fst)) in LB. rewrite fst_blocks in LB. rewrite <- LB. unfold labels. rewrite map_map. reflexivity. }
    destruct (block_rows _ _ _ (paths_unique_NoDup _) PB) as [E LE]. pose proof (covered_ids Z ts N C ltac:(congruence)) as EI.
    rewrite (series_to_tensor_ok (filter_fh ts Z) (List.length ts)) in H; [|cbn; congruence|intros p Hp; apply LE; rewrite EI in Hp; exact Hp].
    cbn [bind arr_of_data] in H. injection H as <-. cbn [a_shape a_flat]. rewrite EI.
    exists [List.length (map (fun p => map r_vals (rows_of (filter_fh ts Z) p)) (series_ids Z)); match map (fun p => map r_vals (rows_of (filter_fh ts Z) p)) (series_ids Z) with [] => 0 | s :: _ => List.length s end].
    split; [reflexivity|]. split.
    + rewrite map_length. rewrite <- (map_length r_path), PB. destruct (series_ids Z) as [|p ids] eqn:EQ; [reflexivity|]. cbn [map]. rewrite map_length. unfold rows_of. rewrite LE by (change (In p (series_ids Z)); rewrite EQ; apply in_eq).
      clear. unfold prod_shape. cbn [fold_right]. rewrite Nat.mul_1_r. generalize (p :: ids). intros l. induction l as [|q l IH]; [reflexivity|]. cbn [flat_map List.length]. rewrite app_length, repeat_length, <- IH. lia.
    + rewrite E at 1. rewrite concat_rows, flat_map_concat_map, concat_map, map_map. reflexivity.
Qed.

Lemma covered_rows Z ts : covers Z ts -> List.length (f_rows (filter_fh ts Z)) = List.length (series_of Z) * List.length ts.
Proof. intros C. apply covers_labels in C. rewrite <- length_pairs, <- C. unfold labels. now rewrite map_length. Qed.
Lemma covered_nth Z ts i j p t : covers Z ts -> nth_error (series_of Z) i = Some p -> nth_error ts j = Some t ->
  exists r, nth_error (f_rows (filter_fh ts Z)) (i * List.length ts + j) = Some r /\ r_path r = p /\ r_time r = t.
Proof.
  intros C I J. pose proof (covers_labels _ _ C) as LB. pose proof (nth_pairs _ _ _ _ _ _ I J) as H. rewrite <- LB in H. unfold labels in H.
  rewrite nth_error_map in H. destruct (nth_error (f_rows (filter_fh ts Z)) _) as [r|]; [|discriminate]. cbn in H. injection H as <- <-. eauto.
Qed.
Lemma nodup_map_inj {A B} (f : A -> B) l a b : NoDup (map f l) -> In a l -> In b l -> f a = f b -> a = b.
Proof.
  induction l as [|x l IH]; intros N Ia Ib E; [destruct Ia|]. cbn [map] in N. inversion_clear N as [|? ? I N'].
  destruct Ia as [->|Ia], Ib as [->|Ib]; auto; exfalso; apply I; [rewrite E|rewrite <- E]; now apply in_map.
Qed.
Lemma covered_same Z ts1 ts2 : in_order ts1 -> covers Z ts1 -> covers Z ts2 ->
  same_there (List.length (series_of Z)) ts1 ts2 (map r_vals (f_rows (filter_fh ts1 Z))) (map r_vals (f_rows (filter_fh ts2 Z))).
Proof.
  intros O C1 C2 p q (i & j1 & j2 & t & I & J1 & J2 & -> & ->). destruct (nth_error (series_of Z) i) as [s|] eqn:S; [|apply nth_error_None in S; lia].
  destruct (covered_nth _ _ _ _ _ _ C1 S J1) as (r1 & E1 & P1 & T1). destruct (covered_nth _ _ _ _ _ _ C2 S J2) as (r2 & E2 & P2 & T2).
  assert (r1 = r2).
  { apply (nodup_map_inj (fun r => (r_path r, r_time r)) (f_rows (filter_fh ts1 Z))).
    - change (NoDup (labels (filter_fh ts1 Z))). rewrite (covers_labels _ _ C1). apply nodup_pairs; [apply series_of_nodup|now apply in_order_nodup].
    - now apply nth_error_In in E1.
    - apply nth_error_In in E2. unfold filter_fh, filter_rows in *. cbn [f_rows] in *. apply filter_In in E2 as [In2 _]. apply filter_In. split; [exact In2|].
      apply existsb_exists. exists t. split; [now apply nth_error_In in J1|]. apply Z.eqb_eq. exact T2.
    - congruence. }
  subst r2. exists (r_vals r1). split; now apply nth_error_map_some.
Qed.

Lemma arrays_same Z ts1 ts2 a1 a2 : ts1 <> [] -> ts2 <> [] -> in_order ts1 -> in_order ts2 -> covers Z ts1 -> covers Z ts2 -> Forall (fun r => List.length (r_vals r) = List.length (f_cols Z)) (f_rows Z) ->
  frame_array (filter_fh ts1 Z) = Ok a1 -> frame_array (filter_fh ts2 Z) = Ok a2 -> same_rows ts1 ts2 (List.length (series_of Z)) a1 a2.
Proof.
  intros N1 N2 O1 O2 C1 C2 W H1 H2. apply covered_array in H1 as (s1 & S1 & Q1 & F1); auto. apply covered_array in H2 as (s2 & S2 & Q2 & F2); auto.
  assert (WF : forall ts, Forall (fun r => List.length r = List.length (f_cols Z)) (map r_vals (f_rows (filter_fh ts Z)))).
  { intros ts. apply Forall_forall. intros r Hr. apply in_map_iff in Hr as (r0 & <- & Hr). rewrite Forall_forall in W. apply W. unfold filter_fh, filter_rows in Hr. cbn [f_rows] in Hr. now apply filter_In in Hr. }
  exists (List.length (f_cols Z)), s1, s2, (map r_vals (f_rows (filter_fh ts1 Z))), (map r_vals (f_rows (filter_fh ts2 Z))). rewrite !map_length.
  do 4 (split; [assumption|]). do 2 (split; [apply WF|]). do 2 (split; [now apply covered_rows|]). do 2 (split; [assumption|]). now apply covered_same.
Qed.

(** * Effects *)
Definition full (e : effect) (X : frame R) : res (frame R) :=
  match e with
  | Fourier _ _ _ _ _ ff x l =>
      ff <- attr ff ;; X <- fourier_transform ff X ;;
      X <- match x with None => Ok X | Some x => '(X, _) <- expand_transform 0%R (fun _ => false) x X ;; Ok X end ;;
      '(_, b) <- attr l ;; cols <- attr (b_cols b) ;; select_columns 0%R X cols
  | _ => Ok X
  end.
Lemma fourier_full ff X ts Y : ts <> [] -> covers X ts -> frame_wf X -> fourier_transform ff (filter_fh ts X) = Ok Y ->
  exists Z, fourier_transform ff X = Ok Z /\ Y = filter_fh ts Z /\ labels Z = labels X /\ f_levels Z = f_levels X.
Proof.
  intros N C W H. unfold fourier_transform in *. change (f_levels (filter_fh ts X)) with (f_levels X) in H.
  destruct (mapM _ (f_rows (filter_fh ts X))) as [rows|] eqn:M; [|discriminate]. cbn [bind] in H. injection H as <-.
  set (g := fun r : row R => m <- find_min (ff_min ff) (r_path r) ;; Ok (mkRow (r_path r) (r_time r) (fourier_vals (ff_pairs ff) (r_time r - m)))) in *.
  assert (K : forall p, In p (series_of X) -> exists m, find_min (ff_min ff) p = Ok m).
  { intros p Hp. destruct ts as [|t ts]; [congruence|]. apply In_nth_error in Hp as (i & Hi). destruct (covered_nth X (t :: ts) i 0 p t C Hi eq_refl) as (r & E & Ep & _).
    destruct (nth_error_mapM _ _ _ _ _ M E) as (r' & G & _). unfold g in G. rewrite Ep in G. destruct (find_min (ff_min ff) p); [eauto|discriminate]. }
  assert (A : forall r, In r (f_rows X) -> In (r_path r) (series_of X)).
  { intros r Hr. unfold series_of. destruct (f_levels X) eqn:L; [left; destruct (W r Hr) as [_ E]; rewrite L in E; now destruct (r_path r)|]. apply series_ids_In. eauto. }
  assert (G : exists all, mapM g (f_rows X) = Ok all).
  { clear M rows. revert A. generalize (f_rows X). induction l as [|r l IH]; intros A; [eexists; reflexivity|]. destruct (IH ltac:(intros; apply A; now right)) as (all & E).
    cbn [mapM]. destruct (K (r_path r) ltac:(apply A; now left)) as (m & Em). unfold g at 1. rewrite Em. cbn [bind]. rewrite E. cbn [bind]. eauto. }
  destruct G as (all & G). rewrite G. cbn [bind]. eexists. split; [reflexivity|]. unfold filter_fh, filter_rows, labels in *. cbn [f_levels f_cols f_rows] in *. split; [f_equal|split; [|reflexivity]].
  - clear - M G. revert rows all M G. generalize (f_rows X). induction l as [|r l IH]; intros rows all M G; cbn [mapM filter] in M, G; [injection M as <-; injection G as <-; reflexivity|].
    destruct (g r) as [r'|] eqn:E; [|discriminate]. cbn [bind] in G. destruct (mapM g l) as [all'|] eqn:EA; [|discriminate]. injection G as <-. cbn [filter].
    assert (ET : r_time r' = r_time r) by (unfold g in E; destruct (find_min _ _); [|discriminate]; now injection E as <-). rewrite ET.
    destruct (existsb _ ts); [|now apply (IH rows all')]. cbn [mapM] in M. rewrite E in M. cbn [bind] in M. destruct (mapM g (filter _ l)) as [rows'|] eqn:ER; [|discriminate]. injection M as <-.
    f_equal. now apply (IH rows' all').
  - clear - G. revert all G. generalize (f_rows X). induction l as [|r l IH]; intros all G; [cbn [mapM] in G; now injection G as <-|]. cbn [mapM] in G. destruct (g r) as [r'|] eqn:E; [|discriminate]. cbn [bind] in G.
    destruct (mapM g l) as [all'|] eqn:EA; [|discriminate]. injection G as <-. cbn [map]. rewrite (IH all' eq_refl). f_equal. unfold g in E. destruct (find_min _ _); [|discriminate]. now injection E as <-.
Qed.
Lemma expand_full x Z ts Y x' : ts <> [] -> covers Z ts -> expand_transform 0%R (fun _ => false) x (filter_fh ts Z) = Ok (Y, x') ->
  exists Z', expand_transform 0%R (fun _ => false) x Z = Ok (Z', x') /\ Y = filter_fh ts Z' /\ labels Z' = labels Z /\ f_levels Z' = f_levels Z.
Proof.
  intros N C H. assert (G : exists Z', expand_transform 0%R (fun _ => false) x Z = Ok (Z', x') /\ Y = filter_fh ts Z').
  { rewrite expand_transform_ids in *. destruct (ex_skip x); [injection H as <- <-; eauto|]. change (f_levels (filter_fh ts Z)) with (f_levels Z) in H. destruct (f_levels Z) eqn:L; [discriminate|].
    rewrite covered_ids in H by (auto; congruence). rewrite filter_expand in H. destruct (expand_ids _ _ Z) as [Z'|]; [|discriminate]. cbn [bind] in *. injection H as <- <-. eauto. }
  destruct G as (Z' & E & ->). exists Z'. split; [exact E|]. split; [reflexivity|]. now apply expand_transform_labels in E.
Qed.

Lemma linear_full b Z ts a : linear_transform b (filter_fh ts Z) ts = Ok (EArr a) -> exists cols Z', b_cols b = Some cols /\ select_columns 0%R Z cols = Ok Z' /\ frame_array (filter_fh ts Z') = Ok a.
Proof.
  unfold linear_transform. intros H. destruct (attr (b_fitted b)) as [[]|]; cbn [bind negb] in H; try discriminate. destruct (should_skip_base true b) as [[]|]; cbn [bind] in H; try discriminate.
  destruct (b_cols b) as [cols|]; [|discriminate]. cbn [attr bind] in H. rewrite filter_fh_twice, select_filter in H. destruct (select_columns 0%R Z cols) as [Z'|] eqn:S; [|discriminate]. cbn [bind] in H.
  exists cols, Z'. split; [reflexivity|]. split; [exact S|]. destruct (frame_array _); [|discriminate]. cbn [bind] in H. now injection H as ->.
Qed.

Definition row_lengths (Z : frame R) : Prop := Forall (fun r => List.length (r_vals r) = List.length (f_cols Z)) (f_rows Z).
Definition no_lift (e : effect) : bool := match e with Lift _ _ _ _ _ => false | _ => true end.
Lemma inner_full e X ts a : ts <> [] -> covers X ts -> frame_wf X -> no_lift e = true -> inner_transform e (filter_fh ts X) ts = Ok (EArr a) ->
  exists Z, full e X = Ok Z /\ frame_array (filter_fh ts Z) = Ok a /\ labels Z = labels X /\ f_levels Z = f_levels X /\ row_lengths Z.
Proof.
  intros N C W NL H. assert (P : (r <- frame_array (filter_fh ts X) ;; Ok (EArr r)) = Ok (EArr a) -> exists Z, Ok X = Ok Z /\ frame_array (filter_fh ts Z) = Ok a /\ labels Z = labels X /\ f_levels Z = f_levels X /\ row_lengths Z).
  { intros Q. exists X. destruct (frame_array _) as [b|]; [|discriminate]. cbn [bind] in Q. injection Q as ->. repeat split. apply Forall_forall. intros r Hr. now apply W. }
  destruct e as [m d b|m d q b|m d q r b|inner t ps b s|sp tl ps m b ff x l]; cbn [inner_transform full] in *; try discriminate NL; try (now apply P). clear P.
  destruct ff as [ff|]; [|discriminate]. cbn [attr bind] in *. destruct (fourier_transform ff (filter_fh ts X)) as [Y|] eqn:F; [|discriminate]. cbn [bind] in H.
  apply fourier_full in F as (Z & F & -> & LZ & VZ); auto. rewrite F. cbn [bind]. assert (CZ : covers Z ts) by (apply (covers_same X); auto).
  assert (FIN : forall Z' , labels Z' = labels X -> f_levels Z' = f_levels X -> ('(_, b0) <- attr l ;; linear_transform b0 (filter_fh ts Z') ts) = Ok (EArr a) ->
    exists Z0, ('(_, b0) <- attr l ;; cols <- attr (b_cols b0) ;; select_columns 0%R Z' cols) = Ok Z0 /\ frame_array (filter_fh ts Z0) = Ok a /\ labels Z0 = labels X /\ f_levels Z0 = f_levels X /\ row_lengths Z0).
  { intros Z' L V Q. destruct l as [[mm bb]|]; [|discriminate]. cbn [attr bind] in *. apply linear_full in Q as (cols & Z0 & B & S & FA). rewrite B. cbn [attr bind]. exists Z0. split; [exact S|]. split; [exact FA|].
    apply select_labels in S as (S1 & S2 & S3 & S4). unfold row_lengths. rewrite S3. split; [congruence|]. split; [congruence|exact S4]. }
  destruct x as [x|]; [|cbn [bind] in *; now apply FIN]. destruct (expand_transform _ _ x (filter_fh ts Z)) as [[Y x']|] eqn:E; [|discriminate]. cbn [bind] in H.
  apply expand_full in E as (Z' & E & -> & L & V); auto. rewrite E. cbn [bind]. apply FIN; congruence.
Qed.

Section Two.
Variables (n : nat) (ts1 ts2 : list Z).
Hypothesis N1 : ts1 <> [].
Hypothesis N2 : ts2 <> [].
Hypothesis O1 : in_order ts1.
Hypothesis O2 : in_order ts2.

Lemma one_place p q : same_place 1 ts1 ts2 p q -> exists t, nth_error ts1 p = Some t /\ nth_error ts2 q = Some t.
Proof. intros (i & j1 & j2 & t & I & J1 & J2 & -> & ->). assert (i = 0) by lia. subst i. cbn [Nat.mul Nat.add]. eauto. Qed.

Lemma inner_same e : forall X d1 d2, covers X ts1 -> covers X ts2 -> frame_wf X -> (n = 1 /\ List.length (series_of X) = 1) \/ supports_multivariate e = true ->
  inner_transform e (filter_fh ts1 X) ts1 = Ok d1 -> inner_transform e (filter_fh ts2 X) ts2 = Ok d2 -> same_data n ts1 ts2 e d1 d2.
Proof.
  induction e as [m d b|m d q b|m d q r b|inner IH t ps b s|sp tl ps m b ff x l]; intros X d1 d2 C1 C2 W S H1 H2.
  1,2,3,5: cbn [same_data]; destruct d1 as [|a1|? ?]; auto; destruct d2 as [|a2|? ?]; auto; apply inner_full in H1 as (Z1 & F1 & A1 & L1 & V1 & R1); auto; apply inner_full in H2 as (Z2 & F2 & A2 & _ & _ & _); auto;
    rewrite F1 in F2; injection F2 as <-; assert (D1 : covers Z1 ts1) by (apply (covers_same X); auto); assert (D2 : covers Z1 ts2) by (apply (covers_same X); auto); pose proof (arrays_same Z1 ts1 ts2 a1 a2 N1 N2 O1 O2 D1 D2 R1 A1 A2) as Q;
    exists (List.length (series_of Z1)); first [exact Q | split; [exact Q|]; rewrite (series_of_labels Z1 X) by auto; destruct S as [[-> S]|S]; [exact S|discriminate]].
  cbn [same_data supports_multivariate] in *. destruct S as [[-> S]|S]; [|discriminate]. split; [reflexivity|]. cbn [inner_transform] in H1, H2.
  destruct (inner_transform inner (filter_fh ts1 X) ts1) as [e1|] eqn:I1; [|discriminate]. destruct (inner_transform inner (filter_fh ts2 X) ts2) as [e2|] eqn:I2; [|discriminate]. cbn [bind] in *.
  destruct s as [s|]; [|discriminate]. cbn [attr bind] in *. injection H1 as <-. injection H2 as <-. eexists _, _, _, _. split; [reflexivity|]. split; [reflexivity|]. split.
  - apply (IH X); auto.
  - intros p q J. apply one_place in J as (t0 & J1 & J2). exists (option_map (fun v => v / s)%R (lift_at t t0)). split; now apply (nth_error_map_some (fun t1 => option_map (fun v => v / s)%R (lift_at t t1))).
Qed.

Lemma transform_same e X d1 d2 : covers X ts1 -> covers X ts2 -> frame_wf X -> (n = 1 /\ List.length (series_of X) = 1) \/ supports_multivariate e = true ->
  should_skip_predict e = Ok false -> transform e (Some X) ts1 = Ok d1 -> transform e (Some X) ts2 = Ok d2 -> same_data n ts1 ts2 e d1 d2.
Proof.
  intros C1 C2 W S K H1 H2. unfold transform in *. destruct (attr _) as [[]|]; cbn [bind negb] in *; try discriminate. rewrite K in *. cbn [bind] in *.
  destruct (input_feature_column_names e) as [cols|]; [|discriminate]. cbn [bind] in *. rewrite select_filter in H1, H2. destruct (select_columns 0%R X cols) as [XC|] eqn:SC; [|discriminate]. cbn [bind] in *.
  apply select_labels in SC as (S1 & S2 & S3 & S4). apply (inner_same e XC); auto; try (apply (covers_same X); auto).
  - intros r Hr. split; [rewrite Forall_forall in S4; rewrite S3; now apply S4|]. rewrite S2. apply (in_map r_path) in Hr. rewrite (labels_paths XC X S1) in Hr. apply in_map_iff in Hr as (r0 & <- & Hr). now apply W.
  - now rewrite (series_of_labels XC X).
Qed.
End Two.
