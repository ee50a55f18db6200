(** Facts about the Fourier seasonality of Model/Effect.v, and about arrays made of frames *)
From Coq Require Import Reals String Bool ZArith List Lia Lra Permutation.
From Verif.Model Require Import Base Num Regex Frame Arr Expand Prog Likelihood Effect.
From Verif.Spec Require Import FrameSpec ProgSpec EffectSpec.
From Verif.Facts Require Import BaseFacts NumFacts FrameFacts ExpandFacts ArrFacts ProgFacts EffectFacts EffectPredict.
Import ListNotations.
Local Open Scope string_scope.

(** * expansion works row by row *)
Definition rowwise (X Y : frame R) : Prop :=
  f_levels Y = f_levels X /\
  exists phi : path -> list R -> list R,
    f_rows Y = map (fun r => mkRow (r_path r) (r_time r) (phi (r_path r) (r_vals r))) (f_rows X).

Lemma rowwise_refl X : rowwise X X.
Proof.
  split; [reflexivity|]. exists (fun _ v => v). rewrite <- (map_id (f_rows X)) at 1. apply map_ext. now intros [].
Qed.

Lemma rowwise_set_col X Y n z : rowwise X Y -> rowwise X (set_col Y n (fun _ => z)).
Proof.
  intros [L [phi E]]. unfold set_col. destruct (col_pos (f_cols Y) n) as [i|]; split; try exact L.
  - exists (fun p v => set_nth i z (phi p v)). simpl. rewrite E, map_map. reflexivity.
  - exists (fun p v => (phi p v ++ [z])%list). simpl. rewrite E, map_map. reflexivity.
Qed.

Lemma combine_map_l {A B} (g : A -> B) l : combine (map g l) l = map (fun a => (g a, a)) l.
Proof. induction l; simpl; congruence. Qed.

Lemma rowwise_copy zero isna X Y c i Y' : rowwise X Y -> copy_column zero isna X Y c i = Ok Y' -> rowwise X Y'.
Proof.
  intros [L [phi E]]. unfold copy_column. destruct (col_pos (f_cols X) c) as [src|]; [|discriminate].
  destruct (col_pos (f_cols Y) (get_col_name c i)) as [dst|]; [|discriminate]. intros [= <-]. split; [exact L|].
  exists (fun p v => set_nth dst (fillna zero isna (if path_eqb p i then nth src v zero else nth dst (phi p v) zero)) (phi p v)).
  simpl. rewrite E, combine_map_l, map_map. reflexivity.
Qed.

Lemma rowwise_drop X Y cols : rowwise X Y -> rowwise X (drop_columns Y cols).
Proof.
  intros [L [phi E]]. split; [exact L|].
  exists (fun p v => map snd (filter fst (combine (map (fun c => negb (str_in c cols)) (f_cols Y)) (phi p v)))).
  unfold drop_columns. simpl. rewrite E, map_map. reflexivity.
Qed.

Lemma rowwise_expand zero isna e X Y e' : expand_transform zero isna e X = Ok (Y, e') -> rowwise X Y.
Proof.
  unfold expand_transform. destruct (ex_skip e); [intros [= <- _]; apply rowwise_refl|].
  destruct (f_levels X) eqn:EL; [discriminate|]. rewrite add_zero_pairs, copy_columns_pairs.
  set (ps := zero_pairs _ _).
  assert (R1 : forall l Z, rowwise X Z -> rowwise X (fold_left (fun X p => set_col X (pname p) (fun _ => zero)) l Z)).
  { intros l. induction l as [|p l IH]; intros Z H; simpl; [exact H|]. apply IH. now apply rowwise_set_col. }
  pose proof (R1 ps X (rowwise_refl X)) as H1.
  assert (R2 : forall l Z Z', rowwise X Z -> foldM (fun Y p => copy_column zero isna X Y (fst p) (snd p)) Z l = Ok Z' -> rowwise X Z').
  { intros l. induction l as [|p l IH]; intros Z Z' H; simpl; [intros [= <-]; exact H|].
    destruct (copy_column zero isna X Z (fst p) (snd p)) as [Z1|] eqn:E; simpl; [|discriminate].
    apply IH. eapply rowwise_copy; eauto. }
  destruct (foldM _ _ (copy_pairs _ _)) as [X2|] eqn:E2; simpl; [|discriminate]. intros [= <- _].
  apply rowwise_drop. eapply R2; eauto.
Qed.

(** success of the expansion, without any assumption on names *)
Lemma set_col_keeps (X : frame R) n g c : In c (f_cols X) -> In c (f_cols (set_col X n g)).
Proof. rewrite set_col_cols. destruct (str_in n (f_cols X)); [auto|]. rewrite in_app_iff. auto. Qed.
Lemma set_col_has (X : frame R) n g : In n (f_cols (set_col X n g)).
Proof. rewrite set_col_cols. destruct (str_in n (f_cols X)) eqn:E; [now apply str_in_iff|]. rewrite in_app_iff. simpl. auto. Qed.

Lemma expand_transform_ok zero isna e (X : frame R) : ex_skip e = false -> f_levels X <> 0 ->
  (forall c, In c (ex_matched e) -> In c (f_cols X)) -> exists Y e', expand_transform zero isna e X = Ok (Y, e').
Proof.
  intros Sk L Sub. unfold expand_transform. rewrite Sk. destruct (f_levels X) eqn:EL; [congruence|].
  rewrite add_zero_pairs, copy_columns_pairs. set (ps := zero_pairs _ _).
  assert (K : forall l (Z : frame R) c, In c (f_cols Z) -> In c (f_cols (fold_left (fun X p => set_col X (pname p) (fun _ => zero)) l Z))).
  { intros l. induction l as [|p l IH]; intros Z c H; simpl; [exact H|]. apply IH. now apply set_col_keeps. }
  assert (H : forall l (Z : frame R) p, In p l -> In (pname p) (f_cols (fold_left (fun X p => set_col X (pname p) (fun _ => zero)) l Z))).
  { intros l. induction l as [|q l IH]; intros Z p Hp; [destruct Hp|]. simpl. destruct Hp as [->|Hp]; [|now apply IH]. apply K. apply set_col_has. }
  assert (C : forall l Z, (forall p, In p l -> In (fst p) (f_cols X) /\ In (pname p) (f_cols Z)) ->
     exists Z', foldM (fun Y p => copy_column zero isna X Y (fst p) (snd p)) Z l = Ok Z').
  { intros l. induction l as [|p l IH]; intros Z HP; simpl; [eauto|].
    destruct (HP p (or_introl eq_refl)) as [H1 H2]. destruct (copy_column_ok zero isna X Z _ _ H1 H2) as [Z1 E1]. rewrite E1. simpl.
    apply IH. intros q Hq. destruct (HP q (or_intror Hq)) as [H3 H4]. split; [exact H3|].
    assert (f_cols Z1 = f_cols Z) as ->; [|exact H4].
    unfold copy_column in E1. destruct (col_pos (f_cols X) (fst p)); [|discriminate]. destruct (col_pos (f_cols Z) _); [|discriminate].
    injection E1 as <-. reflexivity. }
  destruct (C (copy_pairs (ex_matched e) (series_ids X)) (fold_left (fun X p => set_col X (pname p) (fun _ => zero)) ps X)) as [Z' E].
  - intros p Hp. apply copy_pairs_In in Hp as [H1 H2]. split; [auto|]. apply H. apply zero_pairs_In. auto.
  - rewrite E. simpl. eauto.
Qed.

(** * arrays made of frames *)
Definition ordered_rows {V} (F : frame V) : list (row V) :=
  match f_levels F with
  | 0 => f_rows F
  | _ => flat_map (rows_of F) (series_ids F)
  end.

Lemma concat_concat_map {A} (l : list (list (list A))) : concat (map (@concat A) l) = concat (concat l).
Proof. induction l as [|x l IH]; simpl; [reflexivity|]. now rewrite concat_app, IH. Qed.

Lemma tensor_ok_iff (f : frame R) t : f_levels f <> 0 -> series_to_tensor f = Ok t ->
  exists n, (forall p, In p (series_ids f) -> List.length (rows_of f p) = n) /\
    t = map (fun p => map r_vals (rows_of f p)) (series_ids f).
Proof.
  intros L H. destruct (series_ids f) as [|p0 ids] eqn:EI.
  - exists 0. split; [intros p []|]. rewrite series_to_tensor_eq in H by assumption. unfold iterate_all_series in H. rewrite EI in H.
    simpl in H. injection H as <-; reflexivity.
  - rewrite <- EI in *. exists (List.length (rows_of f p0)).
    assert (HA : forall p, In p (series_ids f) -> List.length (rows_of f p) = List.length (rows_of f p0)).
    { intros p Hp. destruct (Nat.eq_dec (List.length (rows_of f p)) (List.length (rows_of f p0))) as [E|N]; [exact E|].
      rewrite (series_to_tensor_bad f p p0) in H; [discriminate| | | |]; auto. rewrite EI. simpl; auto. }
    split; [exact HA|]. rewrite (series_to_tensor_ok f (List.length (rows_of f p0))) in H by assumption. congruence.
Qed.

Lemma frame_array_rows (F : frame R) a : frame_array F = Ok a ->
  exists rest, a_shape a = (rest ++ [List.length (f_cols F)])%list /\ prod_shape rest = List.length (ordered_rows F) /\
    a_flat a = concat (map r_vals (ordered_rows F)).
Proof.
  unfold frame_array, series_to_tensor_or_array, ordered_rows. destruct (f_levels F) eqn:EL.
  - cbn [bind]. intros [= <-]. exists [List.length (f_rows F)]. simpl. rewrite map_length. repeat split. lia.
  - destruct (series_to_tensor F) as [t|] eqn:ET; cbn [bind]; [|discriminate]. intros [= <-].
    destruct (tensor_ok_iff F t) as (m & HL & ->); [congruence|assumption|].
    set (s := map (fun p => map r_vals (rows_of F p)) (series_ids F)).
    exists [List.length s; match s with [] => 0 | x :: _ => List.length x end]. split; [reflexivity|]. split.
    + rewrite (flat_map_length_uniform _ m) by exact HL. unfold s. rewrite map_length. unfold prod_shape. simpl.
      destruct (series_ids F) as [|p0 ids]; simpl; [reflexivity|]. rewrite map_length, HL by (simpl; auto). lia.
    + unfold arr_of_data, a_flat. rewrite concat_concat_map. f_equal. unfold s.
      clear. induction (series_ids F) as [|p l IH]; simpl; [reflexivity|]. rewrite map_app. congruence.
Qed.

Lemma nth_concat_uniform {A} (d : A) k (L : list (list A)) : (forall x, In x L -> List.length x = k) ->
  forall i j x, nth_error L i = Some x -> j < k -> nth (i * k + j) (concat L) d = nth j x d.
Proof.
  induction L as [|y L IH]; intros H i j x Hx Hj; [destruct i; discriminate|].
  assert (Hy : List.length y = k) by (apply H; simpl; auto). destruct i; simpl in *.
  - injection Hx as ->. rewrite app_nth1 by lia. reflexivity.
  - rewrite app_nth2 by lia. replace (k + i * k + j - List.length y) with (i * k + j) by lia.
    apply (IH (fun z Hz => H z (or_intror Hz))); assumption.
Qed.

Lemma concat_length_uniform {A} k (L : list (list A)) : (forall x, In x L -> List.length x = k) -> List.length (concat L) = List.length L * k.
Proof.
  induction L as [|y L IH]; intros H; simpl; [reflexivity|]. rewrite app_length, IH by (intros; apply H; simpl; auto).
  rewrite (H y) by (simpl; auto). reflexivity.
Qed.

(** rows after a row-wise map *)
Lemma filter_map_comm {A B} (g : A -> B) (p : B -> bool) l : filter p (map g l) = map g (filter (fun a => p (g a)) l).
Proof. induction l as [|x l IH]; simpl; [reflexivity|]. destruct (p (g x)); simpl; congruence. Qed.

Lemma ordered_rows_map {V W} (F : frame V) (G : frame W) (g : row V -> row W) : f_levels G = f_levels F ->
  f_rows G = map g (f_rows F) -> (forall r, r_path (g r) = r_path r) ->
  ordered_rows G = map g (ordered_rows F).
Proof.
  intros L E P. unfold ordered_rows. rewrite L. destruct (f_levels F); [exact E|].
  assert (S1 : series_ids G = series_ids F).
  { unfold series_ids. rewrite E, map_map. f_equal. apply map_ext. exact P. }
  rewrite S1. rewrite map_flat_map. apply flat_map_ext. intros p. unfold rows_of. rewrite E, filter_map_comm. f_equal.
  apply filter_ext. intros r. now rewrite P.
Qed.

Lemma ordered_array_rows {V} fh (X : frame V) : ordered_rows (filter_fh fh X) = array_rows fh X.
Proof.
  unfold ordered_rows, array_rows. change (f_levels (filter_fh fh X)) with (f_levels X). destruct (f_levels X).
  - apply filter_fh_rows.
  - unfold series_ids, rows_of. rewrite filter_fh_rows. reflexivity.
Qed.

(** * Fourier features *)
Lemma sin_shift x (n : Z) : sin (x + 2 * IZR n * PI) = sin x.
Proof.
  destruct (Z_le_dec 0 n) as [H|H].
  - rewrite <- (Z2Nat.id n) by assumption. rewrite <- INR_IZR_INZ. apply sin_period.
  - rewrite <- (sin_period (x + 2 * IZR n * PI) (Z.to_nat (- n))). f_equal. rewrite INR_IZR_INZ, Z2Nat.id by lia. rewrite opp_IZR. ring.
Qed.
Lemma cos_shift x (n : Z) : cos (x + 2 * IZR n * PI) = cos x.
Proof.
  destruct (Z_le_dec 0 n) as [H|H].
  - rewrite <- (Z2Nat.id n) by assumption. rewrite <- INR_IZR_INZ. apply cos_period.
  - rewrite <- (cos_period (x + 2 * IZR n * PI) (Z.to_nat (- n))). f_equal. rewrite INR_IZR_INZ, Z2Nat.id by lia. rewrite opp_IZR. ring.
Qed.

Lemma angle_shift s k t p m : IZR p = (IZR m * s)%R ->
  s <> 0%R -> fourier_angle (s, k) (t + p) = (fourier_angle (s, k) t + 2 * IZR (m * Z.of_nat k) * PI)%R.
Proof.
  intros H N. unfold fourier_angle. simpl. rewrite plus_IZR, H, mult_IZR, <- INR_IZR_INZ. field. exact N.
Qed.

Lemma fourier_vals_periodic pairs t p : (forall s k, In (s, k) pairs -> exists m : Z, IZR p = (IZR m * s)%R) ->
  fourier_vals pairs (t + p) = fourier_vals pairs t.
Proof.
  intros H. unfold fourier_vals. apply flat_map_ext_in. intros [s k] Hin. destruct (H s k Hin) as [m Hm].
  destruct (Req_dec s 0) as [->|N].
  - assert (p = 0)%Z as -> by (apply eq_IZR; lra). now rewrite Z.add_0_r.
  - rewrite (angle_shift s k t p m) by assumption. now rewrite sin_shift, cos_shift.
Qed.

Lemma fourier_pairs_sp sp tl s k : In (s, k) (fourier_pairs sp tl) -> In s sp.
Proof.
  unfold fourier_pairs.
  set (all := flat_map _ (combine sp tl)).
  assert (G : forall l acc, In (s, k) (fold_left (fun acc p =>
      if existsb (fun q => Reqb (INR (snd q) / fst q) (INR (snd p) / fst p)) acc then acc else (acc ++ [p])%list) l acc) ->
      In (s, k) acc \/ In (s, k) l).
  { intros l. induction l as [|p l IH]; intros acc H; simpl in *; [auto|]. apply IH in H as [H|H]; [|auto].
    destruct (existsb _ acc); [auto|]. rewrite in_app_iff in H. simpl in H. intuition. }
  intros H. apply G in H as [[]|H]. unfold all in H. apply in_flat_map in H as ([s' n] & H1 & H2).
  apply in_map_iff in H2 as (j & [= <- <-] & _). apply in_combine_l in H1. exact H1.
Qed.

Lemma mapM_Forall2 {A B} (f : A -> res B) l : forall ys, mapM f l = Ok ys -> Forall2 (fun a b => f a = Ok b) l ys.
Proof.
  induction l as [|x l IH]; intros ys; simpl; [intros [= <-]; constructor|].
  destruct (f x) as [y|] eqn:E; simpl; [|discriminate]. destruct (mapM f l) as [ys'|]; simpl; [|discriminate].
  intros [= <-]. constructor; auto.
Qed.

Definition mn_of (l : list (path * Z)) (p : path) : Z := match find_min l p with Ok m => m | Err _ => 0%Z end.

Lemma fourier_transform_rows f X XF : fourier_transform f X = Ok XF ->
  f_levels XF = f_levels X /\ f_cols XF = fourier_cols (ff_pairs f) /\
  f_rows XF = map (fun r => mkRow (r_path r) (r_time r) (fourier_vals (ff_pairs f) (r_time r - mn_of (ff_min f) (r_path r)))) (f_rows X).
Proof.
  unfold fourier_transform. destruct (mapM _ (f_rows X)) as [rows|] eqn:E; simpl; [|discriminate]. intros [= <-]. simpl.
  repeat split. apply mapM_Forall2 in E. induction E as [|r r' l l' H E IH]; [reflexivity|]. simpl. rewrite IH. f_equal.
  unfold mn_of. destruct (find_min (ff_min f) (r_path r)); simpl in H; [|discriminate]. congruence.
Qed.

Lemma select_rows (X Y : frame R) cols : select_columns 0%R X cols = Ok Y ->
  f_levels Y = f_levels X /\ f_cols Y = cols /\ exists phi : list R -> list R, (forall v, List.length (phi v) = List.length cols) /\
   f_rows Y = map (fun r => mkRow (r_path r) (r_time r) (phi (r_vals r))) (f_rows X).
Proof.
  unfold select_columns. destruct (mapM _ cols) as [pos|] eqn:E; simpl; [|discriminate]. intros [= <-]. simpl. repeat split.
  exists (fun v => select_vals pos v 0%R). split; [|reflexivity]. intros v. unfold select_vals. rewrite map_length.
  apply mapM_nth in E. tauto.
Qed.

Lemma horizon_twice {V} fh (X : frame V) : horizon_rows fh (filter_fh fh X) = horizon_rows fh X.
Proof.
  unfold horizon_rows at 1. rewrite filter_fh_rows. unfold horizon_rows. induction (f_rows X) as [|r l IH]; simpl; [reflexivity|].
  destruct (in_dec Z.eq_dec (r_time r) fh) as [H|H]; simpl; [|exact IH]. destruct (in_dec Z.eq_dec (r_time r) fh); [|tauto]. now f_equal.
Qed.

Lemma fourier_data sp n ps m b ff x l X fh d : transform (Fourier sp n ps m b (Some ff) x l) (Some X) fh = Ok d ->
  d = ENothing \/
  exists F (chi : path -> list R -> list R) a, d = EArr a /\ frame_array F = Ok a /\ f_levels F = f_levels X /\
    (forall p v, List.length (chi p v) = List.length (f_cols F)) /\
    f_rows F = map (fun r => mkRow (r_path r) (r_time r) (chi (r_path r) (fourier_vals (ff_pairs ff) (r_time r - mn_of (ff_min ff) (r_path r)))))
                   (horizon_rows fh X).
Proof.
  unfold transform. destruct (attr (b_fitted _)) as [[]|]; cbn [bind negb]; try discriminate.
  destruct (should_skip_predict _) as [[]|]; cbn [bind]; try discriminate; [intros [= <-]; auto|].
  destruct (input_feature_column_names _) as [cols|]; cbn [bind]; [|discriminate].
  destruct (select_columns 0%R (filter_fh fh X) cols) as [X1|] eqn:E1; cbn [bind]; [|discriminate].
  cbn [inner_transform attr bind]. destruct (fourier_transform ff X1) as [X2|] eqn:E2; cbn [bind]; [|discriminate].
  destruct (match x with None => _ | Some _ => _ end) as [X3|] eqn:E3; cbn [bind]; [|discriminate].
  destruct l as [[mm lb]|]; cbn [attr bind]; [|discriminate]. unfold linear_transform.
  destruct (attr (b_fitted lb)) as [[]|]; cbn [bind negb]; try discriminate.
  destruct (should_skip_base true lb) as [[]|]; cbn [bind]; try discriminate; [intros [= <-]; auto|].
  destruct (attr (b_cols lb)) as [lcols|]; cbn [bind]; [|discriminate].
  destruct (select_columns 0%R (filter_fh fh X3) lcols) as [X4|] eqn:E4; cbn [bind]; [|discriminate].
  destruct (frame_array X4) as [a|] eqn:E5; cbn [bind]; [|discriminate]. intros [= <-]. right.
  apply select_rows in E1 as (L1 & C1 & phi1 & _ & R1). apply fourier_transform_rows in E2 as (L2 & C2 & R2).
  apply select_rows in E4 as (L4 & C4 & phi4 & P4 & R4).
  assert (RW : rowwise X2 X3).
  { destruct x as [x|]; [|injection E3 as <-; apply rowwise_refl]. destruct (expand_transform _ _ x X2) as [[Y x']|] eqn:EE; cbn [bind] in E3; [|discriminate].
    injection E3 as <-. eapply rowwise_expand; eauto. }
  destruct RW as [L3 [phi3 R3]]. exists X4, (fun p v => phi4 (phi3 p v)), a. split; [reflexivity|]. split; [exact E5|].
  rewrite filter_fh_rows in R1.
  split. { rewrite L4. change (f_levels (filter_fh fh X3)) with (f_levels X3). rewrite L3, L2, L1. reflexivity. }
  split. { intros p v. now rewrite C4. }
  rewrite R4, filter_fh_rows. unfold horizon_rows at 1. rewrite R3, R2, R1, !map_map, filter_map_comm, map_map. simpl.
  f_equal. rewrite <- (horizon_twice fh X) at 2. unfold horizon_rows at 2. now rewrite filter_fh_rows.
Qed.

(** two positions of the array with the same features have the same contribution *)
Lemma fourier_contribution sp n ps m b ff x mb X fh a pe env v t :
  transform (Fourier sp n ps m b (Some ff) x (Some (Additive, mb))) (Some X) fh = Ok (EArr a) ->
  dict_get pe "trend" = Some t ->
  yields env (predict (Fourier sp n ps m b (Some ff) x (Some (Additive, mb))) (EArr a) pe) v ->
  forall i j ri rj, nth_error (array_rows fh X) i = Some ri -> nth_error (array_rows fh X) j = Some rj ->
    r_path ri = r_path rj ->
    fourier_vals (ff_pairs ff) (r_time ri - mn_of (ff_min ff) (r_path ri)) = fourier_vals (ff_pairs ff) (r_time rj - mn_of (ff_min ff) (r_path rj)) ->
    entry v i = entry v j.
Proof.
  intros T HT Y i j ri rj Hi Hj P FV. apply fourier_data in T as [T|(F & chi & a' & Ha & FA & L & LC & RW)]; [discriminate|].
  injection Ha as <-. cbn [predict] in Y. apply (mode_additive _ _ _ _ t) in Y as (y & Y & _ & EV); [|exact HT].
  apply frame_array_rows in FA as (rest & Sh & PR & Fl). set (k := List.length (f_cols F)) in *.
  assert (OR : ordered_rows F = map (fun r => mkRow (r_path r) (r_time r) (chi (r_path r) (fourier_vals (ff_pairs ff) (r_time r - mn_of (ff_min ff) (r_path r)))))
                   (array_rows fh X)).
  { rewrite <- ordered_array_rows. apply ordered_rows_map; [rewrite L; reflexivity|rewrite filter_fh_rows; exact RW|reflexivity]. }
  assert (U : forall z, In z (map r_vals (ordered_rows F)) -> List.length z = k).
  { intros z. rewrite OR, map_map, in_map_iff. intros (r & <- & _). simpl. apply LC. }
  assert (W : arr_wf a).
  { unfold arr_wf. rewrite Fl, Sh, (concat_length_uniform k) by exact U. rewrite map_length, <- PR.
    clear. induction rest as [|q rest IH]; simpl; unfold prod_shape in *; simpl; [lia|]. rewrite <- IH. lia. }
  apply (linear_raw_yields env _ a k rest y Sh W) in Y as (Hk & Sy & Ly & Ey).
  assert (B : forall i r, nth_error (array_rows fh X) i = Some r -> i < prod_shape rest).
  { intros q r Hq. rewrite PR, OR, map_length. apply nth_error_Some. congruence. }
  unfold entry. rewrite EV. fold (entry y i) (entry y j). rewrite !Ey by eauto. apply Rsum_ext. intros c Hc. apply in_seq in Hc. f_equal.
  unfold entry. rewrite Fl.
  assert (Q : forall i r, nth_error (array_rows fh X) i = Some r ->
    nth_error (map r_vals (ordered_rows F)) i = Some (chi (r_path r) (fourier_vals (ff_pairs ff) (r_time r - mn_of (ff_min ff) (r_path r))))).
  { intros q r Hq. rewrite OR, map_map, nth_error_map, Hq. reflexivity. }
  rewrite (nth_concat_uniform 0%R k _ U i c _ (Q _ _ Hi)) by lia. rewrite (nth_concat_uniform 0%R k _ U j c _ (Q _ _ Hj)) by lia.
  rewrite FV, P. reflexivity.
Qed.

(** the state after a successful fit *)
Lemma fourier_fit_state order sp n ps m b f x l X s e' : fit order (Fourier sp n ps m b f x l) X s = (e', None) ->
  exists ff x' mm mb, e' = Fourier sp n ps m (mkBase (Some (columns_seen X)) (Some true)) (Some ff) x' (Some (mm, mb)) /\
    ff_pairs ff = fourier_pairs sp n /\ check_mode m = Ok mm.
Proof.
  cbn [fit]. unfold base_fit. simpl. destruct (fourier_fit sp n X) as [ff|] eqn:EF; [|discriminate].
  destruct X as [X|]; [|discriminate]. destruct (fourier_transform ff X) as [XF|]; [|discriminate].
  match goal with |- context [match ?a with Ok _ => _ | Err _ => _ end] => destruct a as [[XE x']|] end; [|discriminate].
  destruct (check_mode m) as [mm|]; [|discriminate]. intros [= <-]. eexists _, _, _, _. split; [reflexivity|]. split; [|reflexivity].
  unfold fourier_fit in EF. destruct (negb _); [discriminate|]. destruct (existsb _ _); [discriminate|].
  destruct (f_rows X); [discriminate|]. injection EF as <-. reflexivity.
Qed.

Lemma fourier_periodic order sp n ps b f x l X0 s e' X fh a pe env v t p :
  fit order (Fourier sp n ps "additive" b f x l) X0 s = (e', None) ->
  transform e' (Some X) fh = Ok (EArr a) -> dict_get pe "trend" = Some t -> yields env (predict e' (EArr a) pe) v ->
  common_period sp p ->
  forall i j ri rj, nth_error (array_rows fh X) i = Some ri -> nth_error (array_rows fh X) j = Some rj ->
    r_path ri = r_path rj -> r_time rj = (r_time ri + p)%Z -> entry v i = entry v j.
Proof.
  intros FT TR HT Y CP i j ri rj Hi Hj P T. apply fourier_fit_state in FT as (ff & x' & mm & mb & -> & FP & CM).
  injection CM as <-. eapply fourier_contribution; eauto. rewrite FP, T, P.
  replace (r_time ri + p - mn_of (ff_min ff) (r_path rj))%Z with (r_time ri - mn_of (ff_min ff) (r_path rj) + p)%Z by lia.
  symmetry. apply fourier_vals_periodic. intros s' k Hk. apply CP. eapply fourier_pairs_sp; eauto.
Qed.

(** * refitting *)
Definition multi_series (X : option (frame R)) : bool :=
  match X with None => false | Some X => negb (Nat.eqb (f_levels X) 0) && Nat.ltb 1 (List.length (series_ids X)) end.

Lemma fourier_series_ids ff X XF : fourier_transform ff X = Ok XF -> series_ids XF = series_ids X.
Proof.
  intros E. apply fourier_transform_rows in E as (_ & _ & R). unfold series_ids. rewrite R, map_map. reflexivity.
Qed.

Lemma fourier_refit order sp n ps m b f x l X s e1 : x = None \/ multi_series X = true ->
  fit order (Fourier sp n ps m b f x l) X s = (e1, None) -> fit order (mk_fourier sp n ps m) X s = (e1, None).
Proof.
  intros H. cbn [fit mk_fourier]. unfold base_fit. simpl. destruct (fourier_fit sp n X) as [ff|]; [|discriminate].
  destruct X as [X|]; [|discriminate]. destruct (fourier_transform ff X) as [XF|] eqn:EF; [|discriminate].
  pose proof (fourier_transform_rows _ _ _ EF) as (L & _ & _). pose proof (fourier_series_ids _ _ _ EF) as SI.
  destruct H as [->|H].
  - match goal with |- context [match ?a with Ok _ => _ | Err _ => _ end] => destruct a as [[XE x']|] end; [|discriminate].
    destruct (check_mode m); [|discriminate]. intros H. exact H.
  - simpl in H. rewrite L, SI, H. 
    match goal with |- context [match ?a with Ok _ => _ | Err _ => _ end] => destruct a as [[XE x']|] end; [|discriminate].
    destruct (check_mode m); [|discriminate]. intros E. exact E.
Qed.

(** success of fit *)
Definition valid_fourier (sp : list R) (n : list nat) : Prop :=
  List.length sp = List.length n /\ forall s k, In (s, k) (combine sp n) -> (INR k <= s)%R.

Lemma find_min_ok (X : frame R) ff p : ff_min ff = map (fun s => (fst s, match map r_time (snd s) with [] => 0%Z | t :: ts => min_time t ts end))
                        (iterate_all_series X) -> (exists r, In r (f_rows X) /\ r_path r = p) -> exists t, find_min (ff_min ff) p = Ok t.
Proof.
  intros E (r & Hr & Hp). unfold find_min. destruct (find _ _) as [y|] eqn:F; [eauto|]. exfalso.
  assert (In p (series_ids X)) as HI by (apply series_ids_In; eauto).
  rewrite E in F. set (g := fun s : path * list (row R) => _) in F.
  pose proof (find_none _ _ F (g (p, rows_of X p))) as N.
  specialize (N ltac:(apply in_map; unfold iterate_all_series; apply in_map_iff; eauto)). unfold g in N. simpl in N.
  rewrite path_eqb_refl in N. discriminate.
Qed.

Lemma mapM_ok {A B} (f : A -> res B) l : (forall a, In a l -> exists b, f a = Ok b) -> exists ys, mapM f l = Ok ys.
Proof.
  induction l as [|x l IH]; intros H; simpl; [eauto|]. destruct (H x (or_introl eq_refl)) as [y ->]. simpl.
  destruct IH as [ys ->]; [intros; apply H; simpl; auto|]. simpl. eauto.
Qed.

Lemma fourier_accepts order sp n ps m b f x l (X : frame R) s : (forall c, Permutation (order c) c) ->
  valid_fourier sp n -> f_rows X <> [] -> m = "additive" \/ m = "multiplicative" ->
  exists e', fit order (Fourier sp n ps m b f x l) (Some X) s = (e', None).
Proof.
  intros O [VL VS] NE M. cbn [fit]. unfold base_fit. simpl negb. cbn [andb]. cbn [set_cols set_base get_base b_fitted inner_fit].
  assert (EF : exists ff, fourier_fit sp n (Some X) = Ok ff /\ ff_min ff = map (fun s => (fst s, match map r_time (snd s) with [] => 0%Z | t :: ts => min_time t ts end))
                        (iterate_all_series X)).
  { unfold fourier_fit. rewrite VL, Nat.eqb_refl. simpl negb. cbn [andb].
    assert (existsb (fun st => Rltb (fst st) (INR (snd st))) (combine sp n) = false) as ->.
    { destruct (existsb _ _) eqn:E; [|reflexivity]. apply existsb_exists in E as ([s0 k] & H1 & H2). apply Rltb_true in H2. simpl in H2.
      specialize (VS _ _ H1). lra. }
    destruct (f_rows X); [congruence|]. eexists. split; reflexivity. }
  destruct EF as (ff & -> & FM).
  assert (FT : exists XF, fourier_transform ff X = Ok XF).
  { unfold fourier_transform. destruct (mapM_ok (fun r => m <- find_min (ff_min ff) (r_path r) ;;
                         Ok (mkRow (r_path r) (r_time r) (fourier_vals (ff_pairs ff) (r_time r - m)))) (f_rows X)) as [rows ->]; [|simpl; eauto].
    intros r Hr. destruct (find_min_ok X ff (r_path r) FM) as [t ->]; [eauto|]. simpl. eauto. }
  destruct FT as [XF EXF]. rewrite EXF.
  assert (EX : exists XE x', (if (negb (Nat.eqb (f_levels XF) 0) && Nat.ltb 1 (List.length (series_ids XF)))%bool then
                  ex <- expand_fit order [".*"] XF ;;
                  '(XE, ex) <- expand_transform 0%R (fun _ : R => false) ex XF ;;
                  Ok (XE, Some ex)
                else Ok (XF, x)) = Ok (XE, x')).
  { destruct (negb (Nat.eqb (f_levels XF) 0) && Nat.ltb 1 (List.length (series_ids XF)))%bool eqn:C; [|eauto].
    apply andb_prop in C as [C _]. assert (LV : f_levels XF <> 0) by (destruct (f_levels XF); [discriminate|congruence]).
    unfold expand_fit. destruct (mapM _ [".*"]) as [pats|] eqn:EM; [|vm_compute in EM; discriminate]. cbn [bind].
    destruct (f_levels XF) eqn:EL; [congruence|]. cbn [bind].
    match goal with |- context [expand_transform _ _ ?ex XF] => destruct (expand_transform_ok 0%R (fun _ : R => false) ex XF) as (Y & e' & ->) end;
      [reflexivity|congruence| |cbn [bind]; eauto].
    cbn [ex_matched]. intros c Hc. apply (Permutation_in _ (O _)) in Hc. apply filter_In in Hc as [Hc _].
    exact (proj1 (strs_unique_In _ _) Hc). }
  destruct EX as (XE & x' & ->). destruct M as [->| ->]; simpl check_mode; cbn; eauto.
Qed.
