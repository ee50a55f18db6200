(** Effects fitted on several series: what they read. *)
From Coq Require Import Reals Lra ZArith String Ascii Bool List Lia Permutation.
From Verif.Model Require Import Base Num Regex Frame Arr Prog Effect Expand Forecaster.
From Verif.Spec Require Import FrameSpec ProgSpec EffectSpec ForecasterSpec OverlapSpec ResponseSpec.
From Verif.Facts Require Import BaseFacts FrameFacts NumFacts ArrFacts ProgFacts EffectFacts EffectPredict EffectFourier AlignFacts ExpandFacts ForecasterFacts ForecasterTransformer ModelProps TotalFacts PanelGrid OverlapFacts OverlapFrames OverlapForecaster ResponseFacts ResponseEffects ResponseForecaster.
Import ListNotations.
Local Open Scope string_scope.

(** * Weighted sums *)
Lemma weighted_ext x : forall c c', (forall k, k < List.length x -> c k = c' k) -> weighted x c = weighted x c'.
Proof. induction x as [|u x IH]; intros c c' H; [reflexivity|]. cbn [weighted]. rewrite (H 0) by (cbn; lia). f_equal. apply IH. intros k Hk. apply H. cbn. lia. Qed.
Lemma weighted_app x : forall y c, weighted (x ++ y) c = (weighted x c + weighted y (fun k => c (List.length x + k)%nat))%R.
Proof. induction x as [|u x IH]; intros y c; cbn [app weighted List.length Nat.add]; [rewrite Rplus_0_l; reflexivity|]. rewrite IH. ring. Qed.
Lemma weighted_zero (ids : list path) q u : ~ In q ids -> forall c, weighted (map (fun p => if path_eqb q p then u else 0%R) ids) c = 0%R.
Proof.
  induction ids as [|p ids IH]; intros N c; [reflexivity|]. cbn [map weighted]. destruct (path_eqb q p) eqn:E; [apply path_eqb_eq in E; subst p; exfalso; apply N; now left|]. rewrite IH; [ring|]. intros H. apply N. now right.
Qed.
Lemma weighted_one (ids : list path) q u : NoDup ids -> forall i c, nth_error ids i = Some q -> weighted (map (fun p => if path_eqb q p then u else 0%R) ids) c = (u * c i)%R.
Proof.
  induction ids as [|p ids IH]; intros N i c H; [destruct i; discriminate|]. inversion_clear N as [|? ? I N']. cbn [map weighted]. destruct i as [|i]; cbn [nth_error] in H.
  - injection H as ->. rewrite path_eqb_refl. rewrite weighted_zero by exact I. ring.
  - destruct (path_eqb q p) eqn:E; [apply path_eqb_eq in E; subst p; exfalso; apply I; now apply nth_error_In in H|]. rewrite (IH N' i) by exact H. ring.
Qed.
Lemma weighted_copies (ids : list path) q i (g : string -> R) m : NoDup ids -> nth_error ids i = Some q -> forall c,
  weighted (flat_map (fun d => map (fun p => if path_eqb q p then g d else 0%R) ids) m) c = weighted (map g m) (fun a => c (a * List.length ids + i)%nat).
Proof.
  intros N H. induction m as [|d m IH]; intros c; [reflexivity|]. cbn [flat_map map weighted]. rewrite weighted_app, (weighted_one ids q _ N i) by exact H. cbn [Nat.mul Nat.add]. f_equal. rewrite map_length, IH.
  apply weighted_ext. intros k _. f_equal. apply Nat.add_assoc.
Qed.

(** positions *)
Definition position (l : list string) (c : string) : nat := match col_pos l c with Some i => i | None => 0 end.
Lemma col_pos_app l c : ~ In c l -> forall l', col_pos (l ++ c :: l') c = Some (List.length l).
Proof.
  induction l as [|d l IH]; intros N l'; cbn [app col_pos List.length]; [now rewrite String.eqb_refl|]. destruct (String.eqb_spec c d) as [->|NE]; [exfalso; apply N; now left|]. rewrite IH; [reflexivity|]. intros H. apply N. now right.
Qed.
Lemma positions_from m : forall l, NoDup (l ++ m) -> map (position (l ++ m)) m = seq (List.length l) (List.length m).
Proof.
  induction m as [|c m IH]; intros l N; [reflexivity|]. cbn [map List.length seq]. f_equal.
  - unfold position. rewrite col_pos_app; [reflexivity|]. apply NoDup_remove_2 in N. intros I. apply N. apply in_or_app. now left.
  - specialize (IH (l ++ [c])%list). rewrite <- app_assoc in IH. cbn [app] in IH. rewrite (IH N). f_equal. rewrite app_length. cbn. lia.
Qed.
Lemma positions m : NoDup m -> map (position m) m = seq 0 (List.length m).
Proof. intros N. exact (positions_from m [] N). Qed.
Lemma weighted_map m (g : string -> R) : NoDup m -> forall c, weighted (map g m) c = Rsum (map (fun d => g d * c (position m d))%R m).
Proof.
  intros N c. rewrite weighted_sum_seq, map_length. rewrite <- (positions m N), map_map. apply Rsum_ext. intros d Hd. f_equal.
  destruct (In_nth_error _ _ Hd) as (k & Hk). unfold position. destruct (col_pos m d) as [i|] eqn:E; [|apply col_pos_None in E; contradiction]. apply col_pos_nth in E.
  apply nth_error_nth. now apply map_nth_error.
Qed.
(** [k] is the number of a column of [cols], the result its number in [m] *)
Definition renumber (cols m : list string) (k : nat) : nat := position m (nth k cols "").
Lemma renumber_weighted cols m (g : string -> R) : NoDup cols -> Permutation m cols -> forall c, weighted (map g m) c = weighted (map g cols) (fun k => c (renumber cols m k)).
Proof.
  intros N P c. assert (NM : NoDup m) by (eapply Permutation_NoDup; [apply Permutation_sym; exact P|exact N]). rewrite !weighted_map by assumption.
  rewrite (Rsum_perm _ _ (Permutation_map (fun d => (g d * c (position m d))%R) P)). apply Rsum_ext. intros d Hd. f_equal. f_equal. unfold renumber. f_equal.
  unfold position. destruct (col_pos cols d) as [i|] eqn:E; [|apply col_pos_None in E; contradiction]. apply col_pos_nth in E. symmetry. now apply nth_error_nth.
Qed.
Lemma nth_seq_map {A} (d : A) l : map (fun k => nth k l d) (seq 0 (List.length l)) = l.
Proof. apply (nth_ext _ _ d d); [now rewrite map_length, seq_length|]. intros n Hn. rewrite map_length, seq_length in Hn. rewrite (nth_indep _ d (nth 0 l d)) by (now rewrite map_length, seq_length). rewrite (map_nth (fun k => nth k l d)). now rewrite seq_nth. Qed.
Lemma renumber_perm cols m : NoDup cols -> Permutation m cols -> Permutation (map (renumber cols m) (seq 0 (List.length cols))) (seq 0 (List.length cols)).
Proof.
  intros N P. assert (NM : NoDup m) by (eapply Permutation_NoDup; [apply Permutation_sym; exact P|exact N]). unfold renumber. rewrite <- (map_map (fun k => nth k cols "") (position m)), nth_seq_map.
  rewrite <- (Permutation_length P), <- (positions m NM). apply Permutation_map. now apply Permutation_sym.
Qed.
Lemma renumber_same cols k : NoDup cols -> k < List.length cols -> renumber cols cols k = k.
Proof.
  intros N L. unfold renumber. pose proof (positions cols N) as H. apply (f_equal (fun l => nth k l 0)) in H. rewrite seq_nth in H by exact L. cbn [Nat.add] in H. rewrite <- H at 2.
  rewrite (nth_indep _ 0 (position cols "")) by (now rewrite map_length). now rewrite map_nth.
Qed.

(** * Names of Fourier columns *)
Definition plain_char (a : ascii) : Prop := a <> "d"%char.
Lemma fourier_plain ps c : In c (fourier_cols ps) -> ~ In "d"%char (list_ascii_of_string c).
Proof.
  intros H D. unfold fourier_cols in H. apply in_flat_map in H as (i & _ & H). destruct H as [<-|[<-|[]]]; unfold sin_name, cos_name in D; rewrite list_ascii_app in D; apply in_app_or in D as [D|D].
  - simpl in D. intuition discriminate.
  - apply bars_chars in D. discriminate.
  - simpl in D. intuition discriminate.
  - apply bars_chars in D. discriminate.
Qed.
Lemma split_first_char {A} (a : A) x1 : forall y1 x2 y2, ~ In a x1 -> ~ In a x2 -> (x1 ++ a :: y1 = x2 ++ a :: y2)%list -> x1 = x2 /\ y1 = y2.
Proof.
  induction x1 as [|b x1 IH]; intros y1 [|c x2] y2 N1 N2 E; cbn [app] in E.
  - injection E as ->. auto.
  - injection E as -> E. exfalso. apply N2. now left.
  - injection E as -> E. exfalso. apply N1. now left.
  - injection E as -> E. apply IH in E as [-> ->]; [auto| |]; intros H; [apply N1|apply N2]; now right.
Qed.
Lemma laos_inj a : forall b, list_ascii_of_string a = list_ascii_of_string b -> a = b.
Proof. induction a as [|x a IH]; intros [|y b] H; try discriminate; [reflexivity|]. cbn in H. injection H as -> H. f_equal. now apply IH. Qed.
Lemma fourier_name_inj ps c c' p p' : In c (fourier_cols ps) -> In c' (fourier_cols ps) -> get_col_name c p = get_col_name c' p' -> c = c' /\ String.concat "-" p = String.concat "-" p'.
Proof.
  intros H H' E. unfold get_col_name in E. apply (f_equal list_ascii_of_string) in E. rewrite !list_ascii_app in E. cbn [list_ascii_of_string app] in E.
  assert (G : forall x y : list ascii, (x ++ "_" :: "d" :: "u" :: "p" :: "_" :: y = (x ++ ["_"]) ++ "d" :: "u" :: "p" :: "_" :: y)%char%list) by (intros x y; rewrite <- app_assoc; reflexivity).
  rewrite !G in E. apply fourier_plain in H. apply fourier_plain in H'. apply split_first_char in E as [E1 E2].
  - apply app_inv_tail in E1. apply laos_inj in E1. injection E2 as E2. apply laos_inj in E2. auto.
  - intros I. apply in_app_or in I as [I|[I|[]]]; [auto|discriminate].
  - intros I. apply in_app_or in I as [I|[I|[]]]; [auto|discriminate].
Qed.
Lemma copies_nodup ps m (ids : list path) : Permutation m (fourier_cols ps) -> NoDup (map (String.concat "-") ids) -> NoDup (fourier_cols ps ++ map pname (zero_pairs m ids)).
Proof.
  intros P N. assert (NM : NoDup m) by (eapply Permutation_NoDup; [apply Permutation_sym; exact P|apply fourier_cols_nodup]). assert (IM : forall c, In c m -> In c (fourier_cols ps)) by (intros c; apply Permutation_in; exact P).
  assert (NI : NoDup ids) by (eapply NoDup_map_inv; exact N). apply nodup_app; [apply fourier_cols_nodup| |].
  - apply NoDup_map_inj; [now apply NoDup_flat_pairs|]. intros [c p] [c' p'] H1 H2 E. apply zero_pairs_In in H1 as [H1 H1']. apply zero_pairs_In in H2 as [H2 H2']. cbn [fst snd] in *. unfold pname in E. cbn [fst snd] in E.
    apply fourier_name_inj with (ps := ps) in E as [-> E]; auto. f_equal. now apply (nodup_map_inj (String.concat "-") ids).
  - intros n Hn Hm. apply in_map_iff in Hm as ([c p] & <- & _). unfold pname in Hn. cbn [fst snd] in Hn. now apply (fourier_not_expanded _ _ c p Hn).
Qed.

(** * The state after fitting *)
Lemma dot_star r c : compile ".*" = Some r -> re_match r c = true.
Proof. intros H. vm_compute in H. injection H as <-. unfold re_match. cbn [ends]. destruct (list_ascii_of_string c); reflexivity. Qed.

Definition dates_of (X : frame R) (p : path) : list Z := map r_time (filter (fun r => path_eqb (r_path r) p) (f_rows X)).
Definition knows_panel (Z : frame R) (cols : list string) (ef : effect) (m : list string) : Prop :=
  b_cols (get_base ef) = Some cols /\
  match ef with
  | Linear _ _ _ => True
  | Fourier sp terms _ arg _ ff x l => exists f mm, ff = Some f /\ (forall p t0, first_date (dates_of Z p) t0 -> find_min (ff_min f) p = Ok t0) /\
      ff_pairs f = fourier_pairs sp terms /\ mode_named arg mm /\ Permutation m (fourier_cols (ff_pairs f)) /\
      match x with
      | None => List.length (series_ids Z) <= 1 /\ m = fourier_cols (ff_pairs f) /\ l = Some (mm, mkBase (Some m) (Some true))
      | Some ex => ex_skip ex = false /\ ex_matched ex = m /\ l = Some (mm, mkBase (Some (map pname (zero_pairs m (series_ids Z)))) (Some true))
      end
  | _ => False
  end.
Lemma fit_knows_panel order (Order : forall l, Permutation (order l) l) e : forall X s e', frame_wf X -> f_levels X <> 0 -> f_rows X <> [] -> NoDup (map (String.concat "-") (series_ids X)) ->
  fit order (clone e) (Some X) s = (e', None) -> exists m, knows_panel X (f_cols X) e' m.
Proof.
  intros X s e' W L N ND H. pose proof (fit_cols _ _ _ _ _ H) as [C _]. rewrite columns_seen_all in C by exact N. assert (SM : supports_multivariate e' = true) by (eapply fit_multivariate; eauto).
  destruct (EffectFacts.fit_class order _ _ _ _ _ H) as [_ FC]. rewrite FC in SM. destruct e as [m p b|m p q b|m p q r b|inner tab ps b sc|sp terms ps m b ff x l]; try discriminate SM.
  - exists []. cbn [clone fit] in H. unfold base_fit in H. cbn [supports_multivariate negb andb] in H. injection H as <-. split; [exact C|exact I].
  - cbn [clone fit mk_fourier] in H. unfold base_fit in H. cbn [supports_multivariate negb andb set_cols set_base get_base inner_fit] in H.
    destruct (fourier_fit sp terms (Some X)) as [f|] eqn:EF; [|discriminate].
    assert (FM : (forall p t0, first_date (dates_of X p) t0 -> find_min (ff_min f) p = Ok t0) /\ ff_pairs f = fourier_pairs sp terms).
    { unfold fourier_fit in EF. destruct (negb _); [discriminate|]. destruct (existsb _ _); [discriminate|]. destruct (f_rows X) as [|r0 rows] eqn:ER; [congruence|]. injection EF as <-. cbn [ff_min ff_pairs]. split; [|reflexivity].
      intros p t0 [F1 F2]. unfold iterate_all_series. rewrite map_map. cbn [fst snd].
      assert (IP : In p (series_ids X)). { unfold dates_of in F1. apply in_map_iff in F1 as (r & _ & Hr). apply filter_In in Hr as [Hr E]. apply path_eqb_eq in E. apply series_ids_In. exists r. auto. }
      unfold find_min. assert (G : forall ids, In p ids -> find (fun x : path * Z => path_eqb (fst x) p) (map (fun x => (x, match map r_time (rows_of X x) with [] => 0%Z | t :: ts => min_time t ts end)) ids) = Some (p, match map r_time (rows_of X p) with [] => 0%Z | t :: ts => min_time t ts end)).
      { induction ids as [|q ids IH]; intros I; [destruct I|]. cbn [map find fst]. destruct (path_eqb q p) eqn:E; [apply path_eqb_eq in E; now subst|]. destruct I as [->|I]; [rewrite path_eqb_refl in E; discriminate|auto]. }
      match goal with |- match ?q with _ => _ end = _ => assert (GQ : q = Some (p, match map r_time (rows_of X p) with [] => 0%Z | t :: ts => min_time t ts end)) by exact (G _ IP); rewrite GQ end. cbn [snd]. f_equal. assert (EP : map r_time (rows_of X p) = dates_of X p) by reflexivity.
      rewrite EP. destruct (dates_of X p) as [|t ts]; [destruct F1|]. destruct (min_time_first ts t) as [I M]. pose proof (M _ F1). pose proof (F2 _ I). lia. }
    destruct FM as [FM FP]. destruct (fourier_transform f X) as [XF|] eqn:FT; [|discriminate]. pose proof (fourier_series_ids _ _ _ FT) as SI. pose proof FT as FT0. apply fourier_transform_rows in FT as (FL & FCo & FR).
    assert (NF : f_rows XF <> []) by (rewrite FR; destruct (f_rows X); [congruence|discriminate]).
    assert (WF : frame_wf XF). { intros r Hr. rewrite FR in Hr. apply in_map_iff in Hr as (r0 & <- & Hr). cbn [r_vals r_path]. rewrite FCo, fourier_lengths. split; [reflexivity|]. rewrite FL. now apply W. }
    assert (NL : negb (Nat.eqb (f_levels XF) 0) = true) by (rewrite FL; apply negb_true_iff, Nat.eqb_neq; exact L). rewrite NL, SI in H. cbn [andb] in H.
    destruct (Nat.ltb_spec 1 (List.length (series_ids X))) as [TWO|ONE].
    + unfold expand_fit in H. cbn [mapM] in H. destruct (compile ".*") as [rx|] eqn:ERX; [|discriminate]. cbn [bind] in H. destruct (f_levels XF) as [|lv] eqn:ELV; [discriminate|]. cbv zeta in H. rewrite <- ELV in *.
      rewrite (FrameFacts.filter_all _ (strs_unique (f_cols XF))) in H by (intros c _; cbn [existsb]; now rewrite (dot_star _ _ ERX)). rewrite SI in H.
      set (mt := order (strs_unique (f_cols XF))) in *.
      assert (PM : Permutation mt (fourier_cols (ff_pairs f))). { unfold mt. rewrite FCo. rewrite strs_unique_id by apply fourier_cols_nodup. apply Order. }
      cbn [bind] in H. match type of H with context [expand_transform 0%R _ ?e0 XF] => set (ex := e0) in * end.
      assert (NDm : NoDup mt) by (eapply Permutation_NoDup; [apply Permutation_sym; exact PM|apply fourier_cols_nodup]).
      destruct (expand_transform_spec 0%R (fun _ => false) eq_refl ex XF (series_ids X) mt (eq_sym SI) eq_refl WF ltac:(congruence) eq_refl ltac:(rewrite FCo; apply fourier_cols_nodup) NDm) as (XE & ex' & EE & EL & EC & EF2).
      { intros c Hc. rewrite FCo. revert Hc. apply Permutation_in. exact PM. }
      { rewrite FCo. now apply copies_nodup. }
      rewrite EE in H. cbn [bind] in H. destruct (check_mode m) as [mm|] eqn:CM; [|discriminate]. injection H as <-. exists mt. split; [exact C|]. exists f, mm. do 3 (split; [auto|]).
      split. { apply check_mode_ok in CM as [[-> ->]|[-> ->]]; reflexivity. }
      split; [exact PM|]. assert (EX' : ex_skip ex' = false /\ ex_matched ex' = mt).
      { unfold expand_transform in EE. cbn [ex_skip ex] in EE. destruct (f_levels XF); [discriminate|]. destruct (copy_columns _ _ _ _ _ _); [|discriminate]. cbn [bind] in EE. injection EE as _ <-. auto. }
      destruct EX' as [X1 X2]. split; [exact X1|]. split; [exact X2|].
      assert (NE : f_rows XE <> []) by (intros E; rewrite E in EF2; inversion EF2; congruence). pose proof (columns_seen_all XE NE) as CS. unfold columns_seen in CS. rewrite CS, EC, FCo.
      rewrite (FrameFacts.filter_none _ (fourier_cols (ff_pairs f))); [reflexivity|]. intros c Hc. apply negb_false_iff, str_in_iff. revert Hc. apply Permutation_in. now apply Permutation_sym.
    + destruct (check_mode m) as [mm|] eqn:CM; [|discriminate]. injection H as <-. exists (fourier_cols (ff_pairs f)). split; [exact C|]. exists f, mm. do 3 (split; [auto|]).
      split. { apply check_mode_ok in CM as [[-> ->]|[-> ->]]; reflexivity. }
      split; [apply Permutation_refl|]. split; [exact ONE|]. split; [reflexivity|]. pose proof (columns_seen_all XF NF) as CS. unfold columns_seen in CS. rewrite CS, FCo. reflexivity.
Qed.
