(** What the effects of a panel read. *)
From Coq Require Import Reals Lra ZArith String Ascii Bool List Lia Permutation.
From Verif.Model Require Import Base Num Regex Frame Arr Prog Effect Expand Forecaster.
From Verif.Spec Require Import FrameSpec ProgSpec EffectSpec ForecasterSpec OverlapSpec ResponseSpec.
From Verif.Facts Require Import BaseFacts FrameFacts NumFacts ArrFacts ProgFacts EffectFacts EffectPredict EffectFourier AlignFacts ExpandFacts ForecasterFacts ForecasterTransformer ModelProps TotalFacts PanelGrid HorizonFacts OverlapFacts OverlapFrames OverlapForecaster ResponseFacts ResponseEffects ResponseForecaster ResponsePanel.
Import ListNotations.
Local Open Scope string_scope.

Definition reads_panel (X Z : frame R) (cols m : list string) (ef : effect) (r : row R) (z : list R) : Prop :=
  match ef with
  | Fourier sp terms _ _ _ _ _ _ => List.length z = 2 * List.length (fourier_pairs sp terms) * List.length (series_ids Z) /\
      forall i t0, nth_error (series_ids Z) i = Some (r_path r) -> first_date (dates_of Z (r_path r)) t0 -> forall c,
      weighted z c = weighted (waves (fourier_pairs sp terms) (r_time r - t0)) (fun k => c (renumber (fourier_cols (fourier_pairs sp terms)) m k * List.length (series_ids Z) + i)%nat)
  | _ => values_at X r cols z
  end.

Lemma fourier_cols_length ps : List.length (fourier_cols ps) = 2 * List.length ps.
Proof. rewrite <- (fourier_lengths ps 0), vals_waves. apply waves_length. Qed.

(** the waves of all series, of which only those of one series are not zero *)
Definition own_waves (ps : list (R * nat)) (m : list string) (ids : list path) (p : path) (t : Z) : list R :=
  flat_map (fun d => map (fun q => if path_eqb p q then nth (position (fourier_cols ps) d) (fourier_vals ps t) 0%R else 0%R) ids) m.
Lemma own_waves_length ps m ids p t : Permutation m (fourier_cols ps) -> List.length (own_waves ps m ids p t) = 2 * List.length ps * List.length ids.
Proof.
  intros P. unfold own_waves. rewrite <- fourier_cols_length, <- (Permutation_length P). clear P. induction m as [|d m IH]; [reflexivity|]. cbn [flat_map List.length]. rewrite app_length, map_length, IH. reflexivity.
Qed.
Lemma own_waves_weighted ps m ids p t i : Permutation m (fourier_cols ps) -> NoDup ids -> nth_error ids i = Some p -> forall c,
  weighted (own_waves ps m ids p t) c = weighted (waves ps t) (fun k => c (renumber (fourier_cols ps) m k * List.length ids + i)%nat).
Proof.
  intros P N H c. unfold own_waves. rewrite (weighted_copies ids p i (fun d => nth (position (fourier_cols ps) d) (fourier_vals ps t) 0%R) m N H).
  rewrite (renumber_weighted (fourier_cols ps) m _ (fourier_cols_nodup ps) P). f_equal. rewrite <- (map_map (position (fourier_cols ps)) (fun k => nth k (fourier_vals ps t) 0%R)), positions by apply fourier_cols_nodup.
  rewrite <- (fourier_lengths ps t). apply nth_seq_map.
Qed.
Lemma value_position cols (vals : list R) c : NoDup cols -> List.length vals = List.length cols -> In c cols -> value_of cols vals c = Some (nth (position cols c) vals 0%R).
Proof.
  intros N L I. unfold position. destruct (col_pos cols c) as [i|] eqn:E; [|apply col_pos_None in E; contradiction]. rewrite (value_of_pos _ _ _ _ L E). apply nth_error_nth'. apply col_pos_nth in E. rewrite L. apply nth_error_Some. congruence.
Qed.
Lemma expanded_values ps m (ids : list path) p t (vals : list R) : Permutation m (fourier_cols ps) -> NoDup (map pname (zero_pairs m ids)) -> List.length vals = List.length (map pname (zero_pairs m ids)) ->
  (forall c i, In c m -> In i ids -> value_of (map pname (zero_pairs m ids)) vals (get_col_name c i) = if path_eqb p i then option_map (fillna 0%R (fun _ => false)) (value_of (fourier_cols ps) (fourier_vals ps t) c) else Some 0%R) ->
  vals = own_waves ps m ids p t.
Proof.
  intros P N L V. apply map_Some_inj. rewrite <- (values_all (map pname (zero_pairs m ids)) vals N L). rewrite map_map.
  transitivity (map (fun ci : string * path => Some (if path_eqb p (snd ci) then nth (position (fourier_cols ps) (fst ci)) (fourier_vals ps t) 0%R else 0%R)) (zero_pairs m ids)).
  - apply map_ext_in. intros [c i] Hc. apply zero_pairs_In in Hc as [Hc Hi]. cbn [fst snd] in *. change (pname (c, i)) with (get_col_name c i). rewrite V by assumption.
    destruct (path_eqb p i); [|reflexivity]. rewrite value_position; [reflexivity|apply fourier_cols_nodup|apply fourier_lengths|]. revert Hc. apply Permutation_in. exact P.
  - unfold own_waves, zero_pairs. rewrite <- map_map with (f := fun ci : string * path => if path_eqb p (snd ci) then nth (position (fourier_cols ps) (fst ci)) (fourier_vals ps t) 0%R else 0%R). f_equal.
    clear. induction m as [|d m IH]; [reflexivity|]. cbn [flat_map]. rewrite map_app, IH, map_map. reflexivity.
Qed.

Section Read.
Variables (ts : list BinNums.Z) (Z : frame R) (cols m : list string).
Hypothesis (N : ts <> []) (O : in_order ts).
Variables (X XC : frame R).
Hypothesis (W : frame_wf X) (LV : f_levels X <> 0) (CV : covers X ts) (SC : select_columns 0%R X cols = Ok XC) (IDS : series_ids X = series_ids Z).
Hypothesis (ND : NoDup (map (String.concat "-") (series_ids Z))).

Lemma inner_reads_panel env pe ef d w : knows_panel Z cols ef m -> inner_transform ef (filter_fh ts XC) ts = Ok d -> yields env (predict ef d pe) w ->
  exists rows k, inputs ef rows k d /\ Forall2 (reads_panel X Z cols m ef) (f_rows (filter_fh ts X)) rows.
Proof.
  pose proof (select_values_at _ _ _ W SC) as F2. pose proof (select_wf _ _ _ W SC) as WC. pose proof (OverlapFrames.select_labels _ _ _ SC) as (S1 & S2 & S3 & S4).
  assert (CC : covers XC ts) by (apply (covers_same X); auto).
  assert (F3 : Forall2 (fun r r' => r_path r' = r_path r /\ r_time r' = r_time r /\ values_at X r cols (r_vals r')) (f_rows (filter_fh ts X)) (f_rows (filter_fh ts XC))).
  { unfold filter_fh, filter_rows. cbn [f_rows]. apply Forall2_filter; [exact F2|]. intros r r' (_ & -> & _). reflexivity. }
  assert (WL : row_lengths XC) by (unfold row_lengths; rewrite S3; exact S4).
  intros K H Y. destruct ef as [mo p b|mo p q b|mo p q r b|inner tab ps b sc|sp terms ps mo b ff x l]; destruct K as [_ K]; try contradiction.
  - cbn [inner_transform] in H. destruct (frame_array (filter_fh ts XC)) as [a|] eqn:E; [|discriminate]. cbn [bind] in H. injection H as <-. exists (map r_vals (f_rows (filter_fh ts XC))), (List.length (f_cols XC)).
    cbn [inputs reads_panel]. split; [now apply covered_rows_array|]. apply Forall2_map_r. clear -F3. induction F3 as [|a0 b0 l l' (_ & _ & H) F IH]; constructor; auto.
  - destruct K as (f & mm & -> & FM & FP & _ & PM & K). cbn [inner_transform attr bind] in H.
    destruct (fourier_transform f (filter_fh ts XC)) as [XF|] eqn:FT; [|discriminate]. cbn [bind] in H. apply fourier_full in FT as (ZF & FZ & -> & LZ & VZ); auto.
    pose proof (fourier_series_ids _ _ _ FZ) as SI. apply fourier_transform_rows in FZ as (FL & FC & FR).
    assert (SX : series_ids XC = series_ids Z) by (rewrite <- IDS; now apply series_ids_labels).
    assert (WZ : frame_wf ZF). { intros r Hr. rewrite FR in Hr. apply in_map_iff in Hr as (r0 & <- & Hr). cbn [r_vals r_path]. rewrite FC, fourier_lengths. split; [reflexivity|]. rewrite FL. now apply WC. }
    assert (CZ : covers ZF ts) by (apply (covers_same XC); [rewrite LZ; reflexivity|rewrite VZ; reflexivity|exact CC] || (apply (covers_same XC); auto)).
    assert (DA : exists a, d = EArr a). { destruct d as [|a|? ?]; [exfalso|eauto|exfalso]. all: cbn [predict] in Y; destruct l as [[? ?]|]; [|inversion Y]; apply mode_yields in Y as (? & ? & _ & Y & _); inversion Y. }
    destruct DA as (a & ->).
    assert (G : exists ZC cols', frame_array (filter_fh ts ZC) = Ok a /\ labels ZC = labels XC /\ f_levels ZC = f_levels XC /\ f_cols ZC = cols' /\ row_lengths ZC /\
       Forall2 (fun r r' => r_time r' = r_time r /\ r_path r' = r_path r /\
         List.length (r_vals r') = 2 * List.length (fourier_pairs sp terms) * List.length (series_ids Z) /\
         forall i t0, nth_error (series_ids Z) i = Some (r_path r) -> first_date (dates_of Z (r_path r)) t0 -> forall c,
           weighted (r_vals r') c = weighted (waves (fourier_pairs sp terms) (r_time r - t0)) (fun k => c (renumber (fourier_cols (fourier_pairs sp terms)) m k * List.length (series_ids Z) + i)%nat)) (f_rows XC) (f_rows ZC)).
    { destruct x as [ex|].
      - destruct K as (SK & EM & ->). destruct (expand_transform 0%R (fun _ => false) ex (filter_fh ts ZF)) as [[XE ex']|] eqn:EX; [|discriminate]. cbn [bind attr] in H.
        apply expand_full in EX as (ZE & EX & -> & EL & EV); auto. apply linear_full in H as (cols' & ZC & [= <-] & SZ & FA).
        pose proof (copies_nodup _ _ _ PM ND) as ND2. assert (NDm : NoDup m) by (eapply Permutation_NoDup; [apply Permutation_sym; exact PM|apply fourier_cols_nodup]).
        destruct (expand_transform_spec 0%R (fun _ => false) eq_refl ex ZF (series_ids Z) m ltac:(congruence) (eq_sym EM) WZ ltac:(congruence) SK ltac:(rewrite FC; apply fourier_cols_nodup) NDm) as (ZE' & ex2 & EE & EL2 & EC & EF2).
        { intros c Hc. rewrite FC. revert Hc. apply Permutation_in. exact PM. }
        { rewrite FC. exact ND2. }
        rewrite EX in EE. injection EE as <- <-. rewrite FC in EC. rewrite (FrameFacts.filter_none _ (fourier_cols (ff_pairs f))) in EC by (intros c Hc; apply negb_false_iff, str_in_iff; revert Hc; apply Permutation_in; now apply Permutation_sym). cbn [app] in EC.
        assert (WE : frame_wf ZE). { intros r Hr. apply Forall2_In_both in EF2. destruct (proj2 EF2 _ Hr) as (r0 & H0 & P0 & _ & L0 & _). split; [exact L0|]. rewrite P0, EL2. now apply WZ. }
        pose proof (select_values_at _ _ _ WE SZ) as G2. pose proof (OverlapFrames.select_labels _ _ _ SZ) as (Z1 & Z2 & Z3 & Z4).
        exists ZC, (map pname (zero_pairs m (series_ids Z))). split; [exact FA|]. split; [congruence|]. split; [congruence|]. split; [exact Z3|]. split; [unfold row_lengths; rewrite Z3; exact Z4|].
        assert (ND3 : NoDup (map pname (zero_pairs m (series_ids Z)))) by (clear -ND2; induction (fourier_cols (ff_pairs f)) as [|c l IH]; [exact ND2|inversion ND2; auto]).
        assert (NI : NoDup (series_ids Z)) by (eapply NoDup_map_inv; exact ND).
        rewrite FR in EF2. clear -EF2 G2 EC ND3 PM FP FM NI FC. revert EF2 G2. generalize (f_rows ZE) (f_rows ZC). induction (f_rows XC) as [|r l IH]; intros l1 l2 F G; cbn [map] in F.
        { inversion F; subst. inversion G; subst. constructor. }
        inversion F as [|? r1 ? l1' (P1 & T1 & L1 & _ & V1) F1]; subst l1. inversion G as [|? r2 ? l2' (P2 & T2 & V2) G1]; subst l2. constructor; [|eapply IH; eauto].
        cbn [r_path r_time r_vals] in *. rewrite FC, EC in *. unfold values_at in V2. rewrite EC, values_all in V2 by assumption. apply map_Some_inj in V2.
        assert (EW : r_vals r2 = own_waves (ff_pairs f) m (series_ids Z) (r_path r) (r_time r - mn_of (ff_min f) (r_path r))) by (rewrite <- V2; now apply expanded_values).
        split; [congruence|]. split; [congruence|]. rewrite EW, FP in *. split; [now apply own_waves_length|]. intros i t0 Hi Ht c. rewrite (own_waves_weighted _ _ _ _ _ i PM NI Hi). unfold mn_of. rewrite (FM _ _ Ht). reflexivity.
      - destruct K as (ONE & EM & ->). cbn [bind attr] in H. apply linear_full in H as (cols' & ZC & [= <-] & SZ & FA).
        pose proof (select_values_at _ _ _ WZ SZ) as G2. pose proof (OverlapFrames.select_labels _ _ _ SZ) as (Z1 & Z2 & Z3 & Z4).
        exists ZC, m. split; [exact FA|]. split; [congruence|]. split; [congruence|]. split; [exact Z3|]. split; [unfold row_lengths; rewrite Z3; exact Z4|].
        assert (NR : forall r, In r (f_rows XC) -> List.length (series_ids Z) = 1).
        { intros r Hr. assert (I : In (r_path r) (series_ids Z)) by (rewrite <- SX; apply series_ids_In; eauto). destruct (series_ids Z) as [|? [|? ?]]; [destruct I|reflexivity|cbn in ONE; lia]. }
        rewrite FR in G2. clear -G2 FC EM FP FM NR. revert NR G2. generalize (f_rows ZC). induction (f_rows XC) as [|r l IH]; intros l2 NR G; cbn [map] in G.
        { inversion G; subst. constructor. }
        inversion G as [|? r2 ? l2' (P2 & T2 & V2) G1]; subst l2. constructor; [|eapply IH; [|exact G1]; intros q Hq; apply (NR q); now right].
        cbn [r_path r_time r_vals] in *. unfold values_at in V2. cbn [r_vals] in V2. rewrite FC, EM, values_all in V2 by (try apply fourier_cols_nodup; apply fourier_lengths). apply map_Some_inj in V2.
        assert (L1 := NR r (or_introl eq_refl)). rewrite L1, <- V2, vals_waves, FP, waves_length. split; [exact T2|]. split; [exact P2|]. split; [lia|]. intros i t0 Hi Ht c. unfold mn_of. rewrite (FM _ _ Ht).
        assert (i = 0) by (assert (i < 1) by (rewrite <- L1; apply nth_error_Some; congruence); lia). subst i. apply weighted_ext. intros k Hk. rewrite waves_length, <- fourier_cols_length in Hk. rewrite EM, FP.
        rewrite renumber_same by (auto using fourier_cols_nodup). f_equal. lia. }
    destruct G as (ZC & cols' & FA & ZL & ZV & ZCo & ZR & ZF2).
    assert (CZC : covers ZC ts) by (apply (covers_same XC); auto).
    exists (map r_vals (f_rows (filter_fh ts ZC))), (List.length (f_cols ZC)). split; [cbn [inputs]; now apply covered_rows_array|]. cbn [reads_panel]. apply Forall2_map_r.
    match type of ZF2 with Forall2 ?P _ _ => assert (ZF3 : Forall2 P (f_rows (filter_fh ts XC)) (f_rows (filter_fh ts ZC))) end.
    { unfold filter_fh, filter_rows. cbn [f_rows]. apply Forall2_filter; [exact ZF2|]. intros r r' (-> & _). reflexivity. }
    clear -F3 ZF3. revert F3 ZF3. generalize (f_rows (filter_fh ts X)) (f_rows (filter_fh ts XC)) (f_rows (filter_fh ts ZC)). intros l1 l2 l3 F. revert l3.
    induction F as [|a0 b0 l0 l0' (P & T & _) F IH]; intros l3 G; inversion G as [|? c ? l3' (_ & _ & L & V) G1]; subst; constructor; auto. split; [exact L|]. intros i t0. rewrite <- P, <- T. apply V.
Qed.
End Read.
