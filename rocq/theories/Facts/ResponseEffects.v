(** Effects fitted on one series: what they read. *)
From Coq Require Import Reals Lra ZArith String Ascii Bool List Lia Permutation.
From Verif.Model Require Import Base Num Frame Arr Prog Effect Expand Forecaster.
From Verif.Spec Require Import FrameSpec ProgSpec EffectSpec ForecasterSpec OverlapSpec ResponseSpec.
From Verif.Facts Require Import BaseFacts FrameFacts NumFacts ArrFacts ProgFacts EffectFacts EffectPredict EffectFourier AlignFacts ExpandFacts ForecasterFacts ForecasterTransformer TotalFacts OverlapFacts OverlapFrames ResponseFacts.
Import ListNotations.
Local Open Scope string_scope.

(** * Harmonics *)
Lemma ordpairs_app {A} (P : A -> A -> Prop) l x : ForallOrdPairs P l -> Forall (fun y => P y x) l -> ForallOrdPairs P (l ++ [x]).
Proof. induction 1 as [|a l H1 H2 IH]; intros F; cbn [app]; [repeat constructor|]. inversion_clear F. constructor; [|auto]. apply Forall_app. auto. Qed.

Section Pairs.
Notation D := (fun h h' : R * nat => (INR (snd h) / fst h <> INR (snd h') / fst h')%R /\ (fst h = fst h' -> snd h < snd h')).
Definition keep_new (acc : list (R * nat)) (p : R * nat) := if existsb (fun q => Reqb (INR (snd q) / fst q) (INR (snd p) / fst p)) acc then acc else (acc ++ [p])%list.
Definition kept (done acc : list (R * nat)) : Prop :=
  incl acc done /\ (forall h, In h done -> exists h', In h' acc /\ (INR (snd h') / fst h' = INR (snd h) / fst h)%R) /\ ForallOrdPairs D acc.
Definition closed (done : list (R * nat)) : Prop := forall p k k', In (p, k') done -> 1 <= k <= k' -> In (p, k) done.
Lemma keep_step done acc p k : kept done acc -> closed done -> 1 <= k -> kept (done ++ [(p, k)]) (keep_new acc (p, k)).
Proof.
  intros (I & R0 & O) C K. unfold keep_new. destruct (existsb _ acc) eqn:X.
  - split; [intros h Hh; apply in_or_app; left; now apply I|]. split; [|exact O]. intros h Hh. apply in_app_or in Hh as [Hh|[<-|[]]]; [now apply R0|].
    apply existsb_exists in X as (q & Hq & E). exists q. split; [exact Hq|]. unfold Reqb in E. destruct (Req_EM_T _ _) as [E'|]; [exact E'|discriminate].
  - assert (NX : forall q, In q acc -> (INR (snd q) / fst q <> INR k / p)%R).
    { intros q Hq E. assert (existsb (fun q => Reqb (INR (snd q) / fst q) (INR k / p)) acc = true); [|cbn [fst snd] in X; congruence]. apply existsb_exists. exists q. split; [exact Hq|]. unfold Reqb. destruct (Req_EM_T _ _); [reflexivity|contradiction]. }
    split; [intros h Hh; apply in_app_or in Hh as [Hh|Hh]; apply in_or_app; [left; now apply I|now right]|]. split.
    + intros h Hh. apply in_app_or in Hh as [Hh|[<-|[]]]; [destruct (R0 h Hh) as (h' & H1 & H2); exists h'; split; [apply in_or_app; now left|exact H2]|]. exists (p, k). split; [apply in_or_app; right; now left|reflexivity].
    + apply ordpairs_app; [exact O|]. apply Forall_forall. intros [q l] Hq. cbn [fst snd]. split; [exact (NX _ Hq)|]. intros ->. destruct (Nat.lt_ge_cases l k) as [|G]; [assumption|exfalso].
      assert (J : In (p, k) done) by (apply (C p k l); [now apply I|lia]). destruct (R0 _ J) as (h' & H1 & H2). exact (NX _ H1 H2).
Qed.
Lemma closed_block done p n : closed done -> closed (done ++ map (pair p) (seq 1 n)).
Proof.
  intros C q k k' H K. apply in_app_or in H as [H|H]; apply in_or_app; [left; eauto|right]. apply in_map_iff in H as (l & [= <- <-] & Hl). apply in_map_iff. exists k. split; [reflexivity|]. apply in_seq in Hl. apply in_seq. lia.
Qed.
Lemma keep_block p n done acc : kept done acc -> closed done -> kept (done ++ map (pair p) (seq 1 n)) (fold_left keep_new (map (pair p) (seq 1 n)) acc).
Proof.
  intros K C. induction n as [|n IH]; [cbn [seq map fold_left]; now rewrite app_nil_r|]. rewrite seq_S, map_app, fold_left_app, app_assoc. cbn [map fold_left]. apply keep_step; [exact IH|now apply closed_block|lia].
Qed.
Lemma keep_terms bs : forall done acc, kept done acc -> closed done ->
  kept (done ++ flat_map (fun pn => map (fun k => (fst pn, k)) (seq 1 (snd pn))) bs) (fold_left keep_new (flat_map (fun pn => map (fun k => (fst pn, k)) (seq 1 (snd pn))) bs) acc).
Proof.
  induction bs as [|[p n] bs IH]; intros done acc K C; cbn [flat_map fold_left]; [now rewrite app_nil_r|]. rewrite fold_left_app, app_assoc. apply IH; [|now apply closed_block]. now apply keep_block.
Qed.
Lemma pairs_harmonics sp terms : harmonics sp terms (fourier_pairs sp terms).
Proof.
  assert (K0 : kept [] []) by (split; [apply incl_refl|]; split; [intros h []|constructor]). assert (C0 : closed []) by (intros p k k' []).
  destruct (keep_terms (combine sp terms) [] [] K0 C0) as (H1 & H2 & H3). cbn [app] in *. change (fold_left keep_new _ []) with (fourier_pairs sp terms) in *.
  assert (IA : forall p k, In (p, k) (flat_map (fun pn => map (fun k => (fst pn, k)) (seq 1 (snd pn))) (combine sp terms)) <-> exists n, In (p, n) (combine sp terms) /\ 1 <= k <= n).
  { intros p k. rewrite in_flat_map. split.
    - intros ([p' n] & I & H). apply in_map_iff in H as (k' & [= <- <-] & H). apply in_seq in H. exists n. cbn [fst snd] in *. split; [exact I|lia].
    - intros (n & I & H). exists (p, n). split; [exact I|]. apply in_map_iff. exists k. split; [reflexivity|]. apply in_seq. cbn [snd]. lia. }
  split; [|split; [|exact H3]].
  - intros p k I. now apply IA, H1.
  - intros p n k I K. destruct (H2 (p, k)) as ([q l] & I' & E); [apply IA; eauto|]. exists q, l. auto.
Qed.
End Pairs.

(** ** one period *)
Lemma increasing_all m : forall a l, (forall k, In k l <-> a <= k < a + m) -> ForallOrdPairs lt l -> l = seq a m.
Proof.
  induction m as [|m IH]; intros a l I O; [destruct l as [|k l]; [reflexivity|]; assert (a <= k < a + 0) by (apply I; now left); lia|].
  destruct l as [|k l]; [assert (In a []) by (apply I; lia); contradiction|]. inversion_clear O as [|? ? F O']. rewrite Forall_forall in F.
  assert (k = a). { assert (J : In a (k :: l)) by (apply I; lia). destruct J as [J|J]; [exact J|]. apply F in J. assert (a <= k < a + S m) by (apply I; now left). lia. }
  subst k. cbn [seq]. f_equal. apply IH; [|exact O']. intros k. split.
  - intros H. assert (a <= k < a + S m) by (apply I; now right). apply F in H. lia.
  - intros H. assert (J : In k (a :: l)) by (apply I; lia). destruct J as [->|J]; [lia|exact J].
Qed.
Lemma one_period P K hs : P <> 0%R -> harmonics [P] [K] hs -> hs = map (pair P) (seq 1 K).
Proof.
  intros NP (S & C & O). assert (E : hs = map (pair P) (map snd hs)).
  { rewrite map_map. rewrite <- (map_id hs) at 1. apply map_ext_in. intros [p k] I. destruct (S p k I) as (n & [[= <- <-]|[]] & _). reflexivity. }
  rewrite E. f_equal. apply increasing_all.
  - intros k. split.
    + intros I. apply in_map_iff in I as ([p l] & <- & I). destruct (S p l I) as (n & [[= <- <-]|[]] & B). cbn [snd]. lia.
    + intros B. destruct (C P K k (or_introl eq_refl) ltac:(lia)) as (q & l & I & F). destruct (S q l I) as (n & [[= <- <-]|[]] & _). assert (l = k); [|subst l; apply in_map_iff; now exists (P, k)].
      apply INR_eq. apply (Rmult_eq_reg_r (/ P)); [exact F|]. now apply Rinv_neq_0_compat.
  - rewrite E in O. clear -O. induction (map snd hs) as [|k l IH]; [constructor|]. cbn [map] in O. inversion_clear O as [|? ? F O']. constructor; [|auto]. rewrite Forall_forall in *. intros j Hj. destruct (F (P, j)) as [_ L]; [now apply in_map|]. now apply L.
Qed.
Lemma weighted_documented P t : forall K s coef, weighted (waves (map (pair P) (seq s K)) t) coef =
  Rsum (map (fun k => coef (2 * (k - s) + 1)%nat * cos (2 * PI * INR k * IZR t / P) + coef (2 * (k - s))%nat * sin (2 * PI * INR k * IZR t / P))%R (seq s K)).
Proof.
  induction K as [|K IH]; intros s coef; [reflexivity|]. cbn [seq map waves flat_map app weighted Rsum fst snd]. change (flat_map _ (map (pair P) (seq (S s) K))) with (waves (map (pair P) (seq (S s) K)) t).
  rewrite IH. rewrite Nat.sub_diag. cbn [Nat.mul Nat.add]. replace (map _ (seq (S s) K)) with (map (fun k => coef (2 * (k - s) + 1)%nat * cos (2 * PI * INR k * IZR t / P) + coef (2 * (k - s))%nat * sin (2 * PI * INR k * IZR t / P))%R (seq (S s) K)); [cbn [Nat.mul Nat.add]; ring|].
  apply map_ext_in. intros k Hk. apply in_seq in Hk. replace (2 * (k - s) + 1) with (S (S (2 * (k - S s) + 1))) by lia. replace (2 * (k - s)) with (S (S (2 * (k - S s)))) by lia. reflexivity.
Qed.
Lemma answers_documented e name place P K sg arg b ff x0 l x t trend v : P <> 0%R -> answers e name place (Fourier [P] [K] sg arg b ff x0 l) x t trend v ->
  exists m, mode_named arg m /\ v = modal m trend (documented K P (fun k => parameter e name "coefs" (place (2 * k - 1))) (fun k => parameter e name "coefs" (place (2 * k - 2))) (IZR t)).
Proof.
  intros NP (m & hs & M & H & ->). exists m. split; [exact M|]. f_equal. rewrite (one_period _ _ _ NP H), weighted_documented. unfold documented. f_equal. apply map_ext_in. intros k Hk. apply in_seq in Hk.
  replace (2 * (k - 1) + 1) with (2 * k - 1) by lia. replace (2 * (k - 1)) with (2 * k - 2) by lia. reflexivity.
Qed.

Lemma vals_waves hs t : fourier_vals hs t = waves hs t.
Proof. reflexivity. Qed.

(** ** names of the columns *)
Lemma bars_inj i : forall j, bars i = bars j -> i = j.
Proof. induction i as [|i IH]; intros [|j] H; try discriminate; [reflexivity|]. cbn [bars] in H. injection H as H. f_equal. now apply IH. Qed.
Lemma fourier_cols_nodup ps : NoDup (fourier_cols ps).
Proof.
  unfold fourier_cols. assert (G : forall l, NoDup l -> NoDup (flat_map (fun i => [sin_name i; cos_name i]) l)).
  { induction 1 as [|i l I N IH]; [constructor|]. cbn [flat_map app].
    assert (K : forall s, In s (flat_map (fun i => [sin_name i; cos_name i]) l) -> exists j, In j l /\ (s = sin_name j \/ s = cos_name j)).
    { intros s Hs. apply in_flat_map in Hs as (j & Hj & [<-|[<-|[]]]); eauto. }
    constructor; [|constructor; [|exact IH]].
    - intros [E|E]; [discriminate|]. apply K in E as (j & Hj & [E|E]); [|discriminate]. unfold sin_name in E. cbn [append] in E. injection E as E. apply bars_inj in E. subst j. contradiction.
    - intros E. apply K in E as (j & Hj & [E|E]); [discriminate|]. unfold cos_name in E. cbn [append] in E. injection E as E. apply bars_inj in E. subst j. contradiction. }
  apply G, seq_NoDup.
Qed.
Lemma fourier_lengths ps t : List.length (fourier_vals ps t) = List.length (fourier_cols ps).
Proof.
  unfold fourier_vals, fourier_cols. assert (G : forall k, List.length (flat_map (fun pk => [sin (fourier_angle pk t); cos (fourier_angle pk t)]) ps) =
     List.length (flat_map (fun i => [sin_name i; cos_name i]) (seq k (List.length ps)))).
  { induction ps as [|p ps IH]; intros k; [reflexivity|]. cbn [flat_map List.length seq]. rewrite !app_length, (IH (S k)). reflexivity. }
  apply G.
Qed.
Lemma waves_length hs t : List.length (waves hs t) = 2 * List.length hs.
Proof. unfold waves. induction hs as [|h hs IH]; [reflexivity|]. cbn [flat_map List.length app]. rewrite IH. lia. Qed.

(** ** columns and values *)
Lemma values_all {V} cols (vals : list V) : NoDup cols -> List.length vals = List.length cols -> map (value_of cols vals) cols = map Some vals.
Proof.
  intros N L. revert vals L. induction cols as [|c cols IH]; intros [|v vals] L; try discriminate; [reflexivity|]. inversion_clear N as [|? ? I N']. cbn [map value_of]. rewrite String.eqb_refl. f_equal.
  rewrite <- (IH N' vals) by (now injection L). apply map_ext_in. intros d Hd. destruct (String.eqb_spec d c) as [->|]; [contradiction|reflexivity].
Qed.
Lemma map_Some_inj {V} (l l' : list V) : map Some l = map Some l' -> l = l'.
Proof. revert l'. induction l as [|a l IH]; intros [|b l'] H; try discriminate; [reflexivity|]. injection H as -> H. f_equal. now apply IH. Qed.

Lemma select_values_at (X Y : frame R) cols : frame_wf X -> select_columns 0%R X cols = Ok Y ->
  Forall2 (fun r r' => r_path r' = r_path r /\ r_time r' = r_time r /\ values_at X r cols (r_vals r')) (f_rows X) (f_rows Y).
Proof.
  intros W H. destruct (select_value X Y cols W H) as (g & E & C & _ & G). rewrite E.
  assert (K : forall r, In r (f_rows X) -> r_path (g r) = r_path r /\ r_time (g r) = r_time r /\ values_at X r cols (r_vals (g r))).
  { intros r Hr. destruct (G r Hr) as (P & T & L & V). split; [exact P|]. split; [exact T|]. unfold values_at. apply (nth_ext _ _ None None); [now rewrite !map_length|]. intros j Hj. rewrite map_length in Hj.
    destruct (nth_error cols j) as [c|] eqn:EC; [|apply nth_error_None in EC; lia].
    rewrite (nth_error_nth _ j None (map_nth_error _ j cols EC)). rewrite (V j c EC). symmetry. rewrite (nth_indep _ None (Some 0%R)) by (rewrite map_length; lia). apply (map_nth Some). }
  clear -K. induction (f_rows X) as [|r l IH]; [constructor|]. cbn [map]. constructor; [apply K; now left|]. apply IH. intros q Hq. apply K. now right.
Qed.

(** * The state after fitting *)
(** [ef] was fitted on columns [cols] of one series which begins at [t0] *)
Fixpoint knows (cols : list string) (t0 : Z) (ef : effect) : Prop :=
  b_cols (get_base ef) = Some cols /\
  match ef with
  | Lift inner _ _ _ _ => knows cols t0 inner
  | Fourier sp terms _ arg _ ff x l => exists f m, ff = Some f /\ x = None /\ find_min (ff_min f) [] = Ok t0 /\ ff_pairs f = fourier_pairs sp terms /\ mode_named arg m /\
      l = Some (m, mkBase (Some (fourier_cols (ff_pairs f))) (Some true))
  | _ => True
  end.

Lemma min_time_first l : forall t, In (min_time t l) (t :: l) /\ forall u, In u (t :: l) -> (min_time t l <= u)%Z.
Proof.
  induction l as [|x l IH]; intros t; cbn [min_time]; [split; [now left|]; intros u [->|[]]; lia|]. destruct (IH (Z.min t x)) as [I M]. split.
  - destruct I as [E|I]; [|auto with datatypes]. rewrite <- E. destruct (Z.min_spec t x) as [[_ ->]|[_ ->]]; simpl; auto.
  - intros u [<-|[<-|H]]; [| |apply M; now right]; specialize (M _ (or_introl eq_refl)); lia.
Qed.

Lemma fit_knows order e : forall X s e', single X -> f_rows X <> [] -> fit order (clone e) (Some X) s = (e', None) ->
  forall t0, first_date (map r_time (f_rows X)) t0 -> knows (f_cols X) t0 e'.
Proof.
  induction e as [m p b|m p q b|m p q r b|inner IH tab ps b sc|sp terms ps m b ff x l]; intros X s e' S0 N H t0 F; pose proof (proj2 S0) as L; pose proof (fit_cols _ _ _ _ _ H) as [C _]; rewrite columns_seen_all in C by exact N.
  1-3: cbn [clone fit] in H; unfold base_fit in H; cbn [supports_multivariate is_panel negb andb] in H; rewrite ?L in H; cbn [Nat.eqb negb andb] in H; injection H as <-; cbn [knows]; auto.
  - cbn [clone fit] in H. destruct (fit order (clone inner) (Some X) s) as [i [er|]] eqn:E; [discriminate|]. pose proof (IH _ _ _ S0 N E _ F) as K.
    unfold base_fit in H. cbn [supports_multivariate is_panel negb andb] in H. rewrite L in H. cbn [Nat.eqb negb andb] in H. injection H as <-. cbn [knows]. auto.
  - cbn [clone fit mk_fourier] in H. unfold base_fit in H. cbn [supports_multivariate negb andb set_cols set_base get_base inner_fit] in H.
    destruct (fourier_fit sp terms (Some X)) as [f|] eqn:EF; [|discriminate].
    assert (FM : find_min (ff_min f) [] = Ok t0 /\ ff_pairs f = fourier_pairs sp terms).
    { unfold fourier_fit in EF. destruct (negb _); [discriminate|]. destruct (existsb _ _); [discriminate|]. destruct (f_rows X) as [|r0 rows] eqn:ER; [congruence|]. injection EF as <-. cbn [ff_min ff_pairs]. split; [|reflexivity].
      unfold iterate_all_series. rewrite (single_series_ids X S0) by congruence. cbn [map find_min find fst snd path_eqb]. unfold find_min. cbn [find fst path_eqb snd]. f_equal.
      assert (EP : rows_of X [] = f_rows X). { unfold rows_of. apply FrameFacts.filter_all. intros r Hr. rewrite (single_paths X r S0 Hr). apply path_eqb_refl. }
      rewrite EP, ER. cbn [map]. destruct (min_time_first (map r_time rows) (r_time r0)) as [I M]. destruct F as [F1 F2]. cbn [map] in F1, F2. pose proof (M _ F1). pose proof (F2 _ I). lia. }
    destruct (fourier_transform f X) as [XF|] eqn:FT; [|discriminate]. apply fourier_transform_rows in FT as (FL & FC & FR). rewrite FL, L in H. cbn [Nat.eqb negb andb] in H.
    destruct (check_mode m) as [mm|] eqn:CM; [|discriminate]. injection H as <-. cbn [knows]. split; [exact C|]. exists f, mm. destruct FM as [F1 F2]. split; [reflexivity|]. split; [reflexivity|]. split; [exact F1|]. split; [exact F2|].
    split. { apply check_mode_ok in CM as [[-> ->]|[-> ->]]; reflexivity. }
    assert (NF : f_rows XF <> []) by (rewrite FR; destruct (f_rows X); [congruence|discriminate]). pose proof (columns_seen_all XF NF) as CS. unfold columns_seen in CS. rewrite CS, FC. reflexivity.
Qed.

(** * What a fitted effect reads *)
Fixpoint reads (X : frame R) (cols : list string) (t0 : Z) (ef : effect) (r : row R) (z : list R) : Prop :=
  match ef with
  | Lift inner _ _ _ _ => reads X cols t0 inner r z
  | Fourier sp terms _ _ _ _ _ _ => z = waves (fourier_pairs sp terms) (r_time r - t0)
  | _ => values_at X r cols z
  end.
Lemma Forall2_filter {A B} (P : A -> B -> Prop) (f : A -> bool) (g : B -> bool) l l' : Forall2 P l l' -> (forall a b, P a b -> f a = g b) -> Forall2 P (filter f l) (filter g l').
Proof. intros F H. induction F as [|a b l l' Pab F IH]; [constructor|]. cbn [filter]. rewrite (H _ _ Pab). destruct (g b); auto. Qed.
Lemma Forall2_map_r {A B C} (P : A -> C -> Prop) (f : B -> C) l l' : Forall2 (fun a b => P a (f b)) l l' -> Forall2 P l (map f l').
Proof. induction 1; constructor; auto. Qed.

Lemma inner_reads cols t0 ts (N : ts <> []) (O : in_order ts) X XC (W : frame_wf X) (LV : f_levels X = 0) (CV : covers X ts) (SC : select_columns 0%R X cols = Ok XC) env pe ef :
  forall d w, knows cols t0 ef -> inner_transform ef (filter_fh ts XC) ts = Ok d -> yields env (predict ef d pe) w ->
  exists rows k, inputs ef rows k d /\ Forall2 (reads X cols t0 ef) (f_rows (filter_fh ts X)) rows.
Proof.
  pose proof (select_values_at _ _ _ W SC) as F2. pose proof (select_wf _ _ _ W SC) as WC. pose proof (OverlapFrames.select_labels _ _ _ SC) as (S1 & S2 & S3 & S4).
  assert (CC : covers XC ts) by (apply (covers_same X); auto).
  assert (F3 : Forall2 (fun r r' => r_path r' = r_path r /\ r_time r' = r_time r /\ values_at X r cols (r_vals r')) (f_rows (filter_fh ts X)) (f_rows (filter_fh ts XC))).
  { unfold filter_fh, filter_rows. cbn [f_rows]. apply Forall2_filter; [exact F2|]. intros r r' (_ & -> & _). reflexivity. }
  assert (WL : row_lengths XC) by (unfold row_lengths; rewrite S3; exact S4).
  assert (PL : forall d, (a <- frame_array (filter_fh ts XC) ;; Ok (EArr a)) = Ok d -> exists a, d = EArr a /\ rows_array (map r_vals (f_rows (filter_fh ts XC))) (List.length (f_cols XC)) a).
  { intros d H. destruct (frame_array (filter_fh ts XC)) as [a|] eqn:E; [|discriminate]. cbn [bind] in H. injection H as <-. exists a. split; [reflexivity|]. now apply covered_rows_array. }
  assert (PV : Forall2 (fun r z => values_at X r cols z) (f_rows (filter_fh ts X)) (map r_vals (f_rows (filter_fh ts XC)))).
  { apply Forall2_map_r. clear -F3. induction F3 as [|a b l l' (_ & _ & H) F IH]; constructor; auto. }
  induction ef as [m p b|m p q b|m p q r b|inner IH tab ps b sc|sp terms ps m b ff x l]; intros d w K H Y.
  1-3: cbn [inner_transform] in H; apply PL in H as (a & -> & RA); exists (map r_vals (f_rows (filter_fh ts XC))), (List.length (f_cols XC)); cbn [inputs reads]; auto.
  - cbn [inner_transform knows] in *. destruct K as [_ K]. destruct (inner_transform inner (filter_fh ts XC) ts) as [d'|] eqn:E; [|discriminate]. cbn [bind] in H.
    destruct sc as [sc|]; [|discriminate]. cbn [attr bind] in H. injection H as <-. cbn [predict] in Y. apply yields_bind in Y as (w' & Y & _).
    destruct (IH _ _ K eq_refl Y) as (rows & k & I & F). exists rows, k. cbn [inputs reads]. auto.
  - cbn [knows] in K. destruct K as (_ & f & mm & -> & -> & FM & FP & _ & ->). cbn [inner_transform attr bind] in H.
    destruct (fourier_transform f (filter_fh ts XC)) as [XF|] eqn:FT; [|discriminate]. cbn [bind] in H. apply fourier_full in FT as (Z & FZ & -> & LZ & VZ); auto.
    cbn [attr bind] in H. apply fourier_transform_rows in FZ as (FL & FC & FR).
    destruct d as [|a|? ?]; [exfalso; cbn [predict] in Y; apply mode_yields in Y as (? & ? & _ & Y & _); inversion Y| |exfalso; cbn [predict] in Y; apply mode_yields in Y as (? & ? & _ & Y & _); inversion Y].
    apply linear_full in H as (cols' & ZC & [= <-] & SZ & FA).
    assert (WZ : frame_wf Z). { intros r Hr. rewrite FR in Hr. apply in_map_iff in Hr as (r0 & <- & Hr). cbn [r_vals r_path]. rewrite FC, fourier_lengths. split; [reflexivity|]. rewrite FL. now apply WC. }
    pose proof (select_values_at _ _ _ WZ SZ) as G2. pose proof (OverlapFrames.select_labels _ _ _ SZ) as (Z1 & Z2 & Z3 & Z4).
    assert (CZ : covers ZC ts) by (apply (covers_same XC); [rewrite Z2, VZ; reflexivity|rewrite Z1, LZ; reflexivity|exact CC]).
    assert (RA : rows_array (map r_vals (f_rows (filter_fh ts ZC))) (List.length (f_cols ZC)) a) by (apply covered_rows_array; auto; unfold row_lengths; rewrite Z3; exact Z4).
    exists (map r_vals (f_rows (filter_fh ts ZC))), (List.length (f_cols ZC)). split; [exact RA|]. cbn [reads]. apply Forall2_map_r.
    assert (G3 : Forall2 (fun r r' => r_time r' = r_time r /\ r_vals r' = waves (fourier_pairs sp terms) (r_time r - t0)) (f_rows XC) (f_rows ZC)).
    { rewrite FR in G2. assert (PN : forall r, In r (f_rows XC) -> r_path r = []).
      { intros r Hr. destruct (WC r Hr) as [_ P]. rewrite S2, LV in P. now destruct (r_path r). }
      clear -G2 FC FP FM PN. revert G2. generalize (f_rows ZC). revert PN. induction (f_rows XC) as [|r l IH]; intros PN l' G; inversion G as [|? r' ? l1 (P & T & V) G1]; subst; [constructor|]. constructor.
      - cbn [r_time] in T. split; [exact T|]. unfold values_at in V. cbn [r_vals] in V. rewrite FC, values_all in V by (try apply fourier_cols_nodup; apply fourier_lengths).
        apply map_Some_inj in V. rewrite <- V, FP, vals_waves. unfold mn_of. rewrite (PN r (or_introl eq_refl)), FM. reflexivity.
      - apply IH; [|exact G1]. intros q Hq. apply PN. now right. }
    assert (G4 : Forall2 (fun r r' => r_time r' = r_time r /\ r_vals r' = waves (fourier_pairs sp terms) (r_time r - t0)) (f_rows (filter_fh ts XC)) (f_rows (filter_fh ts ZC))).
    { unfold filter_fh, filter_rows. cbn [f_rows]. apply Forall2_filter; [exact G3|]. intros r r' (-> & _). reflexivity. }
    clear -F3 G4. revert F3 G4. generalize (f_rows (filter_fh ts X)) (f_rows (filter_fh ts XC)) (f_rows (filter_fh ts ZC)). intros l1 l2 l3 F. revert l3.
    induction F as [|a b l l' (_ & T & _) F IH]; intros l3 G; inversion G as [|? c ? l3' (T' & V) G1]; subst; constructor; auto. rewrite V, T. reflexivity.
Qed.

(** * From inputs to columns *)
Lemma reads_answers e name X cols t0 ef : forall r x z trend v, reads X cols t0 ef r z -> knows cols t0 ef -> values_at X r cols x -> replies (own_env e name) ef z trend v ->
  answers e name (fun k => k) ef x (r_time r - t0) trend v.
Proof.
  assert (U : forall r x z, values_at X r cols z -> values_at X r cols x -> z = x) by (unfold values_at; intros r x z H1 H2; apply map_Some_inj; congruence).
  induction ef as [m p b|m p q b|m p q r b|inner IH tab ps b sc|sp terms ps m b ff y l]; intros r0 x z trend v RD K V RP; cbn [reads knows replies answers] in *.
  - rewrite (U _ _ _ RD V) in RP. exact RP.
  - rewrite (U _ _ _ RD V) in RP. destruct RP as (u & -> & ->). exists u. split; [reflexivity|]. unfold log1, clip_low, parameter, own_env. replace (/ 100000000)%R with (1 / 100000000)%R by lra. reflexivity.
  - rewrite (U _ _ _ RD V) in RP. destruct RP as (u & q0 & -> & HQ & ->). exists u. split; [reflexivity|]. unfold own_env, parameter in *. split.
    + intros Hu Hh. rewrite hill1_positive in HQ by assumption. now injection HQ as <-.
    + intros ->. destruct (Req_EM_T (e (name ++ "/" ++ "half_max") 0) 0) as [E|E].
      * unfold hill1 in HQ. rewrite E in HQ. unfold Reqb in HQ. destruct (Req_EM_T 0 0); [discriminate|congruence].
      * rewrite hill1_zero in HQ by assumption. now injection HQ as <-.
  - apply (IH r0 x z); auto. apply K.
  - destruct K as (_ & f & mm & -> & _ & _ & FP & MN & ->). destruct RP as (m0 & b0 & [= <- <-] & ->). exists mm, (fourier_pairs sp terms). split; [exact MN|]. split; [apply pairs_harmonics|]. rewrite RD. reflexivity.
Qed.
