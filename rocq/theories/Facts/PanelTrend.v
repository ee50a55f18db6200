(** Trends of panels: fitting and evaluation. *)
From Coq Require Import Reals Lra String Ascii Bool ZArith List Sorted Permutation Lia.
From Verif.Model Require Import Base Num XFloat Regex Frame Arr Expand Aggregate Scale Prog Likelihood Effect Trend TrendProg Engine Predict Forecaster.
From Verif.Spec Require Import FrameSpec ScaleSpec TrendSpec ProgSpec EffectSpec ForecasterSpec AlignSpec SiteSpec ShapeSpec LineSpec TotalSpec PanelSpec.
From Verif.Facts Require Import BaseFacts NumFacts OrderFacts FrameFacts FrameProps ArrFacts ProgFacts MeanFacts LikelihoodFacts ExpandFacts EffectFacts EffectFourier EffectPredict
  TimeFacts TrendFacts AlignFacts PredictFacts ForecasterFacts ForecasterInv ForecasterProps ForecasterTransformer CompleteFacts ShapeFacts SiteFacts AlignForecaster TotalFacts TotalTrend LineFacts TotalFit
  PanelGrid PanelEffects.
Import ListNotations.
Local Open Scope string_scope.

(** * Sorting *)
Lemma grid_sort ids times (y : frame R) : grid ids times y -> grid ids times (sort_index y).
Proof.
  intros (W & L & N & I). pose proof (sort_index_perm_rows y) as PP. split; [|split; [exact L|split]].
  - intros r Hr. apply W. eapply Permutation_in; [symmetry; exact PP|exact Hr].
  - unfold labels in *. eapply Permutation_NoDup; [apply Permutation_map; exact PP|exact N].
  - intros p t. rewrite <- I. unfold labels. split; apply Permutation_in; apply Permutation_map; [symmetry|]; exact PP.
Qed.

Lemma unique_app_sub (A : list Z) : forall B, NoDup A -> (forall x, In x B -> In x A) -> times_unique (A ++ B) = A.
Proof.
  unfold times_unique. induction A as [|a A IH]; intros B N H.
  - destruct B as [|b B]; [reflexivity|]. exfalso. apply (H b). simpl. auto.
  - inversion N; subst. cbn [app]. rewrite (unique_cons Z.eqb Z.eqb_eq). f_equal. rewrite filter_app.
    assert (E : filter (fun x => negb (Z.eqb x a)) A = A) by (apply FrameFacts.filter_all; intros x Hx; apply negb_true_iff, Z.eqb_neq; intros ->; contradiction).
    rewrite E. apply IH; [assumption|]. intros x Hx. apply filter_In in Hx as [Hx Q]. apply negb_true_iff, Z.eqb_neq in Q. destruct (H x Hx) as [->|H0]; [contradiction|exact H0].
Qed.

Lemma sorted_unique (l l' : list Z) : StronglySorted Z.lt l -> StronglySorted Z.lt l' -> (forall x, In x l <-> In x l') -> l = l'.
Proof.
  intros S1. revert l'. induction S1 as [|a l S1 IH F]; intros l' S2 H.
  - destruct l' as [|b l']; [reflexivity|]. exfalso. apply (proj2 (H b)). simpl. auto.
  - inversion S2 as [|b l'' S2' F' E]; [subst; exfalso; apply (proj1 (H a)); simpl; auto|]. subst. rewrite Forall_forall in F, F'.
    assert (a = b).
    { destruct (proj1 (H a) (or_introl eq_refl)) as [->|Ha]; [reflexivity|]. destruct (proj2 (H b) (or_introl eq_refl)) as [<-|Hb]; [reflexivity|]. specialize (F b Hb). specialize (F' a Ha). lia. }
    subst b. f_equal. apply IH; [exact S2'|]. intros x. split; intros Hx.
    + destruct (proj1 (H x) (or_intror Hx)) as [<-|Q]; [|exact Q]. specialize (F a Hx). lia.
    + destruct (proj2 (H x) (or_intror Hx)) as [<-|Q]; [|exact Q]. specialize (F' a Hx). lia.
Qed.

Lemma key_row_sorted (l : list (row R)) : row_sorted (key_sort label l).
Proof.
  pose proof (key_sort_sorted label l) as K. unfold row_sorted. induction K as [|x l0 H K IH]; constructor; [exact IH|]. apply Forall_forall. exact H.
Qed.

Lemma sorted_times ids times (y : frame R) : grid ids times y -> StronglySorted Z.lt times -> ids <> [] -> times <> [] -> time_ids (sort_index y) = times.
Proof.
  intros G St Ei Et. pose proof (grid_sort ids times y G) as GS. pose proof (grid_nonempty ids times _ GS Ei Et) as NE.
  pose proof (key_row_sorted (f_rows y)) as RS. fold (f_rows (sort_index y)) in RS. change (key_sort label (f_rows y)) with (f_rows (sort_index y)) in RS.
  set (z := sort_index y) in *. destruct (f_rows z) as [|r0 rest] eqn:E0; [congruence|]. set (p := r_path r0).
  assert (Hp : In p ids) by (apply (grid_row ids times z GS); rewrite E0; simpl; auto).
  assert (SP : (rows_of z p ++ filter (fun r => negb (path_eqb (r_path r) p)) (f_rows z))%list = f_rows z).
  { unfold rows_of. apply run_first; [rewrite E0; exact RS|]. intros r Hr. rewrite E0 in Hr. destruct Hr as [<-|Hr]; [unfold p; rewrite path_cmp_refl; discriminate|].
    inversion RS as [|? ? _ F]; subst. rewrite Forall_forall in F. eapply leb_path. exact (F r Hr). }
  assert (RP : row_sorted (rows_of z p)) by (unfold rows_of; apply row_sorted_filter; rewrite E0; exact RS).
  assert (PP : forall r, In r (rows_of z p) -> r_path r = p) by (intros r Hr; apply filter_In in Hr as [_ Hr]; now apply path_eqb_eq in Hr).
  assert (NT : NoDup (map r_time (rows_of z p))).
  { destruct GS as (_ & _ & N & _). unfold labels in N. clear -N. unfold rows_of. induction (f_rows z) as [|r l IH]; simpl; [constructor|]. simpl in N. inversion N; subst.
    destruct (path_eqb (r_path r) p) eqn:Q; [|auto]. simpl. constructor; [|auto]. intros I. apply H1. apply in_map_iff in I as (r' & E & I). apply filter_In in I as [I Q']. apply path_eqb_eq in Q, Q'.
    apply in_map_iff. exists r'. split; [congruence|exact I]. }
  assert (IT : forall t, In t (map r_time (rows_of z p)) <-> In t times).
  { intros t. split; intros H.
    - apply in_map_iff in H as (r & <- & Hr). apply filter_In in Hr as [Hr _]. now apply (grid_row ids times z GS).
    - destruct (grid_label ids times z GS p t Hp H) as (r & Hr & E1 & E2). apply in_map_iff. exists r. split; [exact E2|]. apply filter_In. split; [exact Hr|]. now apply path_eqb_eq. }
  unfold time_ids. rewrite <- SP, map_app. rewrite unique_app_sub; [|exact NT|].
  - apply sorted_unique; [|exact St|exact IT]. clear -RP PP NT. induction RP as [|r l RP IH F]; [constructor|]. simpl in NT. inversion NT; subst. cbn [map]. constructor; [apply IH; [intros; apply PP; simpl; auto|assumption]|].
    apply Forall_forall. intros t Ht. apply in_map_iff in Ht as (r' & <- & Hr). rewrite Forall_forall in F. specialize (F r' Hr). unfold label_leb in F. cbn [fst snd] in F.
    rewrite (PP r), (PP r'), path_cmp_refl in F by (simpl; auto). apply Z.leb_le in F. assert (r_time r <> r_time r') by (intros E; apply H1; rewrite E; now apply in_map). lia.
  - intros t Ht. apply IT. apply in_map_iff in Ht as (r & <- & Hr). apply filter_In in Hr as [Hr _]. now apply (grid_row ids times z GS).
Qed.

(** * Least squares lines *)
Lemma combine_fst_map {A B C} (g : A -> C) (l : list A) : forall m : list B, List.length m = List.length l -> map (fun x => g (fst x)) (combine l m) = map g l.
Proof. induction l as [|a l IH]; intros [|b m] H; try discriminate; [reflexivity|]. cbn. f_equal. apply IH. now injection H. Qed.

Lemma detrend_labels (y : frame R) : Permutation (labels (detrend_frame y)) (labels y).
Proof.
  unfold labels. transitivity (map (fun r => (r_path r, r_time r)) (flat_map (fun p => filter (fun r => path_eqb (r_path r) p) (f_rows y)) (paths_unique (map r_path (f_rows y))))).
  - match goal with |- Permutation ?a ?b => assert (Q : a = b); [|rewrite Q; apply Permutation_refl] end. unfold detrend_frame, iterate_all_series, series_ids, rows_of.
    match goal with |- map ?g (f_rows (mkFrame _ _ ?l)) = _ => change (map g l = map g (flat_map (fun p => filter (fun r : row R => path_eqb (r_path r) p) (f_rows y)) (paths_unique (map r_path (f_rows y))))) end.
    induction (paths_unique (map r_path (f_rows y))) as [|p ps IH]; [reflexivity|].
    simpl flat_map. rewrite !map_app. simpl in IH. rewrite IH. f_equal. rewrite map_map. cbn [r_path r_time]. rewrite (combine_fst_map (fun r : row R => (r_path r, r_time r))); [reflexivity|].
    unfold ols_line. now rewrite !map_length.
  - apply Permutation_map. now apply (grouped_perm (List.length (f_rows y))).
Qed.

Lemma detrend_grid ids times (y : frame R) : grid ids times y -> List.length (f_cols y) = 1 -> grid ids times (detrend_frame y).
Proof.
  intros (W & L & N & I) C1. pose proof (detrend_labels y) as PL. split; [|split; [exact L|split]].
  - intros r Hr. unfold detrend_frame in Hr |- *. cbn [f_rows f_cols f_levels] in *. apply in_flat_map in Hr as ([p rows] & Hs & Hr). apply in_map_iff in Hr as ([r0 v] & <- & Hr). cbn [r_vals r_path fst snd] in *.
    split; [now rewrite C1|]. apply in_combine_l in Hr. unfold iterate_all_series in Hs. apply in_map_iff in Hs as (p' & [= _ <-] & _). apply filter_In in Hr as [Hr _]. now apply W.
  - eapply Permutation_NoDup; [symmetry; exact PL|exact N].
  - intros p t. rewrite <- I. split; apply Permutation_in; [|symmetry]; exact PL.
Qed.

Lemma start_grid p ids times (y : frame R) : grid ids times y -> List.length (f_cols y) = 1 -> grid ids times (start_series p y).
Proof. intros G C. unfold start_series. destruct (pw_detrend p); [now apply detrend_grid|exact G]. Qed.

(** * Fitting *)
Section Fit.
Variables (ids : list path) (times : list Z).
Hypothesis Ni : NoDup ids.
Hypothesis Two : 2 <= List.length ids.
Hypothesis St : StronglySorted Z.lt times.
Hypothesis TwoT : 2 <= List.length times.

Lemma times_nonempty : times <> [].
Proof using TwoT. clear Two. intros E. rewrite E in TwoT. simpl in TwoT. lia. Qed.

Definition positive_start (p : piecewise_params) (y : frame R) : Prop :=
  match pw_logistic p with
  | None => True
  | Some None => forall r, In r (f_rows (start_series p y)) -> (0 < val0 r)%R
  | Some (Some _) => False
  end.

Lemma last_In {A} (d : A) (l : list A) : l <> [] -> In (last l d) l.
Proof. induction l as [|a l IH]; [congruence|]. intros _. destruct l as [|b l]; [simpl; auto|]. right. apply IH. discriminate. Qed.

Lemma suggest_panel p y ts : grid ids times y -> List.length (f_cols y) = 1 -> (hd 0 ts < last ts 0)%R -> positive_start p y ->
  exists ks ms, suggest p y ts = Ok (map XF ks, map XF ms) /\ List.length ks = List.length ids /\ List.length ms = List.length ids.
Proof.
  intros G C1 HT HL. pose proof (start_grid p ids times y G C1) as GS. unfold suggest. fold (start_series p y).
  pose proof (ids_nonempty ids Two) as Ei. pose proof times_nonempty as Et. pose proof (nodup_increasing _ St) as Nt.
  unfold target_matrix. rewrite (grid_tensor ids times _ GS Nt Ei Et). cbn [bind]. rewrite map_map.
  set (m := map _ (series_ids (start_series p y))).
  assert (Lm : List.length m = List.length ids) by (unfold m; rewrite map_length; apply (grid_n ids times _ GS Ni Et)).
  assert (Pm : forall l, In l m -> l <> [] /\ forall x, In x l -> exists r, In r (f_rows (start_series p y)) /\ x = val0 r).
  { intros l Hl. unfold m in Hl. apply in_map_iff in Hl as (q & <- & Hq). rewrite map_map. split.
    - intros E. apply map_eq_nil in E. pose proof (grid_rows ids times _ GS Nt Ei Et q) as Q. rewrite E in Q. specialize (Q (proj1 (grid_ids ids times _ GS Et q) Hq)). simpl in Q. lia.
    - intros x Hx. apply in_map_iff in Hx as (r & <- & Hr). apply filter_In in Hr as [Hr _]. exists r. split; [exact Hr|reflexivity]. }
  clearbody m. unfold endpoints.
  destruct (mapM_total (fun s => match s with [] => Err IndexError | v :: _ => Ok (v, last s 0%R) end) (fun s e => In (fst e) s /\ In (snd e) s) m) as (es & Ee & F).
  { intros l Hl. destruct (Pm l Hl) as [N0 _]. destruct l as [|v l]; [congruence|]. eexists. split; [reflexivity|]. cbn [fst snd]. split; [simpl; auto|]. apply last_In. discriminate. }
  rewrite Ee. cbn [bind]. pose proof (Forall2_len _ _ _ F) as Le. rewrite Lm in Le. unfold positive_start in HL. destruct (pw_logistic p) as [[c|]|]; [contradiction| |].
  - destruct (concat m) as [|v vs] eqn:Ec.
    { exfalso. destruct m as [|l m]; [simpl in Lm; lia|]. destruct (Pm l ltac:(simpl; auto)) as [N0 _]. simpl in Ec. apply app_eq_nil in Ec as [Ec _]. contradiction. }
    cbn [bind]. rewrite suggest_logistic_inside; [|exact HT|].
    + cbn [bind]. rewrite !map_map. cbn [fst snd].
      exists (map (fun y0 => fst (logistic_km (hd 0 ts) (last ts 0) (Rmax_list v vs * (105 / 100)) y0))%R es), (map (fun y0 => snd (logistic_km (hd 0 ts) (last ts 0) (Rmax_list v vs * (105 / 100)) y0))%R es).
      rewrite !map_map, !map_length. auto.
    + assert (Q : forall x, In x (concat m) -> (0 < x < Rmax_list v vs * (105 / 100))%R).
      { intros x Hx. pose proof Hx as Hx'. rewrite Ec in Hx'. apply in_concat in Hx as (l & Hl & Hx). destruct (Pm l Hl) as [_ Px]. destruct (Px x Hx) as (r & Hr & ->). pose proof (HL r Hr). pose proof (Rmax_list_ge v vs _ Hx'). lra. }
      intros e He. apply Forall2_In_both in F as [_ F]. destruct (F e He) as (l & Hl & E1 & E2). split; apply Q; apply in_concat; eauto.
  - eexists _, _. split; [rewrite <- (map_map fst XF), <- (map_map snd XF); reflexivity|]. rewrite !map_length. auto.
Qed.

Definition trend_ready_panel (cols : list string) (t : trend) : Prop :=
  match t with
  | TPiecewise p _ b (Some f) =>
      b = mkBase (Some cols) (Some true) /\ pf_params f = p /\ pw_squeeze p = true /\ pf_n_series f = List.length ids /\ pf_series f <> None /\
      List.length (pf_cps f) = List.length ids /\ List.length (pf_cp_loc f) = List.length (concat (pf_cps f)) /\ List.length (pf_cp_scale f) = List.length (concat (pf_cps f)) /\
      exists ms, pf_offset_loc f = map XF ms /\ List.length ms = List.length ids
  | _ => False
  end.

Lemma piecewise_fit_panel ns_of p y iv rg sc : grid ids times y -> List.length (f_cols y) = 1 -> time_ids y = times ->
  increasing (map (fun t => days_since_epoch (ns_of t)) times) ->
  pw_interval p = Scalar iv -> (0 < iv)%R -> pw_range p = Scalar rg -> (0 < rg)%R -> pw_prior_scale p = Scalar sc -> positive_start p y ->
  exists f ms, piecewise_fit ns_of p y = Ok f /\ pf_params f = p /\ pf_n_series f = List.length ids /\ pf_series f <> None /\ List.length (pf_cps f) = List.length ids /\
    List.length (pf_cp_loc f) = List.length (concat (pf_cps f)) /\ List.length (pf_cp_scale f) = List.length (concat (pf_cps f)) /\
    pf_offset_loc f = map XF ms /\ List.length ms = List.length ids.
Proof.
  intros G C1 TI INC PI HI PR HR PS HL. pose proof (ids_nonempty ids Two) as Ei. pose proof times_nonempty as Et.
  unfold piecewise_fit. rewrite TI. set (td := map (fun t => days_since_epoch (ns_of t)) times) in *.
  assert (Ld : 2 <= List.length td) by (unfold td; now rewrite map_length).
  destruct (fit_time_ok td INC Ld) as (s & st & E & Ps & H0 & H1 & MN). rewrite E. cbn [bind]. set (ts := map (scale_time s st) td).
  assert (HD : hd 0%R ts = 0%R) by (unfold ts; destruct td; [simpl in Ld; lia|exact H0]).
  assert (LA : last ts 0%R = INR (List.length td - 1)).
  { unfold ts. rewrite <- H1. clear -Ld. destruct td as [|a td]; [simpl in Ld; lia|]. clear. revert a. induction td as [|b td IH]; intros a; [reflexivity|].
    change (last (map (scale_time s st) (a :: b :: td)) 0%R) with (last (map (scale_time s st) (b :: td)) 0%R).
    change (last (a :: b :: td) 0%R) with (last (b :: td) 0%R). apply IH. }
  assert (PL : (0 < last ts 0)%R) by (rewrite LA; apply lt_0_INR; lia).
  assert (TM : (0 < Rmax_list (hd 0 ts) (tl ts))%R).
  { eapply Rlt_le_trans; [exact PL|]. apply Rmax_list_ge. destruct ts as [|a l] eqn:Ets; [simpl in PL; lra|]. cbn [hd tl]. clear. revert a. induction l as [|b l IH]; intros a; [simpl; auto|].
    change (last (a :: b :: l) 0%R) with (last (b :: l) 0%R). right. apply IH. }
  assert (NS : n_series_of y = List.length ids).
  { unfold n_series_of. destruct G as (GW & GL & GG). destruct (f_levels y) eqn:L0; [congruence|]. apply (grid_n ids times y); auto. unfold grid. rewrite L0. auto. }
  rewrite NS, PI, PR, PS.
  destruct (setup_changepoints_spec (Rmax_list (hd 0%R ts) (tl ts)) (Scalar iv) (Scalar rg) (List.length ids)) as [(cps & Ec & F)|[Ec (ir & Hin & Hl)]].
  { simpl. intros I Hi. apply repeat_spec in Hi. now subst. }
  2:{ exfalso. destruct ir as [i r]. apply in_combine_r in Hin. simpl in Hin. apply repeat_spec in Hin. subst r. simpl in Hl. unfold changepoint_limit in Hl.
      destruct (Rltb rg 1 && Rltb 0 rg) eqn:B1; [nra|]. destruct (Rleb 1 rg) eqn:B2; [apply Rleb_true in B2; lra|].
      apply andb_false_iff in B1 as [B1|B1]; [apply Rltb_false in B1|apply Rltb_false in B1]; [apply Rleb_false in B2|]; lra. }
  pose proof (setup_length _ _ _ _ _ Ec) as Lc. rewrite Ec. cbn [bind].
  destruct (suggest_panel p y ts G C1) as (ks & ms & ES & Lk & Lms); [lra|exact HL|]. rewrite ES. cbn [bind].
  unfold changepoint_prior_vectors. eexists _, ms. split; [reflexivity|]. cbn [pf_params pf_n_series pf_series pf_cps pf_cp_loc pf_cp_scale pf_offset_loc].
  assert (SN : (match f_levels y with 0 => None | S _ => Some (series_ids y) end) <> None) by (destruct G as (_ & GL & _); destruct (f_levels y); congruence).
  assert (CL : forall (A B : Type) (d : A -> nat -> list B) (cs : list (list R)) (l : list A), (forall a n, List.length (d a n) = n) -> List.length l = List.length cs ->
     List.length (concat (map (fun nr => d (snd nr) (fst nr)) (combine (n_changepoint_per_series cs) l))) = List.length (concat cs)).
  { intros A B d cs. induction cs as [|x cs IH]; intros [|a l] Hd Hll; try discriminate; [reflexivity|]. cbn [n_changepoint_per_series map combine concat fst snd]. rewrite !app_length, Hd. f_equal.
    apply IH; [exact Hd|]. now injection Hll. }
  repeat (split; [first [reflexivity|assumption]|]). split; [|split; [|split; [reflexivity|exact Lms]]].
  - apply (CL _ _ (fun a n => zeros_with_first_value n a)); [intros; unfold zeros_with_first_value; apply repeat_length|]. rewrite map_length. congruence.
  - apply (CL _ _ (fun a n => repeat a n)); [intros; apply repeat_length|]. unfold n_changepoint_per_series. cbn [to_list_if_scalar]. rewrite repeat_length, map_length. reflexivity.
Qed.

Lemma piecewise_predict_panel cps ts offs (c : list R) : List.length cps = List.length ids -> List.length offs = List.length ids -> List.length c = List.length (concat cps) ->
  exists a, piecewise_predict true (List.length ids) (get_changepoint_matrix true cps ts) offs c = Ok a /\ a_shape a = [List.length ids; List.length ts; 1] /\ arr_wf a.
Proof using Two. clear TwoT.
  intros Lc Lo L. assert (G : exists a, piecewise_predict true (List.length ids) (get_changepoint_matrix true cps ts) offs c = Ok a).
  { unfold get_changepoint_matrix. rewrite multi_matrix_rows, Lc.
    assert (E : match map (fun i => map (masked_row cps i) ts) (seq 0 (List.length ids)) with [m] => D2 m | ms => D3 ms end = D3 (map (fun i => map (masked_row cps i) ts) (seq 0 (List.length ids)))).
    { destruct (List.length ids) as [|[|n]]; try lia. reflexivity. }
    rewrite E. unfold piecewise_predict.
    assert (B : forallb (forallb (fun r : list R => (List.length r =? List.length c)%nat)) (map (fun i => map (masked_row cps i) ts) (seq 0 (List.length ids))) = true).
    { apply forallb_forall. intros s Hs. apply in_map_iff in Hs as (i & <- & _). apply forallb_forall. intros r Hr. apply in_map_iff in Hr as (t & <- & _). apply Nat.eqb_eq. now rewrite masked_row_length. }
    rewrite B, broadcast2_same by (rewrite map_length, seq_length; auto). cbn [bind]. destruct ((List.length ids =? 1)%nat && true); eauto. }
  destruct G as (a & E). exists a. split; [exact E|]. destruct (piecewise_shape true (List.length ids) cps ts offs c a Lc Lo ltac:(lia) E) as [Sh W]. split; [|exact W].
  rewrite Sh. unfold trend_shape. destruct (Nat.eqb_spec (List.length ids) 1); [lia|reflexivity].
Qed.

Lemma logistic_predict_panel cps ts caps offs (c : list R) : List.length cps = List.length ids -> List.length offs = List.length ids -> List.length caps = List.length ids -> List.length c = List.length (concat cps) ->
  exists a, logistic_predict true (List.length ids) (get_changepoint_matrix true cps ts) caps offs c = Ok a /\ a_shape a = [List.length ids; List.length ts; 1] /\ arr_wf a.
Proof using Two. clear TwoT.
  intros Lc Lo La L. assert (G : exists a, logistic_predict true (List.length ids) (get_changepoint_matrix true cps ts) caps offs c = Ok a).
  { destruct (piecewise_predict_panel cps ts offs c Lc Lo L) as (a & E & Sh & W). unfold logistic_predict. rewrite E. cbn [bind]. destruct (List.length ids) as [|[|n]] eqn:En; try lia.
    rewrite Sh. rewrite broadcast2_same by (unfold chunks; rewrite map_length, seq_length; auto). cbn [bind]. eauto. }
  destruct G as (a & E). exists a. split; [exact E|]. pose proof (logistic_shape true (List.length ids) cps ts caps offs c a Lc Lo La ltac:(lia) E) as Sh. split; [|exact (logistic_wf true (List.length ids) cps ts caps offs c a Lc Lo La ltac:(lia) E)].
  rewrite Sh. unfold trend_shape. destruct (Nat.eqb_spec (List.length ids) 1); [lia|reflexivity].
Qed.

Lemma finite_all ms : mapM finite (map XF ms) = Ok ms.
Proof. induction ms as [|m ms IH]; [reflexivity|]. cbn [map mapM finite]. now rewrite IH. Qed.

Lemma site_length (env : string -> nat -> R) n (l : list R) k : List.length (map (env n) (seq 0 (prod_shape [List.length l]))) = k <-> List.length l = k.
Proof. rewrite map_length, seq_length. unfold prod_shape. simpl. rewrite Nat.mul_1_r. tauto. Qed.

Lemma trend_panel ns_of cols t X times' fh : trend_ready_panel cols t -> grid ids times' X -> (forall c, In c cols -> In c (f_cols X)) -> NoDup fh ->
  exists td, trend_transform ns_of t X fh = Ok td /\
    forall env, exists a, yields env (trend_predict t td) a /\ a_shape a = [List.length ids; List.length fh; 1] /\ arr_wf a.
Proof using Two. clear TwoT.
  intros RD G I Nf. destruct t as [p cap b [f|]|s b [loc|]|e]; try contradiction; cbn [trend_ready_panel] in RD.
  destruct RD as (-> & Hp & Hq & Hn & Hs & Lc & L1 & L2 & (ms & Ho & Lms)).
  assert (E : exists XC, trend_rows (mkBase (Some cols) (Some true)) X fh = Ok XC) by (unfold trend_rows; cbn [b_fitted b_cols attr bind negb]; apply select_columns_iff; exact I). destruct E as (XC & E).
  unfold trend_transform. rewrite E. cbn [bind attr]. eexists. split; [reflexivity|]. intros env. unfold trend_predict, piecewise_transform, piecewise_prog.
  destruct (pf_series f) as [ps|]; [|congruence]. rewrite Hp, Hq, Hn, Ho. rewrite times_unique_id by exact Nf. set (ts := map _ fh).
  assert (Lt : List.length ts = List.length fh) by (unfold ts; apply map_length). rewrite <- Lt.
  set (o := map (env "offset") (seq 0 (prod_shape [List.length ms]))). set (cc := map (env "changepoint_coefficients") (seq 0 (prod_shape [List.length (pf_cp_loc f)]))).
  assert (Lo : List.length o = List.length ids) by (now apply site_length). assert (Lcc : List.length cc = List.length (concat (pf_cps f))) by (now apply site_length).
  assert (V : forall (k : list R -> list R -> prog arr) (a : arr), yields env (k o cc) a ->
       yields env (locs <~ lift_res (mapM finite (map XF ms)) ;;
    o <~ sample "offset" (DNormal (vector locs) (const_arr [List.length locs] (pw_offset_scale p))) [List.length locs] ;;
    _ <~ (if Nat.eqb (List.length (pf_cp_loc f)) (List.length (pf_cp_scale f)) then Ret tt else Raise ValueError) ;;
    c <~ sample "changepoint_coefficients" (DLaplace (vector (pf_cp_loc f)) (vector (pf_cp_scale f))) [List.length (pf_cp_loc f)] ;;
    k (a_flat o) (a_flat c)) a).
  { intros k a Y. apply yields_bind. exists ms. split; [apply yields_lift, finite_all|]. apply yields_bind. eexists. split; [now apply yields_sample|].
    apply yields_bind. exists tt. split; [rewrite L1, L2, Nat.eqb_refl; now apply yields_ret|]. apply yields_bind. eexists. split; [now apply yields_sample|]. exact Y. }
  destruct (pw_logistic p) as [c|].
  - set (caps := map (env "capacity") (seq 0 (prod_shape [List.length ids; 1; 1]))).
    assert (La : List.length caps = List.length ids) by (unfold caps; rewrite map_length, seq_length; unfold prod_shape; simpl; lia).
    destruct (logistic_predict_panel (pf_cps f) ts caps o cc Lc Lo La Lcc) as (a & Ea & Sa & Wa). exists a. split; [|auto].
    apply yields_bind. exists tt. split; [apply yields_plate|]. apply yields_bind. eexists. split; [now apply yields_sample|].
    refine (V (fun o c => lift_res (logistic_predict true (List.length ids) (get_changepoint_matrix true (pf_cps f) ts) caps o c)) a _). now apply yields_lift.
  - destruct (piecewise_predict_panel (pf_cps f) ts o cc Lc Lo Lcc) as (a & Ea & Sa & Wa). exists a. split; [|auto].
    refine (V (fun o c => lift_res (piecewise_predict true (List.length ids) (get_changepoint_matrix true (pf_cps f) ts) o c)) a _). now apply yields_lift.
Qed.

Lemma trend_fit_panel ns_of order c name X y s : grid ids times y -> List.length (f_cols y) = 1 -> time_ids y = times ->
  increasing (map (fun t => days_since_epoch (ns_of t)) times) ->
  (0 < c_interval c)%R -> (0 < c_range c)%R ->
  In name ["linear"; "linear_raw"] \/ (name = "logistic" /\ forall r, In r (f_rows (detrend_frame y)) -> (0 < val0 r)%R) ->
  exists t t', named_trend c name = Ok t /\ trend_fit ns_of order t X y s = (t', None) /\ trend_ready_panel (columns_seen X) t'.
Proof.
  intros G C1 TI INC HI HR HN.
  set (pw := fun d l => mkPW (Scalar (c_interval c)) (Scalar (c_range c)) (Scalar (c_changepoint_scale c)) (c_offset_scale c) true d l).
  set (capacity := DShifted (DHalfNormal (scalar (c_capacity_scale c))) (c_capacity_loc c)).
  assert (T : forall d l, positive_start (pw d l) y ->
     exists t', trend_fit ns_of order (TPiecewise (pw d l) capacity base_init None) X y s = (t', None) /\ trend_ready_panel (columns_seen X) t').
  { intros d l HL. destruct (piecewise_fit_panel ns_of (pw d l) y (c_interval c) (c_range c) (c_changepoint_scale c)) as (f & ms & E & H1 & H2 & H3 & H4 & H5 & H6 & H7 & H8); auto.
    unfold trend_fit. rewrite E. eexists. split; [reflexivity|]. cbn [trend_ready_panel]. split; [reflexivity|]. split; [exact H1|]. split; [reflexivity|]. repeat (split; [assumption|]). eauto. }
  destruct HN as [[<-|[<-|[]]]|[-> HP]].
  - destruct (T true None I) as (t' & E & RD). exists (TPiecewise (pw true None) capacity base_init None), t'. auto.
  - destruct (T false None I) as (t' & E & RD). exists (TPiecewise (pw false None) capacity base_init None), t'. auto.
  - destruct (T true (Some None) HP) as (t' & E & RD). exists (TPiecewise (pw true (Some None)) capacity base_init None), t'. auto.
Qed.
End Fit.
