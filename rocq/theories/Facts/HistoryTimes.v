(** Times labelling a forecast and times at which the model is evaluated. *)
From Coq Require Import Reals String Bool ZArith List Lia Permutation.
From Verif.Model Require Import Base Num XFloat Frame Arr Expand Aggregate Scale Predict Prog Effect TrendProg Engine Forecaster History.
From Verif.Spec Require Import FrameSpec ForecasterSpec HistorySpec.
From Verif.Facts Require Import BaseFacts OrderFacts FrameFacts PredictFacts ForecasterInv ForecasterProps HistoryFacts.
Import ListNotations.
Local Open Scope string_scope.

(** ** maximal times *)
Lemma fold_max_spec l : forall t, In (fold_left Z.max l t) (t :: l) /\ forall x, In x (t :: l) -> (x <= fold_left Z.max l t)%Z.
Proof.
  induction l as [|y l IH]; intros t; cbn [fold_left].
  - split; [now left|]. intros x [<-|[]]. lia.
  - destruct (IH (Z.max t y)) as [H1 H2]. split.
    + destruct H1 as [H1|H1]; [|right; right; exact H1]. rewrite <- H1. destruct (Z.max_spec t y) as [[_ ->]|[_ ->]]; simpl; auto.
    + intros x [<-|[<-|Hx]].
      * specialize (H2 (Z.max t y) (or_introl eq_refl)). lia.
      * specialize (H2 (Z.max t y) (or_introl eq_refl)). lia.
      * apply H2. now right.
Qed.
Lemma max_time_set l l' : (forall t, In t l <-> In t l') -> max_time l = max_time l'.
Proof.
  intros H. destruct l as [|a l], l' as [|b l']; [reflexivity| | |].
  - destruct (proj2 (H b) (or_introl eq_refl)).
  - destruct (proj1 (H a) (or_introl eq_refl)).
  - cbn [max_time]. f_equal. destruct (fold_max_spec l a) as [A1 A2], (fold_max_spec l' b) as [B1 B2].
    apply H in A1. apply H in B1. apply Z.le_antisymm; [now apply B2|now apply A2].
Qed.

(** ** times of aggregated frames *)
Lemma aggregate_times keep (f : frame R) t : In t (map r_time (f_rows (aggregate keep f))) <->
  exists b, In b (f_rows f) /\ (f_levels f = 0 \/ no_total (r_path b) = true) /\ r_time b = t.
Proof.
  unfold aggregate. destruct (f_levels f) as [|k] eqn:E.
  - rewrite in_map_iff. split; [intros (r & <- & H); exists r; auto|intros (b & H & _ & <-); exists b; auto].
  - cbn [f_rows]. rewrite in_map_iff. split.
    + intros (r & <- & H). apply key_sort_In in H. apply in_app_or in H. destruct H as [H|H].
      * apply in_flat_map in H. destruct H as (q & _ & H). apply in_map_iff in H. destruct H as (t & <- & H). cbn [r_time].
        apply times_unique_In, in_map_iff in H. destruct H as (b & <- & H). apply filter_In in H. destruct H as [H _].
        apply filter_In in H. exists b. intuition.
      * apply filter_In in H. exists r. intuition.
    + intros (b & Hb & [HL|HN] & <-); [discriminate|]. exists b. split; [reflexivity|]. apply key_sort_In, in_or_app. right. now apply filter_In.
Qed.

Lemma apply_scale_index op d s y ys : apply_scale op d s y = Ok ys -> index_of ys = index_of y /\ f_levels ys = f_levels y.
Proof.
  unfold apply_scale. destruct d; [intros [= <-]; auto|]. destruct s as [c|z|tab|tab].
  - intros [= <-]. unfold index_of, map_vals. cbn. now rewrite map_map.
  - discriminate.
  - intros H. inv_bind H. injection H as <-. unfold index_of, by_row. cbn. rewrite map_map. split; [|reflexivity].
    unfold scale_for_each_obs in E. destruct (f_levels y); [discriminate|]. apply mapM_length in E. revert E. generalize (f_rows y).
    induction x as [|z zs IH]; intros [|r rs] E; simpl in *; try discriminate; [reflexivity|]. f_equal. apply IH. lia.
  - intros H. inv_bind H. unfold by_column in H. destruct (Nat.eqb _ _); [|discriminate]. injection H as <-.
    unfold index_of, map_vals. cbn. now rewrite map_map.
Qed.

Lemma index_times {V} (f : frame V) : map r_time (f_rows f) = map snd (index_of f).
Proof. unfold index_of. now rewrite map_map. Qed.

(** labels of a frame of a list of series and a list of times *)
Definition product_index (ids : list path) (ts : list Z) : list (path * Z) := flat_map (fun p => map (fun t => (p, t)) ts) ids.
Lemma product_index_In ids ts p t : In (p, t) (product_index ids ts) <-> In p ids /\ In t ts.
Proof.
  unfold product_index. rewrite in_flat_map. split.
  - intros (q & Hq & H). apply in_map_iff in H. destruct H as (u & [= -> ->] & Hu). auto.
  - intros [Hp Ht]. exists p. split; [assumption|]. apply in_map_iff. eauto.
Qed.
Lemma multiindex_product lb ts index : periodindex_to_multiindex lb ts = Ok index -> exists ids, index = product_index ids ts.
Proof.
  unfold periodindex_to_multiindex. destruct (lb_levels lb).
  - intros [= <-]. exists [[]]. unfold product_index. cbn. now rewrite app_nil_r.
  - destruct (paths_unique _); [discriminate|]. intros [= <-]. eexists. reflexivity.
Qed.

(** some rows, and then all times *)
Definition covers (l ts : list Z) : Prop := (forall t, In t l -> In t ts) /\ (l <> [] -> forall t, In t ts -> In t l).
Lemma covers_set l l' ts : (forall t, In t l <-> In t l') -> covers l ts -> covers l' ts.
Proof.
  intros H [A B]. split.
  - intros t Ht. apply A, H, Ht.
  - intros N t Ht. apply H. apply B; [|assumption]. intros ->. destruct l' as [|x l']; [congruence|].
    destruct (proj2 (H x) (or_introl eq_refl)).
Qed.

Lemma product_covers (index : list (path * Z)) ids ts (q : path -> bool) (rows : list (path * Z)) :
  index = product_index ids ts -> (forall l, In l rows <-> In l index) ->
  covers (map snd (filter (fun l => q (fst l)) rows)) ts.
Proof.
  intros -> H. split.
  - intros t Ht. apply in_map_iff in Ht. destruct Ht as ([p u] & <- & Hl). apply filter_In in Hl. destruct Hl as [Hl _].
    apply H, product_index_In in Hl. apply Hl.
  - intros N t Ht. destruct (filter (fun l => q (fst l)) rows) as [|[p u] tl] eqn:E; [now elim N|].
    assert (Hp : In (p, u) (filter (fun l => q (fst l)) rows)) by (rewrite E; now left). rewrite <- E.
    apply filter_In in Hp. destruct Hp as [Hp Hq]. apply H, product_index_In in Hp. apply in_map_iff. exists (p, t). split; [reflexivity|].
    apply filter_In. split; [|exact Hq]. apply H, product_index_In. intuition.
Qed.

Lemma base_samples_index lb ts ds s : predict_samples_base lb ts ds = Ok s ->
  exists index, periodindex_to_multiindex lb ts = Ok index /\ forall l, In l (index_of s) <-> In l index.
Proof.
  unfold predict_samples_base. intros H. inv_bind H. destruct (a_shape x) as [|n sh]; [discriminate|]. do 3 inv_bind H.
  unfold inv_scale_y in H. apply apply_scale_index in H. destruct H as [H _]. exists x1. split; [reflexivity|]. intros l. rewrite H.
  unfold frame_of in E2. destruct (Nat.eqb_spec (List.length x1) (List.length x0)) as [EL|]; [|discriminate]. injection E2 as <-.
  change (index_of _) with (map label (key_sort label (map (fun lr : path * Z * list R => mkRow (fst (fst lr)) (snd (fst lr)) (snd lr)) (combine x1 x0)))).
  assert (PM : Permutation x1 (map label (key_sort label (map (fun lr : path * Z * list R => mkRow (fst (fst lr)) (snd (fst lr)) (snd lr)) (combine x1 x0))))).
  { rewrite <- key_sort_labels. rewrite map_map. rewrite <- (combine_fst x1 x0 EL) at 1. apply Permutation_refl'. apply map_ext. intros [[p t] v]. reflexivity. }
  split; intros Hl; [eapply Permutation_in; [symmetry; exact PM|exact Hl]|eapply Permutation_in; [exact PM|exact Hl]].
Qed.

Lemma samples_covers keep lb ts ds s : predict_samples keep lb ts ds = Ok s -> covers (map r_time (f_rows s)) ts.
Proof.
  unfold predict_samples. intros H. inv_bind H. injection H as <-. destruct (base_samples_index _ _ _ _ E) as (index & EI & HI).
  destruct (multiindex_product _ _ _ EI) as (ids & Hids).
  destruct (lb_hier lb).
  - apply (covers_set (map snd (filter (fun l => (Nat.eqb (f_levels x) 0 || no_total (fst l))%bool) (index_of x)))).
    + intros t. rewrite aggregate_times. unfold index_of. rewrite in_map_iff. split.
      * intros ([p u] & <- & Hl). apply filter_In in Hl. destruct Hl as [Hl Hq]. apply in_map_iff in Hl. destruct Hl as (r & [= <- <-] & Hr).
        exists r. split; [assumption|]. split; [|reflexivity]. apply orb_true_iff in Hq. cbn [fst] in Hq. rewrite Nat.eqb_eq in Hq. exact Hq.
      * intros (b & Hb & Hq & <-). exists (r_path b, r_time b). split; [reflexivity|]. apply filter_In. split; [apply in_map_iff; eauto|].
        cbn [fst]. apply orb_true_iff. rewrite Nat.eqb_eq. exact Hq.
    + eapply (product_covers _ _ _ (fun p => (Nat.eqb (f_levels x) 0 || no_total p)%bool)); eauto.
  - apply (covers_set (map snd (filter (fun l : path * Z => true) (index_of x)))).
    + intros t. rewrite index_times, filter_all by auto. reflexivity.
    + eapply (product_covers _ _ _ (fun p => true)); eauto.
Qed.

Lemma nth_seq_In {A} (l : list A) d x : In x (map (fun i => nth i l d) (seq 0 (List.length l))) <-> In x l.
Proof. now rewrite <- (map_nth_seq (fun x => x) l d), map_id. Qed.

Lemma sites_covers lb ts ds s : predict_all_sites lb ts ds = Ok s -> covers (map r_time (f_rows s)) ts.
Proof.
  unfold predict_all_sites. intros H. do 2 inv_bind H. destruct (forallb _ x); [|discriminate].
  unfold inv_scale_y in H. apply apply_scale_index in H. destruct H as [H _]. rewrite index_times, H.
  destruct (multiindex_product _ _ _ E0) as (ids & Hids).
  apply (covers_set (map snd (filter (fun l : path * Z => true) x0))).
  - intros t. rewrite filter_all by auto. unfold sort_index, index_of. cbn [f_rows]. rewrite !in_map_iff. split.
    + intros (l & <- & Hl). apply (nth_seq_In x0 ([], 0%Z)), in_map_iff in Hl. destruct Hl as (i & <- & Hi).
      exists (nth i x0 ([], 0%Z)). split; [reflexivity|]. apply in_map_iff. eexists. split; [|apply key_sort_In, in_map_iff; exists i; split; [reflexivity|exact Hi]].
      cbn. now destruct (nth i x0 ([], 0%Z)).
    + intros (l & <- & Hl). exists l. split; [reflexivity|]. apply in_map_iff in Hl. destruct Hl as (r & <- & Hr).
      apply key_sort_In, in_map_iff in Hr. destruct Hr as (i & <- & Hi). cbn [r_path r_time].
      apply (nth_seq_In x0 ([], 0%Z)), in_map_iff. exists i. split; [|assumption]. now destruct (nth i x0 ([], 0%Z)).
  - eapply (product_covers _ _ _ (fun p => true)); eauto. reflexivity.
Qed.

Lemma sites_samples_covers lb ts ds s : predict_all_sites_samples lb ts ds = Ok s -> covers (map sr_time (snd s)) ts.
Proof.
  unfold predict_all_sites_samples. intros H. inv_bind H. destruct ds as [|[k0 a0] ds]; [discriminate|].
  destruct (a_shape a0) as [|n sh]; [discriminate|]. destruct (forallb _ _); [|discriminate]. injection H as <-. cbn [snd].
  destruct (multiindex_product _ _ _ E) as (ids & Hids). split.
  - intros t Ht. apply in_map_iff in Ht. destruct Ht as (r & <- & Hr). apply in_flat_map in Hr. destruct Hr as (i & _ & Hr).
    apply in_map_iff in Hr. destruct Hr as (j & <- & Hj). cbn [sr_time].
    assert (Hn : In (nth j x ([], 0%Z)) x) by (apply nth_In; apply in_seq in Hj; lia).
    destruct (nth j x ([], 0%Z)) as [p t]. rewrite Hids in Hn. apply product_index_In in Hn. apply Hn.
  - intros N t Ht. rewrite in_map_iff. destruct n as [|n]; [now elim N|]. destruct x as [|[p u] x'] eqn:Ex.
    + elim N. clear. induction (seq 0 (S n)); [reflexivity|]. cbn in *. assumption.
    + rewrite <- Ex in *. assert (Hp : In (p, t) x).
      { rewrite Hids. apply product_index_In. split; [|assumption]. assert (Hpu : In (p, u) x) by (rewrite Ex; now left).
        rewrite Hids in Hpu. apply product_index_In in Hpu. apply Hpu. }
      apply (nth_seq_In x ([], 0%Z)), in_map_iff in Hp. destruct Hp as (j & Hj & Hs).
      eexists. split; [|apply in_flat_map; exists 0; split; [apply in_seq; lia|apply in_map_iff; exists j; split; [reflexivity|exact Hs]]].
      cbn [sr_time]. now rewrite Hj.
Qed.

Section History.
Variable ns_of : Z -> Z.
Variable order : list string -> list string.
Variable keep : path -> bool.
Context {TS : Type}.
Variable tr_fit_transform : TS -> frame R -> TS * res (frame R).
Variable tr_transform : TS -> frame R -> res (frame R).
Context {P : Type}.
Variable svi_run : Z -> nat -> nat -> prog arr -> res (list xr * P).
Variable nuts_run : Z -> nat -> nat -> nat -> prog arr -> res (nat -> nat -> env).
Variable latent_sites : prog arr -> list string.
Variable guide_draw : P -> Z -> nat -> prog arr -> env.
Variable complete_draw : env -> Z -> nat -> prog arr -> env.
Notation fitted := (fitted (P := P)).
Notation step := (step ns_of order keep tr_fit_transform tr_transform svi_run nuts_run latent_sites guide_draw complete_draw).
Notation calls := (calls ns_of order keep tr_fit_transform tr_transform svi_run nuts_run latent_sites guide_draw complete_draw).
Notation call_method := (call_method ns_of keep tr_transform guide_draw complete_draw).
Notation fit_forecaster := (fit_forecaster ns_of order keep tr_fit_transform svi_run nuts_run latent_sites).
Notation predict_model := (predict_model ns_of keep tr_transform).

(** the model of a prediction is evaluated at the horizon counted from the end of the data it uses *)
Lemma model_times c ob (f : fitted) y X fh m : predict_model c ob f y X fh = Ok m ->
  exists cutoff, max_time (if c_hier c then map snd (p_index (ft_prepared f)) else map r_time (f_rows y)) = Ok cutoff /\
    evaluated_at ns_of c ob f (to_absolute cutoff fh) m.
Proof.
  unfold ForecasterSpec.predict_model. destruct (c_hier c); intros H.
  - inv_bind H. injection H as <-. unfold hierarchical_predict_model in E. do 3 inv_bind E. destruct x2 as [Xb ex]. repeat inv_bind E.
    injection E as <-. exists x0. split; [reflexivity|]. eexists _, _, (Some _). split; [eassumption|]. split; [|reflexivity]. right. eauto.
  - unfold univariate_predict_model in H. do 4 inv_bind H. injection H as <-. exists x. split; [reflexivity|].
    eexists _, _, _. split; [eassumption|]. split; [|reflexivity]. destruct (p_has_exogenous _); [|injection E2 as <-; now left].
    inv_bind E2. injection E2 as <-. right. eauto.
Qed.

Lemma dict_model c ob (f : fitted) y X fh ds : snd (predictive_samples_dict ns_of keep tr_transform guide_draw complete_draw c ob f y X fh) = Ok ds ->
  exists m, predict_model c ob f y X fh = Ok m.
Proof.
  unfold predictive_samples_dict, ForecasterSpec.predict_model. destruct (c_hier c).
  - destruct (hierarchical_predict_model _ _ _ _ _ _ _ _ _) as [[m ex]|]; [|discriminate]. cbn [bind fst]. eauto.
  - cbn [snd]. intros H. inv_bind H. eauto.
Qed.

(** rows are labelled by the horizon counted from the end of the stored target *)
Lemma method_times c ob (f : fitted) y m X fh o : snd (call_method c ob f y m X fh) = Ok o ->
  exists ts mo, fh_to_index y fh = Ok ts /\ predict_model c ob f y X fh = Ok mo /\ covers (out_times o) ts.
Proof.
  assert (SA : forall s, snd (forecast_samples ns_of keep tr_transform guide_draw complete_draw c ob f y X fh) = Ok s ->
    exists ts mo, fh_to_index y fh = Ok ts /\ predict_model c ob f y X fh = Ok mo /\ covers (map r_time (f_rows s)) ts).
  { intros s. unfold forecast_samples. destruct (fh_to_index y fh) as [ts|]; [|discriminate].
    pose proof (dict_model c ob f y X fh) as DM. destruct (predictive_samples_dict _ _ _ _ _ c ob f y X fh) as [f1 ds]. cbn [snd] in *.
    intros H. inv_bind H. destruct (DM _ eq_refl) as [mo Hm]. exists ts, mo. split; [reflexivity|]. split; [assumption|]. eapply samples_covers. eassumption. }
  unfold call_method, History.call_method, forecast_point, forecast_quantiles.
  destruct m as [| |alpha| |].
  - destruct (forecast_samples _ _ _ _ _ c ob f y X fh) as [f1 r]. cbn [snd] in *. intros H. inv_bind H. injection H as <-. cbn. auto.
  - destruct (forecast_samples _ _ _ _ _ c ob f y X fh) as [f1 r]. cbn [snd] in *. intros H. inv_bind H. injection H as <-. inv_bind E. injection E as <-.
    destruct (SA _ eq_refl) as (ts & mo & A & B & C). exists ts, mo. split; [assumption|]. split; [assumption|]. cbn. rewrite map_map. exact C.
  - destruct (forecast_samples _ _ _ _ _ c ob f y X fh) as [f1 r]. cbn [snd] in *. intros H. inv_bind H. injection H as <-. inv_bind E.
    destruct (SA _ eq_refl) as (ts & mo & A & B & C). exists ts, mo. split; [assumption|]. split; [assumption|].
    unfold predict_quantiles in E. destruct (forallb _ _); [|discriminate]. injection E as <-. cbn. rewrite map_map. exact C.
  - unfold forecast_all_sites. destruct (fh_to_index y fh) as [ts|]; [|discriminate].
    pose proof (dict_model c ob f y X fh) as DM. destruct (predictive_samples_dict _ _ _ _ _ c ob f y X fh) as [f1 ds]. cbn [snd] in *.
    intros H. inv_bind H. injection H as <-. inv_bind E. destruct (DM _ eq_refl) as [mo Hm]. exists ts, mo. split; [reflexivity|]. split; [assumption|].
    eapply sites_covers. eassumption.
  - unfold forecast_all_sites_samples.
    pose proof (dict_model c ob f y X fh) as DM. destruct (predictive_samples_dict _ _ _ _ _ c ob f y X fh) as [f1 ds]. cbn [snd] in *.
    intros H. inv_bind H. injection H as <-. do 2 inv_bind E. destruct (DM _ eq_refl) as [mo Hm].
    eexists _, mo. split; [reflexivity|]. split; [assumption|]. eapply sites_samples_covers. eassumption.
Qed.

Lemma to_absolute_fixed k1 k2 ts : to_absolute k1 (Absolute ts) = to_absolute k2 (Absolute ts).
Proof. reflexivity. Qed.

(** labels are the evaluation times when both count from the same time *)
Lemma method_aligned c ob (f : fitted) y m X fh o : snd (call_method c ob f y m X fh) = Ok o ->
  c_hier c = false \/ (exists ts, fh = Absolute ts) \/ max_time (map snd (p_index (ft_prepared f))) = max_time (map r_time (f_rows y)) ->
  exists ts mo, predict_model c ob f y X fh = Ok mo /\ evaluated_at ns_of c ob f ts mo /\ covers (out_times o) ts.
Proof.
  intros H A. destruct (method_times _ _ _ _ _ _ _ _ H) as (ts & mo & HT & HM & HC).
  destruct (model_times _ _ _ _ _ _ _ HM) as (k & HK & HE). unfold fh_to_index in HT. inv_bind HT. injection HT as <-.
  exists (to_absolute k fh), mo. split; [assumption|]. split; [assumption|].
  destruct A as [A|[[ts ->]|A]]; [|exact HC|].
  - rewrite A in HK. congruence.
  - destruct (c_hier c); [|congruence]. congruence.
Qed.

(** ** after a fit the two ends agree *)
Definition fresh (s : state (TS := TS) (P := P)) : Prop :=
  match st_fitted s with
  | None => True
  | Some f => forall t, In t (map snd (p_index (ft_prepared f))) -> In t (map r_time (f_rows (st_y s)))
  end.

Lemma fit_index c ob y X ob' f : c_hier c = true -> fit_forecaster c ob y X = (ob', Ok f) ->
  exists ys, index_of ys = index_of y /\ f_levels ys = f_levels y /\ p_index (ft_prepared f) = index_of (aggregate keep ys).
Proof.
  intros Hc H. apply fit_forecaster_inv in H. destruct H as (s & ys & p & m & post & _ & Y & F & _ & ->).
  apply scale_y_index in Y. exists ys. destruct Y. split; [assumption|]. split; [assumption|]. cbn [ft_prepared].
  unfold fit_data in F. rewrite Hc in F. apply hierarchical_fit_inv in F.
  destruct F as (yb & tensor & X0 & X1 & X2 & ob1 & t0 & t & td & data & F). intuition.
Qed.

Lemma bottom_complete_times y ys t : index_of ys = index_of y -> f_levels ys = f_levels y -> bottom_complete y ->
  In t (map snd (index_of (aggregate keep ys))) <-> In t (map r_time (f_rows y)).
Proof.
  intros HI HL HB. rewrite <- index_times, aggregate_times, in_map_iff.
  assert (HR : forall p u, (exists b, In b (f_rows ys) /\ r_path b = p /\ r_time b = u) <-> exists b, In b (f_rows y) /\ r_path b = p /\ r_time b = u).
  { intros p u. assert (In (p, u) (index_of ys) <-> In (p, u) (index_of y)) as Q by now rewrite HI. unfold index_of in Q. rewrite !in_map_iff in Q.
    split.
    - intros (b & Hb & <- & <-). destruct (proj1 Q) as (b' & [= E1 E2] & Hb'); [eauto|]. eauto.
    - intros (b & Hb & <- & <-). destruct (proj2 Q) as (b' & [= E1 E2] & Hb'); [eauto|]. eauto. }
  split.
  - intros (b & Hb & _ & <-). destruct (proj1 (HR (r_path b) (r_time b))) as (b' & Hb' & _ & E); [eauto|]. eauto.
  - intros (r & <- & Hr). destruct (HB r Hr) as (b & Hb & Hn & E).
    destruct (proj2 (HR (r_path b) (r_time b))) as (b' & Hb' & E1 & E2); [eauto|]. exists b'. split; [assumption|]. split; [|congruence].
    right. rewrite <- is_bottom_no_total, E1. exact Hn.
Qed.

Lemma fit_ends c ob y X ob' f : c_hier c = true -> bottom_complete y -> fit_forecaster c ob y X = (ob', Ok f) ->
  max_time (map snd (p_index (ft_prepared f))) = max_time (map r_time (f_rows y)).
Proof.
  intros Hc HB H. destruct (fit_index _ _ _ _ _ _ Hc H) as (ys & HI & HL & ->). apply max_time_set. intros t. now apply bottom_complete_times.
Qed.

Definition ends (s : state (TS := TS) (P := P)) : Prop :=
  bottom_complete (st_y s) -> forall f, st_fitted s = Some f ->
  max_time (map snd (p_index (ft_prepared f))) = max_time (map r_time (f_rows (st_y s))).

Lemma refit_ends c s cl : c_hier c = true -> refits cl -> snd (step c s cl) = Ok ODone -> ends (fst (step c s cl)).
Proof.
  intros Hc Hr HS HB f Hf.
  assert (F : forall y X, st_fitted (fst (do_fit ns_of order keep tr_fit_transform svi_run nuts_run latent_sites c s y X)) = Some f ->
    bottom_complete (st_y (fst (do_fit ns_of order keep tr_fit_transform svi_run nuts_run latent_sites c s y X))) ->
    max_time (map snd (p_index (ft_prepared f))) = max_time (map r_time (f_rows (st_y (fst (do_fit ns_of order keep tr_fit_transform svi_run nuts_run latent_sites c s y X)))))).
  { intros y X. unfold do_fit. destruct (fit_forecaster c (st_objects s) y X) as [ob [g|e]] eqn:E; cbn; [|discriminate].
    intros [= ->] B. eapply fit_ends; eassumption. }
  destruct Hr as [(y & X & ->)|(y & X & ->)].
  - now apply (F y X).
  - unfold step, History.step in *. destruct (st_fitted s) as [g|]; [|discriminate].
    destruct (combine_first y (st_y s)) as [y'|]; [|discriminate].
    destruct (match X with None => _ | Some _ => _ end) as [X'|]; [|discriminate]. now apply F.
Qed.

(** ** C61 *)
Notation labelled_at_evaluation := (labelled_at_evaluation ns_of order keep tr_fit_transform tr_transform svi_run nuts_run latent_sites guide_draw complete_draw).

Lemma step_aligned c s m X fh :
  (forall f, st_fitted s = Some f -> c_hier c = false \/ (exists ts, fh = Absolute ts) \/ max_time (map snd (p_index (ft_prepared f))) = max_time (map r_time (f_rows (st_y s)))) ->
  labelled_at_evaluation c s m X fh.
Proof.
  intros A o H. unfold step, History.step in H. destruct (st_fitted s) as [f|] eqn:E; [|discriminate].
  pose proof (method_aligned c (st_objects s) f (st_y s) m X fh o) as MA.
  destruct (call_method c (st_objects s) f (st_y s) m X fh) as [f1 r]. cbn [snd] in *.
  destruct (MA H (A f eq_refl)) as (ts & mo & B & C & D1 & D2). exists f, ts, mo. auto.
Qed.

Lemma c61_univariate c s cs m X fh : c_hier c = false -> labelled_at_evaluation c (calls c s cs) m X fh.
Proof. intros H. apply step_aligned. auto. Qed.
Lemma c61_absolute c s cs m X ts : labelled_at_evaluation c (calls c s cs) m X (Absolute ts).
Proof. apply step_aligned. eauto. Qed.

Lemma ends_sim s t : sim_state s t -> ends s -> ends t.
Proof.
  intros (S1 & S2 & S3 & S4) H HB g Hg. rewrite Hg in S4. destruct (st_fitted s) as [f|] eqn:E; [|contradiction].
  rewrite <- S2 in *. rewrite <- (H HB f E). destruct S4 as (_ & _ & S4 & _). now rewrite S4.
Qed.

Lemma failed_fit c s cl : refits cl -> st_fitted (fst (step c s cl)) = None \/ snd (step c s cl) = Ok ODone \/ fst (step c s cl) = s.
Proof.
  assert (F : forall y X, st_fitted (fst (do_fit ns_of order keep tr_fit_transform svi_run nuts_run latent_sites c s y X)) = None \/
    snd (do_fit ns_of order keep tr_fit_transform svi_run nuts_run latent_sites c s y X) = Ok ODone).
  { intros y X. unfold do_fit. destruct (fit_forecaster c (st_objects s) y X) as [ob [g|e]]; cbn; auto. }
  intros [(y & X & ->)|(y & X & ->)].
  - destruct (F y X); auto.
  - unfold step, History.step. destruct (st_fitted s) as [g|] eqn:E; [|auto].
    destruct (combine_first y (st_y s)) as [y'|]; [|auto].
    destruct (match X with None => _ | Some _ => _ end) as [X'|]; [|auto]. destruct (F y' X'); auto.
Qed.

(** hierarchical, relative horizons: nothing but predictions since the last successful fit *)
Lemma c61_hierarchical c s before cl after m X fh : refits cl -> Forall is_predict after ->
  let s1 := calls c s before in snd (step c s1 cl) = Ok ODone ->
  bottom_complete (st_y (fst (step c s1 cl))) ->
  labelled_at_evaluation c (calls c s (before ++ cl :: after)) m X fh.
Proof.
  intros Hr Ha s1 HS HB. destruct (c_hier c) eqn:Hc; [|apply step_aligned; auto].
  rewrite calls_app. change (calls c (calls c s before) (cl :: after)) with (calls c (fst (step c s1 cl)) after).
  pose proof (refit_ends c s1 cl Hc Hr HS) as HE. pose proof (predicts_sim ns_of order keep tr_fit_transform tr_transform svi_run nuts_run latent_sites guide_draw complete_draw c after (fst (step c s1 cl)) Ha) as SM.
  pose proof (ends_sim _ _ SM HE) as HE2. apply step_aligned. intros f Hf. right. right. apply HE2; [|exact Hf].
  destruct SM as (_ & E & _). rewrite <- E. exact HB.
Qed.
End History.
