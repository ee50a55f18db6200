(** Exogenous rows in the hierarchical forecaster. *)
From Coq Require Import Reals String Bool ZArith List Sorted Permutation Lia.
From Verif.Model Require Import Base Num XFloat Frame Arr Expand Aggregate Scale Prog Likelihood Effect Trend TrendProg Engine Predict Forecaster.
From Verif.Spec Require Import FrameSpec ScaleSpec ProgSpec EffectSpec ForecasterSpec AlignSpec.
From Verif.Facts Require Import BaseFacts OrderFacts FrameFacts FrameProps ExpandFacts EffectFacts EffectFourier AlignFacts
  PredictFacts ForecasterFacts ForecasterInv ForecasterProps.
Import ListNotations.
Local Open Scope string_scope.

(** expansion keeps a frame well formed *)
Lemma set_col_wf (X : frame R) n g : frame_wf X -> frame_wf (set_col X n g).
Proof.
  intros W. unfold set_col. destruct (col_pos (f_cols X) n); intros r Hr; simpl in *; apply in_map_iff in Hr as (x & <- & Hx); simpl;
    destruct (W x Hx) as [W1 W2]; split; auto.
  - now rewrite set_nth_length.
  - rewrite !app_length. simpl. lia.
Qed.

Lemma copy_column_wf z isna (Xo X : frame R) c i X' : frame_wf X -> copy_column z isna Xo X c i = Ok X' -> frame_wf X'.
Proof.
  intros W. unfold copy_column. destruct (col_pos (f_cols Xo) c); [|discriminate]. destruct (col_pos (f_cols X) (get_col_name c i)); [|discriminate].
  intros [= <-] r Hr. simpl in *. apply in_map_iff in Hr as ([x xo] & <- & Hx). apply in_combine_l in Hx. simpl. rewrite set_nth_length. now apply W.
Qed.

Lemma drop_columns_wf (X : frame R) cols : frame_wf X -> frame_wf (drop_columns X cols).
Proof.
  intros W r Hr. simpl in *. apply in_map_iff in Hr as (x & <- & Hx). simpl. destruct (W x Hx) as [W1 W2]. split; [|exact W2].
  rewrite !map_length. clear Hx W2. generalize dependent (r_vals x). induction (f_cols X) as [|c cs IH]; intros [|v vs] E; simpl in *; try discriminate; [reflexivity|].
  destruct (str_in c cols); simpl; rewrite IH by lia; reflexivity.
Qed.

Lemma expand_transform_wf z isna e (X X' : frame R) e' : frame_wf X -> expand_transform z isna e X = Ok (X', e') -> frame_wf X'.
Proof.
  intros W. unfold expand_transform. destruct (ex_skip e); [intros [= <- _]; exact W|]. destruct (f_levels X); [discriminate|].
  rewrite add_zero_pairs, copy_columns_pairs.
  assert (R1 : forall l Z, frame_wf Z -> frame_wf (fold_left (fun X p => set_col X (pname p) (fun _ => z)) l Z)).
  { intros l. induction l as [|p l IH]; intros Z H; simpl; [exact H|]. apply IH. now apply set_col_wf. }
  assert (R2 : forall l Z Z', frame_wf Z -> foldM (fun Y p => copy_column z isna X Y (fst p) (snd p)) Z l = Ok Z' -> frame_wf Z').
  { intros l. induction l as [|p l IH]; intros Z Z' H; simpl; [intros [= <-]; exact H|].
    destruct (copy_column z isna X Z (fst p) (snd p)) as [Z1|] eqn:E; simpl; [|discriminate]. apply IH. eapply copy_column_wf; eauto. }
  destruct (foldM _ _ (copy_pairs _ _)) as [X2|] eqn:E2; simpl; [|discriminate]. intros [= <- _]. apply drop_columns_wf. eapply R2; [|exact E2]. now apply R1.
Qed.

Lemma expand_bottom_wf order shared (X X' : frame R) ex : frame_wf X ->
  expand_bottom 0%R (fun _ => false) order shared X = Ok (X', ex) -> frame_wf X'.
Proof. unfold expand_bottom. intros W H. inv_bind H. eapply expand_transform_wf; eauto. Qed.

Lemma loc_bottom_wf (X X' : frame R) : frame_wf X -> loc_bottom_series X = Ok X' -> frame_wf X'.
Proof.
  intros W. unfold loc_bottom_series. destruct (f_levels X); [now intros [= <-]|]. intros H. inv_bind H. unfold get_multiindex_loc in H.
  destruct x; [discriminate|]. injection H as <-. now apply filter_rows_wf.
Qed.

Lemma fit_plain order e X s e' : fit order e X s = (e', None) -> plain e' = true -> plain e = true.
Proof.
  intros H Pe. destruct e; auto; exfalso; simpl in H.
  - destruct (fit order e X s) as [i [er|]]; [discriminate|]. unfold base_fit in H.
    destruct (negb _ && _); [discriminate|]. simpl in H. injection H as <-. discriminate.
  - unfold base_fit in H. simpl in H. destruct (fourier_fit sp_list terms_list X) as [ff|]; [|discriminate].
    destruct X as [X|]; [|discriminate]. destruct (fourier_transform ff X) as [XF|]; [|discriminate].
    match type of H with context [match ?a with Ok _ => _ | Err _ => _ end] => destruct a as [[XE x']|] end; [|discriminate].
    destruct (check_mode mode_arg); [|discriminate]. injection H as <-. discriminate.
Qed.

(** all fitted effects *)
Lemma fit_effects_each order default effects (X : frame R) s fitted f :
  fit_effects order default effects (Some X) s = Ok fitted -> In f fitted ->
  exists e0 XC, select_columns 0%R X (fe_cols f) = Ok XC /\ fit order e0 (Some XC) s = (fe_effect f, None).
Proof.
  intros H I. apply fit_effects_inv in H. destruct H as (main & dflt & -> & F & D). apply in_app_iff in I. destruct I as [I|I].
  - apply Forall2_In_both in F. destruct (proj2 F f I) as (l & _ & _ & _ & XC & S1 & S2). eauto.
  - destruct D as [[-> _]|(g & -> & _ & _ & _ & XC & S1 & S2)]; [contradiction|]. destruct I as [<-|[]]. eauto.
Qed.

Lemma select_labels (X Y : frame R) cols : select_columns 0%R X cols = Ok Y -> labels Y = labels X.
Proof. unfold select_columns. destruct (mapM _ cols); [|discriminate]. cbn [bind]. intros [= <-]. unfold labels. simpl. rewrite map_map. reflexivity. Qed.

Lemma fold_set_get {V} (l : list (string * V)) : forall acc n v,
  dict_get (fold_left (fun d kv => dict_set d (fst kv) (snd kv)) l acc) n = Some v -> dict_get acc n = Some v \/ In (n, v) l.
Proof.
  induction l as [|[k w] l IH]; intros acc n v H; simpl in *; [auto|]. apply IH in H. destruct H as [H|H]; [|auto].
  rewrite dict_get_set in H. destruct (String.eqb_spec n k) as [->|N]; [injection H as ->|]; auto.
Qed.

Lemma non_skipped_get fitted effs n e : non_skipped fitted = Ok effs -> dict_get effs n = Some e -> should_skip_predict e <> Ok true.
Proof.
  intros H G. rewrite (non_skipped_list _ _ H) in G. apply fold_set_get in G. destruct G as [G|G]; [discriminate|].
  apply in_map_iff in G as (f & [= <- <-] & I). apply filter_In in I. destruct I as [_ I]. intros E. now rewrite E in I.
Qed.

(** data of all plain effects, fitted on [X0] and transformed on [X] *)
Lemma effects_data_at order default effects (X0 X : frame R) s p fh data L :
  fit_effects order default effects (Some X0) s = Ok (p_fitted p) ->
  non_skipped (p_fitted p) = Ok (p_effects p) -> transform_effects (p_fitted p) X fh = Ok data ->
  frame_wf X -> sorted_index X -> NoDup (labels X) -> ascending L ->
  (forall p t, In (p, t) L <-> In (p, t) (labels X) /\ In t fh) ->
  effects_at X L p data.
Proof.
  intros HF HN HT W S0 NL A HL n e G Pe. pose proof (effects_data_agree _ _ _ _ _ HT HN) as AG.
  destruct (agree_get _ _ _ _ _ _ _ AG G) as (d & f & XC & K1 & K2 & K3 & K4 & K5 & K6).
  destruct (fit_effects_each _ _ _ _ _ _ _ HF K2) as (e0 & XC0 & S1 & S2). rewrite K4 in S2.
  pose proof (non_skipped_get _ _ _ _ HN G) as NS. rewrite (should_skip_fitted _ _ _ _ _ S2) in NS.
  assert (Pe0 : plain e0 = true) by (eapply fit_plain; eauto).
  assert (CN : columns_seen (Some XC0) <> []).
  { intros E. rewrite E in NS. destruct e0; try discriminate; apply NS; reflexivity. }
  assert (CS : columns_seen (Some XC0) = fe_cols f).
  { apply select_columns_cols in S1. destruct S1 as (SC & SR & _). rewrite <- SC. simpl in *. destruct (frame_empty XC0); [congruence|reflexivity]. }
  destruct (plain_data_at order e0 (Some XC0) s e fh XC d L) as (a & -> & D); auto.
  - eapply select_wf; eauto.
  - apply array_labels.
    + unfold sorted_index. rewrite (select_labels _ _ _ K5). exact S0.
    + rewrite (select_labels _ _ _ K5). exact NL.
    + exact A.
    + intros q t. rewrite (select_labels _ _ _ K5). apply HL.
  - exists f, a. repeat (split; [congruence || assumption|]). rewrite CS in D. eapply data_at_select; eauto.
Qed.

(** the observations are the bottom rows of the target *)
Lemma target_rows (yb : frame R) t : f_levels yb <> 0 -> sorted_index yb -> series_to_tensor yb = Ok t ->
  a_flat (arr_of_data 1 (D3 t)) = flat_map r_vals (f_rows yb).
Proof.
  intros L S0 H. destruct (tensor_ok_iff yb t L H) as (n & _ & ->). unfold arr_of_data. simpl a_flat.
  rewrite concat_concat_map. rewrite <- (ordered_sorted yb S0). unfold ordered_rows. destruct (f_levels yb); [congruence|].
  rewrite (flat_map_concat_map r_vals). f_equal. clear. induction (series_ids yb) as [|q l IH]; simpl; [reflexivity|]. rewrite map_app. congruence.
Qed.

Section Forecaster.
Variable ns_of : Z -> Z.
Variable order : list string -> list string.
Variable keep : path -> bool.
Context {TS : Type}.
Variable tr_fit_transform : TS -> frame R -> TS * res (frame R).
Variable tr_transform : TS -> frame R -> res (frame R).
Context {P : Type}.

Notation fit_data := (fit_data ns_of order keep tr_fit_transform).

Lemma c57_fit c ob s y X ob' p m Xb : c_hier c = true -> o_transformer ob = None ->
  fit_data c ob s y (Some X) = (ob', Ok (p, m)) ->
  f_levels y <> 0 -> frame_wf y -> NoDup (labels y) -> (forall r, In r (f_rows y) -> ~ In "__total" (r_path r)) ->
  frame_wf X -> f_cols X <> [] ->
  loc_bottom_series X = Ok Xb -> sorted_index Xb -> NoDup (labels Xb) ->
  (forall q t, In t (map r_time (f_rows y)) -> (In (q, t) (labels Xb) <-> In (q, t) (labels y))) ->
  exists rows Xe ex td obs data, Permutation (f_rows y) rows /\
    expand_bottom 0%R (fun _ => false) order (match c_shared c with None => [] | Some l => l end) Xb = Ok (Xe, ex) /\
    m = model_call c s p (o_trend ob') td (Some obs) (Some data) /\
    a_flat obs = flat_map r_vals rows /\
    effects_at Xe (map (fun r => (r_path r, r_time r)) rows) p data.
Proof.
  intros Hc NT H Ly WY NY TY WX CX HXb SX NX HL. unfold Forecaster.fit_data in H. rewrite Hc in H. apply hierarchical_fit_inv in H.
  destruct H as (yb & tensor & X0 & X1 & X2 & ob1 & t0 & t & td & data & H).
  destruct H as (Hyb & Ht & HX0 & HQ & Hex & HX2 & _ & _ & -> & H1 & H2 & H3 & H4 & _ & _ & ->).
  assert (RY : f_rows y <> []).
  { intros E. unfold aggregate, loc_bottom_series, get_bottom_series_idx, series_ids in Hyb.
    destruct (f_levels y) as [|[|n]] eqn:EL; [congruence| |]; rewrite E in Hyb; simpl in Hyb; discriminate. }
  rewrite bottom_of_aggregate_all in Hyb by assumption. injection Hyb as <-.
  assert (NC : no_columns X = false) by (unfold no_columns; destruct (f_cols X); [congruence|reflexivity]). rewrite NC, HXb in HX0. injection HX0 as <-.
  apply run_fit_transform_inv in HQ. destruct HQ as [_ HQ]. rewrite NT in HQ. destruct HQ as [-> ->].
  assert (CB : f_cols Xb = f_cols X).
  { unfold loc_bottom_series in HXb. destruct (f_levels X); [now injection HXb as <-|]. inv_bind HXb. unfold get_multiindex_loc in HXb.
    destruct x; [discriminate|]. now injection HXb as <-. }
  assert (NB : no_columns Xb = false) by (unfold no_columns in *; now rewrite CB). rewrite Hex, NB in HX2. simpl in HX2.
  destruct HX2 as (ex & HX2 & _). pose proof (expand_bottom_labels _ _ _ _ _ _ _ HX2) as [EL ELv].
  assert (WB : frame_wf Xb) by (eapply loc_bottom_wf; eauto).
  assert (PY : Permutation (f_rows y) (f_rows (sort_index y))) by apply key_sort_perm.
  exists (f_rows (sort_index y)), X2, ex, td, (arr_of_data 1 (D3 tensor)), data. split; [exact PY|].
  split; [exact HX2|]. split; [reflexivity|]. split; [apply target_rows; [exact Ly|apply sort_index_sorted|exact Ht]|].
  assert (IL : forall x, In x (map (fun r => (r_path r, r_time r)) (f_rows (sort_index y))) <-> In x (labels y)).
  { intros x. split; apply Permutation_in; [symmetry|]; apply Permutation_map, PY. }
  eapply effects_data_at; try eassumption.
  - eapply expand_bottom_wf; eauto.
  - unfold sorted_index. rewrite EL. exact SX.
  - rewrite EL. exact NX.
  - split; [apply sort_index_sorted|]. eapply Permutation_NoDup; [|exact NY]. apply Permutation_map, PY.
  - intros q tt. rewrite EL, IL. unfold time_ids. rewrite times_unique_In. split.
    + intros I. assert (In tt (map r_time (f_rows y))) as IT.
      { unfold labels in I. apply in_map_iff in I as (r & [= <- <-] & Hr). now apply in_map. }
      split; [|exact IT]. now apply HL.
    + intros [I IT]. now apply HL.
Qed.

(** prediction *)
Notation predict_model := (predict_model ns_of keep tr_transform).
Variable svi_run : Z -> nat -> nat -> prog arr -> res (list xr * P).
Variable nuts_run : Z -> nat -> nat -> nat -> prog arr -> res (nat -> nat -> env).
Variable latent_sites : prog arr -> list string.
Notation fit_forecaster := (fit_forecaster ns_of order keep tr_fit_transform svi_run nuts_run latent_sites).

Lemma c57_predict c ob y X ob1 f ob2 y2 X2 Xb fh m cutoff L :
  c_hier c = true -> fit_forecaster c ob y X = (ob1, Ok f) ->
  p_has_exogenous (ft_prepared f) = true -> o_transformer ob2 = None ->
  predict_model c ob2 f y2 (Some X2) fh = Ok m ->
  max_time (map snd (p_index (ft_prepared f))) = Ok cutoff ->
  frame_wf X2 -> f_cols X2 <> [] ->
  loc_bottom_series X2 = Ok Xb -> sorted_index Xb -> NoDup (labels Xb) -> ascending L ->
  (forall q t, In (q, t) L <-> In (q, t) (labels Xb) /\ In t (to_absolute cutoff fh)) ->
  exists Xe ex ex' td data, p_expander (ft_prepared f) = Some ex /\
    expand_transform 0%R (fun _ => false) ex Xb = Ok (Xe, ex') /\
    m = model_call c (ft_scale f) (ft_prepared f) (o_trend ob2) td None (Some data) /\
    effects_at Xe L (ft_prepared f) data.
Proof.
  intros Hc HF HE NT2 HP HM WX CX HXb SX NX A HL.
  pose proof (fit_prepared _ _ _ _ _ _ _ _ _ _ _ _ _ HF) as [HN _].
  apply fit_forecaster_inv in HF. destruct HF as (s & ys & p & m0 & post & HS & HY & HD & _ & ->). cbn [ft_prepared ft_scale] in *.
  destruct (effects_frame _ _ _ _ _ _ _ _ _ _ _ _ HD) as (X0 & E1 & _).
  unfold predict_model in HP. rewrite Hc in HP. inv_bind HP. injection HP as <-. unfold hierarchical_predict_model in E.
  cbn [ft_prepared ft_scale] in E. rewrite HM in E. cbn [bind] in E.
  assert (NC : no_columns X2 = false) by (unfold no_columns; destruct (f_cols X2); [congruence|reflexivity]). rewrite NC, HXb in E.
  cbn [bind] in E. rewrite HE in E. inv_bind E. destruct x0 as [Xe ex'].
  destruct (forallb _ (to_absolute cutoff fh)) eqn:FA in E0; [|discriminate]. unfold run_transform in E0. rewrite NT2 in E0. cbn [bind] in E0.
  destruct (p_expander p) as [ex|] eqn:EX; [|discriminate]. cbn [attr bind] in E0. inv_bind E0. destruct x0 as [Xe' ex2]. injection E0 as <- <-.
  inv_bind E. inv_bind E. injection E as <-. cbn [fst].
  pose proof (expand_transform_labels _ _ _ _ _ _ E2) as [EL ELv].
  exists Xe', ex, ex2, x0, x1. repeat (split; [assumption || reflexivity|]).
  eapply effects_data_at; try eassumption.
  - eapply expand_transform_wf; [|exact E2]. eapply loc_bottom_wf; eauto.
  - unfold sorted_index. rewrite EL. exact SX.
  - rewrite EL. exact NX.
  - intros q tt. rewrite EL. apply HL.
Qed.
End Forecaster.
