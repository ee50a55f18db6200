(** Valid inputs can be fitted and forecast: effects, trends and model functions. *)
From Coq Require Import Reals Lra String Bool ZArith List Sorted Permutation Lia.
From Verif.Model Require Import Base Num XFloat Regex Frame Arr Expand Aggregate Scale Prog Likelihood Effect Trend TrendProg Engine Predict Forecaster.
From Verif.Spec Require Import FrameSpec ScaleSpec TrendSpec ProgSpec EffectSpec ForecasterSpec AlignSpec SiteSpec TotalSpec.
From Verif.Facts Require Import BaseFacts NumFacts OrderFacts FrameFacts FrameProps ArrFacts ProgFacts MeanFacts LikelihoodFacts ExpandFacts EffectFacts EffectFourier EffectPredict
  TimeFacts TrendFacts AlignFacts PredictFacts ForecasterFacts ForecasterInv ForecasterProps ForecasterTransformer CompleteFacts ShapeFacts SiteFacts.
Import ListNotations.
Local Open Scope string_scope.

(** * Frames of a single series *)
Definition single (X : frame R) : Prop := frame_wf X /\ f_levels X = 0.

Definition all_nonneg (X : frame R) : Prop := forall r v, In r (f_rows X) -> In v (r_vals r) -> (0 <= v)%R.

Lemma select_single X cols XC : single X -> select_columns 0%R X cols = Ok XC ->
  single XC /\ f_cols XC = cols /\ map r_time (f_rows XC) = map r_time (f_rows X) /\ List.length (f_rows XC) = List.length (f_rows X) /\
  ((forall c, In c cols -> non_negative X c) -> all_nonneg XC).
Proof.
  intros [W L] H. unfold select_columns in H. inv_bind H. injection H as <-. cbn [f_rows f_cols f_levels].
  pose proof (EffectPredict.mapM_nth _ _ _ E) as [Lx _].
  split; [|split; [reflexivity|split; [now rewrite map_map|split; [apply map_length|]]]].
  - split; [|exact L]. intros r Hr. apply in_map_iff in Hr as (r0 & <- & Hr). cbn [r_vals r_path f_cols f_levels]. unfold select_vals. rewrite map_length.
    split; [exact Lx|]. apply W. exact Hr.
  - intros N r v Hr Hv. apply in_map_iff in Hr as (r0 & <- & Hr). cbn [r_vals] in Hv. unfold select_vals in Hv. apply in_map_iff in Hv as (i & <- & Hi).
    apply BaseFacts.mapM_ok in E. apply Forall2_In_both in E as [_ E]. destruct (E i Hi) as (c & Hc & P). destruct (col_pos (f_cols X) c) as [j|] eqn:EP; [|discriminate]. injection P as ->.
    pose proof (value_of_pos (f_cols X) (r_vals r0) c i (proj1 (W r0 Hr)) EP) as V. destruct (Nat.lt_ge_cases i (List.length (r_vals r0))) as [Li|Li]; [|rewrite nth_overflow by exact Li; lra].
    apply (N c Hc r0); [exact Hr|]. rewrite V. now apply nth_error_nth'.
Qed.

Lemma filter_single fh X : single X -> single (filter_fh fh X).
Proof. intros [W L]. split; [|exact L]. intros r Hr. unfold filter_fh, filter_rows in Hr. cbn [f_rows] in Hr. apply filter_In in Hr as [Hr _]. exact (W r Hr). Qed.

Lemma filter_nonneg fh X : all_nonneg X -> all_nonneg (filter_fh fh X).
Proof. intros N r v Hr. unfold filter_fh, filter_rows in Hr. cbn [f_rows] in Hr. apply filter_In in Hr as [Hr _]. exact (N r v Hr). Qed.

Lemma single_array X : single X -> exists a, frame_array X = Ok a /\ a_shape a = [List.length (f_rows X); List.length (f_cols X)] /\ arr_wf a /\
  (all_nonneg X -> forall v, In v (a_flat a) -> (0 <= v)%R).
Proof.
  intros [W L]. unfold frame_array, series_to_tensor_or_array. rewrite L. cbn [bind]. eexists. split; [reflexivity|].
  unfold arr_of_data. rewrite map_length. split; [reflexivity|]. split.
  - unfold arr_wf. cbn [a_flat a_shape]. unfold prod_shape. cbn [fold_right]. rewrite Nat.mul_1_r.
    assert (G : forall rows : list (row R), (forall r, In r rows -> List.length (r_vals r) = List.length (f_cols X)) ->
              List.length (concat (map r_vals rows)) = List.length rows * List.length (f_cols X)).
    { induction rows as [|r rows IH]; intros H; [reflexivity|]. simpl. rewrite app_length, IH by (intros; apply H; simpl; auto). rewrite H by (simpl; auto). reflexivity. }
    apply G. intros r Hr. apply W. exact Hr.
  - intros N v Hv. cbn [a_flat] in Hv. apply in_concat in Hv as (l & Hl & Hv). apply in_map_iff in Hl as (r & <- & Hr). exact (N r v Hr Hv).
Qed.

(** * Effects: after a successful fit *)
Fixpoint ready (cols : list string) (e : effect) : Prop :=
  get_base e = mkBase (Some cols) (Some true) /\
  match e with
  | Linear _ _ _ => cols <> []
  | Log _ _ _ _ | Hill _ _ _ _ _ => List.length cols = 1
  | Lift inner _ _ _ s => ready cols inner /\ s <> None
  | Fourier _ _ _ _ _ ff x l =>
      exists f m, ff = Some f /\ x = None /\ (exists z, find_min (ff_min f) [] = Ok z) /\ ff_pairs f <> [] /\
        l = Some (m, mkBase (Some (fourier_cols (ff_pairs f))) (Some true))
  end.

Lemma columns_seen_all {V} (X : frame V) : f_rows X <> [] -> columns_seen (Some X) = f_cols X.
Proof. intros H. unfold columns_seen, frame_empty. destruct (f_cols X); [reflexivity|]. destruct (f_rows X); [congruence|reflexivity]. Qed.

Lemma pairs_keep all : forall acc, acc <> [] ->
  fold_left (fun acc (p : R * nat) => if existsb (fun q => Reqb (INR (snd q) / fst q) (INR (snd p) / fst p)) acc then acc else (acc ++ [p])%list) all acc <> [].
Proof. induction all as [|p all IH]; intros acc H; [exact H|]. simpl. apply IH. destruct (existsb _ acc); [exact H|]. now destruct acc. Qed.

Lemma pairs_nonempty sp terms : List.length sp = List.length terms -> (exists n, In n terms /\ n <> 0) -> fourier_pairs sp terms <> [].
Proof.
  intros L (n & Hn & N0). unfold fourier_pairs. set (all := flat_map _ _).
  assert (H : all <> []).
  { unfold all. clear all. revert terms L Hn. induction sp as [|s sp IH]; intros [|k terms] L Hn; try discriminate; [contradiction|]. simpl in L. simpl.
    destruct Hn as [->|Hn]; [destruct n; [congruence|discriminate]|]. intros E. apply app_eq_nil in E as [_ E]. revert E. apply IH; [congruence|exact Hn]. }
  destruct all as [|p all]; [congruence|]. simpl. apply pairs_keep. discriminate.
Qed.

Lemma single_paths X r : single X -> In r (f_rows X) -> r_path r = [].
Proof. intros [W L] H. destruct (W r H) as [_ P]. rewrite L in P. now destruct (r_path r). Qed.

Lemma single_series_ids X : single X -> f_rows X <> [] -> series_ids X = [[]].
Proof.
  intros S0 N. unfold series_ids, paths_unique, unique. destruct (f_rows X) as [|r rows] eqn:E; [congruence|]. clear N. simpl.
  rewrite (single_paths X r S0) by (rewrite E; simpl; auto). f_equal.
  assert (P : forall r, In r rows -> r_path r = []) by (intros; apply (single_paths X); [exact S0|rewrite E; simpl; auto]).
  clear E. induction rows as [|r0 rows IH]; [reflexivity|]. simpl. rewrite (P r0) by (simpl; auto). simpl. apply IH. intros; apply P; simpl; auto.
Qed.

Lemma fourier_fit_total sp terms m X : single X -> f_rows X <> [] -> applicable [] (mk_fourier sp terms 0 m) ->
  exists f, fourier_fit sp terms (Some X) = Ok f /\ ff_pairs f <> [] /\ exists z, find_min (ff_min f) [] = Ok z.
Proof.
  intros S0 N (L & P & Z0 & _). unfold fourier_fit. rewrite L, Nat.eqb_refl. cbn [negb].
  destruct (existsb _ _) eqn:E.
  { exfalso. apply existsb_exists in E as ([s n] & I & H). cbn [fst snd] in H. apply Rltb_true in H. specialize (P _ _ I). lra. }
  pose proof (single_series_ids X S0 N) as I1. destruct (f_rows X) as [|r rows] eqn:ER; [congruence|].
  eexists. split; [reflexivity|]. cbn [ff_pairs ff_min]. split; [now apply pairs_nonempty|].
  unfold iterate_all_series. rewrite I1. unfold find_min. cbn [map find fst]. simpl. eauto.
Qed.

Lemma fourier_transform_total f X : single X -> (exists z, find_min (ff_min f) [] = Ok z) ->
  exists XF, fourier_transform f X = Ok XF /\ single XF /\ f_cols XF = fourier_cols (ff_pairs f) /\
    map r_time (f_rows XF) = map r_time (f_rows X) /\ List.length (f_rows XF) = List.length (f_rows X).
Proof.
  intros S0 (z & Hz). unfold fourier_transform.
  set (g := fun r : row R => mkRow (r_path r) (r_time r) (fourier_vals (ff_pairs f) (r_time r - z))).
  assert (M : mapM (fun r => m <- find_min (ff_min f) (r_path r) ;; Ok (mkRow (r_path r) (r_time r) (fourier_vals (ff_pairs f) (r_time r - m)))) (f_rows X)
     = Ok (map g (f_rows X))).
  { assert (P : forall r, In r (f_rows X) -> r_path r = []) by (intros; now apply (single_paths X)). induction (f_rows X) as [|r rows IH]; [reflexivity|].
    cbn [mapM map]. rewrite (P r) by (simpl; auto). rewrite Hz. cbn [bind]. rewrite IH by (intros; apply P; simpl; auto). cbn [bind]. unfold g at 2.
    now rewrite (P r) by (simpl; auto). }
  rewrite M. cbn [bind]. eexists. split; [reflexivity|]. cbn [f_rows f_cols f_levels]. split; [|split; [reflexivity|split; [now rewrite map_map|apply map_length]]].
  destruct S0 as [W L]. split; [|exact L]. intros r Hr. apply in_map_iff in Hr as (r0 & <- & Hr). cbn [r_vals r_path f_cols f_levels g]. split; [|now apply W].
  unfold fourier_vals, fourier_cols. generalize (ff_pairs f) (r_time r0 - z)%Z. intros ps t.
  assert (G : forall k, List.length (flat_map (fun pk => [sin (fourier_angle pk t); cos (fourier_angle pk t)]) ps) =
     List.length (flat_map (fun i => [sin_name i; cos_name i]) (seq k (List.length ps)))).
  { induction ps as [|p ps IH]; intros k; [reflexivity|]. cbn [flat_map List.length seq]. rewrite !app_length, (IH (S k)). reflexivity. }
  apply G.
Qed.

Lemma fourier_cols_nonempty ps : ps <> [] -> fourier_cols ps <> [].
Proof. destruct ps; [congruence|]. intros _. discriminate. Qed.

Lemma fit_ready order e : forall cols X s, single X -> f_rows X <> [] -> f_cols X = cols -> applicable cols e ->
  exists e', fit order (clone e) (Some X) s = (e', None) /\ ready cols e' /\ has_hill e' = has_hill e.
Proof.
  induction e as [m p b|m p q b|m p q r b|inner IH tab ps b sc|sp terms ps m b ff x l]; intros cols X s S0 N C A; pose proof (proj2 S0) as L.
  1-3: cbn [clone fit]; unfold base_fit; cbn [supports_multivariate is_panel negb andb]; rewrite ?L; cbn [Nat.eqb negb andb];
    rewrite columns_seen_all by exact N; rewrite C; eexists; (split; [reflexivity|]); (split; [|reflexivity]); cbn [ready]; split; [reflexivity|exact A].
  - destruct (IH cols X s S0 N C A) as (i' & H & R0 & HH). cbn [clone fit]. rewrite H. unfold base_fit. cbn [supports_multivariate is_panel negb andb]. rewrite L. cbn [Nat.eqb negb].
    rewrite columns_seen_all by exact N. rewrite C. eexists. split; [reflexivity|]. split; [|exact HH]. cbn [ready set_fitted set_cols set_base get_base b_cols b_fitted].
    split; [reflexivity|]. split; [exact R0|discriminate].
  - destruct (fourier_fit_total sp terms m X S0 N A) as (f & F & PN & Z0). destruct (fourier_transform_total f X S0 Z0) as (XF & T & SF & CF & _ & LF).
    cbn [clone fit mk_fourier]. unfold base_fit. cbn [supports_multivariate negb andb set_cols set_base get_base inner_fit]. rewrite F, T.
    rewrite (proj2 SF). cbn [Nat.eqb negb andb]. destruct A as (_ & _ & _ & [-> | ->]); cbn [check_mode String.eqb Ascii.eqb Bool.eqb].
    all: rewrite columns_seen_all by exact N; rewrite C; eexists; (split; [reflexivity|]); (split; [|reflexivity]); cbn [ready set_fitted set_base get_base b_cols b_fitted];
      (split; [reflexivity|]); eexists f, _; repeat split; try assumption; try reflexivity; rewrite columns_seen_all; [now rewrite CF|].
    all: intros E; rewrite E in LF; destruct (f_rows X); [congruence|discriminate].
Qed.

Lemma fit_skips order e cols X s : single X -> f_cols X = cols -> cols = [] -> skip_if_no_match e = true ->
  exists e', fit order (clone e) (Some X) s = (e', None) /\ should_skip_predict e' = Ok true /\ has_hill e' = has_hill e.
Proof.
  intros [_ L] C -> K. destruct e; try discriminate; cbn [clone fit]; unfold base_fit; cbn [supports_multivariate is_panel negb andb]; rewrite ?L; cbn [Nat.eqb negb andb];
    unfold columns_seen, frame_empty; rewrite C; eexists; repeat split; reflexivity.
Qed.

(** * Effects: transformation and evaluation *)
(** the effect can be evaluated on its data for every trend of [n] rows *)
Definition evaluates (env : env) (n : nat) (e : effect) (d : edata) : Prop :=
  forall pe t, dict_get pe "trend" = Some t -> a_shape t = [n; 1] -> arr_wf t ->
    exists v, yields env (predict e d pe) v /\ a_shape v = [n; 1].

Lemma mode_total env m raw pe t n x : dict_get pe "trend" = Some t -> a_shape t = [n; 1] -> yields env raw x -> List.length (a_flat x) = n ->
  exists v, yields env (predict_mode m raw pe) v /\ a_shape v = [n; 1].
Proof.
  intros G St Y Lx. assert (TC : trend_column t = t) by (unfold trend_column, ndim; now rewrite St).
  eexists. split.
  - apply mode_yields. exists t, x. split; [exact G|]. split; [exact Y|]. rewrite TC, St. split; [rewrite Lx; unfold prod_shape; simpl; lia|reflexivity].
  - destruct m; reflexivity.
Qed.

Lemma linear_raw_total env prior a n k : a_shape a = [n; k] -> arr_wf a -> k <> 0 -> exists x, yields env (linear_raw prior (EArr a)) x /\ List.length (a_flat x) = n.
Proof.
  intros Sa Wa K.
  set (x := mkArr [n; 1] (map (fun i => Rsum (map (fun j => (entry a (i * k + j) * env "coefs" j)%R) (seq 0 k))) (seq 0 n))).
  assert (LX : List.length (a_flat x) = n) by (unfold x; cbn [a_flat]; now rewrite map_length, seq_length).
  exists x. split; [|exact LX]. apply (linear_raw_yields env prior a k [n] x Sa Wa). split; [exact K|]. split; [reflexivity|].
  assert (P : prod_shape [n] = n) by (unfold prod_shape; simpl; lia). rewrite P. split; [exact LX|]. intros i Hi. unfold entry at 1. unfold x. cbn [a_flat].
  rewrite nth_indep with (d' := (fun i => Rsum (map (fun j => (entry a (i * k + j) * env "coefs" j)%R) (seq 0 k))) 0) by (rewrite map_length, seq_length; exact Hi).
  rewrite (map_nth (fun i => Rsum (map (fun j => (entry a (i * k + j) * env "coefs" j)%R) (seq 0 k)))). rewrite seq_nth by exact Hi. reflexivity.
Qed.

Lemma hill_values h s m l : (0 < h)%R -> (forall v, In v l -> (0 <= v)%R) -> exists vs, mapM (hill1 h s m) l = Ok vs /\ List.length vs = List.length l.
Proof.
  intros H P. induction l as [|x l IH]; [exists []; auto|]. destruct IH as (vs & E & L); [intros; apply P; simpl; auto|].
  assert (X : exists y, hill1 h s m x = Ok y).
  { destruct (P x) as [X|X]; [simpl; auto|eexists; now apply hill1_positive|]. subst x. eexists. apply hill1_zero. lra. }
  destruct X as (y & Hy). exists (y :: vs). cbn [mapM]. rewrite Hy, E. split; [reflexivity|]. simpl. congruence.
Qed.

Lemma evaluates_plain e n k a env : a_shape a = [n; k] -> arr_wf a ->
  match e with
  | Linear _ _ _ => k <> 0
  | Log _ _ _ _ => k = 1
  | Hill _ _ _ _ _ => k = 1 /\ (0 < env "half_max" 0%nat)%R /\ forall v, In v (a_flat a) -> (0 <= v)%R
  | _ => False
  end -> evaluates env n e (EArr a).
Proof.
  intros Sa Wa A pe t G St Wt. assert (Ln : k = 1 -> List.length (a_flat a) = n).
  { intros ->. rewrite Wa, Sa. unfold prod_shape. simpl. lia. }
  destruct e as [m p b|m p q b|m p q r b|inner tab ps b sc|sp terms ps m b ff x l]; try contradiction; cbn [predict].
  - destruct (linear_raw_total env p a n k Sa Wa A) as (x & Y & L). eapply mode_total; eauto.
  - refine (mode_total env m _ pe t n _ G St (proj2 (log_raw_yields env p q a _) eq_refl) _). unfold arr_map. cbn [a_flat]. rewrite map_length. auto.
  - destruct A as (K & H & P). destruct (hill_values (env "half_max" 0) (env "slope" 0) (env "max_effect" 0) (a_flat a) H P) as (vs & E & L).
    refine (mode_total env m _ pe t n _ G St (proj2 (hill_raw_yields env p q r a _) (ex_intro _ vs (conj E eq_refl))) _). cbn [a_flat]. rewrite L. auto.
Qed.

Lemma inner_total e : forall cols X fh n, ready cols e -> single X -> f_cols X = cols -> List.length (f_rows X) = n ->
  (forall r, In r (f_rows X) -> In (r_time r) fh) ->
  exists d, inner_transform e X fh = Ok d /\
    forall env, (has_hill e = true -> all_nonneg X /\ (0 < env "half_max" 0%nat)%R) -> evaluates env n e d.
Proof.
  induction e as [m p b|m p q b|m p q r b|inner IH tab ps b sc|sp terms ps m b ff x l]; intros cols X fh n R0 S0 C Ln HF; cbn [ready] in R0; destruct R0 as [B R0].
  - destruct (single_array X S0) as (a & E & Sa & Wa & NN). cbn [inner_transform]. rewrite E. cbn [bind]. eexists. split; [reflexivity|]. intros env _.
    rewrite Ln, C in Sa. apply (evaluates_plain _ _ _ _ _ Sa Wa). destruct cols; [congruence|discriminate].
  - destruct (single_array X S0) as (a & E & Sa & Wa & NN). cbn [inner_transform]. rewrite E. cbn [bind]. eexists. split; [reflexivity|]. intros env _.
    rewrite Ln, C in Sa. now apply (evaluates_plain _ _ _ _ _ Sa Wa).
  - destruct (single_array X S0) as (a & E & Sa & Wa & NN). cbn [inner_transform]. rewrite E. cbn [bind]. eexists. split; [reflexivity|]. intros env H.
    destruct (H eq_refl) as [H1 H2]. rewrite Ln, C in Sa. apply (evaluates_plain _ _ _ _ _ Sa Wa). auto.
  - destruct R0 as [R0 SN]. destruct (IH _ _ _ _ R0 S0 C Ln HF) as (d & E & EV). cbn [inner_transform]. rewrite E. cbn [bind].
    destruct sc as [sc|]; [|congruence]. cbn [attr bind]. eexists. split; [reflexivity|]. intros env H pe t G St Wt.
    destruct (EV env H pe t G St Wt) as (v & Y & Sv). exists v. split; [|exact Sv]. cbn [predict]. apply yields_bind. exists v. split; [exact Y|].
    apply yields_bind. eexists. split; [unfold observe; apply y_observe; constructor|constructor].
  - destruct R0 as (f & mm & -> & -> & Z0 & PN & ->). destruct (fourier_transform_total f X S0 Z0) as (XF & T & SF & CF & TF & LF).
    cbn [inner_transform attr bind]. rewrite T. cbn [bind]. unfold linear_transform. cbn [b_fitted attr bind negb]. unfold should_skip_base. cbn [b_cols attr bind].
    pose proof (fourier_cols_nonempty _ PN) as FN. destruct (fourier_cols (ff_pairs f)) as [|c0 cs] eqn:FC; [congruence|]. cbn [bind].
    rewrite filter_fh_all.
    2:{ intros r Hr. assert (I : In (r_time r) (map r_time (f_rows XF))) by now apply in_map. rewrite TF in I. apply in_map_iff in I as (r1 & <- & I). auto. }
    destruct (proj2 (select_columns_iff 0%R XF (c0 :: cs))) as (XS & ES); [rewrite CF; auto|]. rewrite ES. cbn [bind].
    destruct (select_single _ _ _ SF ES) as (SS & CS & _ & LS & _). destruct (single_array XS SS) as (a & E & Sa & Wa & _). rewrite E. cbn [bind].
    eexists. split; [reflexivity|]. intros env _ pe t G St Wt. cbn [predict]. rewrite LS, LF, Ln, CS in Sa.
    destruct (linear_raw_total env (DNormal (scalar 0) (scalar ps)) a n (List.length (c0 :: cs)) Sa Wa) as (x & Y & L); [discriminate|]. eapply mode_total; eauto.
Qed.

Lemma ready_skip cols e : ready cols e -> should_skip_predict e = Ok false /\ b_fitted (get_base e) = Some true /\ input_feature_column_names e = Ok cols.
Proof.
  intros H. assert (B : get_base e = mkBase (Some cols) (Some true)) by (destruct e; cbn [ready] in H; apply H).
  unfold should_skip_predict, should_skip_base. rewrite B. cbn [b_cols attr bind b_fitted].
  split; [|split; [reflexivity|]].
  - destruct e; cbn [ready] in H; destruct H as [_ H]; destruct cols; try reflexivity; try discriminate. congruence.
  - destruct e; cbn [input_feature_column_names]; try (now rewrite B). cbn [ready] in H. destruct H as [_ [H _]].
    assert (B' : get_base e = mkBase (Some cols) (Some true)) by (destruct e; cbn [ready] in H; apply H). now rewrite B'.
Qed.

Lemma transform_total e cols X fh : ready cols e -> single X -> (forall c, In c cols -> In c (f_cols X)) ->
  exists XC d, select_columns 0%R X cols = Ok XC /\ transform e (Some XC) fh = Ok d /\
    forall env, (has_hill e = true -> (forall c, In c cols -> non_negative X c) /\ (0 < env "half_max" 0%nat)%R) -> evaluates env (List.length (f_rows (filter_fh fh X))) e d.
Proof.
  intros R0 S0 I. destruct (proj2 (select_columns_iff 0%R X cols) I) as (XC & E). exists XC.
  destruct (select_single _ _ _ S0 E) as (SC & CC & TC & LC & NC). destruct (ready_skip _ _ R0) as (K1 & K2 & K3).
  destruct (proj2 (select_columns_iff 0%R (filter_fh fh XC) cols)) as (XS & ES); [unfold filter_fh, filter_rows; cbn [f_cols]; rewrite CC; auto|].
  destruct (select_single _ _ _ (filter_single fh _ SC) ES) as (SS & CS & TS & LS & NS).
  assert (LF : List.length (f_rows (filter_fh fh XC)) = List.length (f_rows (filter_fh fh X))).
  { unfold filter_fh, filter_rows. cbn [f_rows]. clear - TC. revert TC. generalize (f_rows X). induction (f_rows XC) as [|r l IH]; intros [|r' l'] H; try discriminate; [reflexivity|].
    cbn [map] in H. injection H as H1 H2. simpl. rewrite H1. destruct (existsb _ fh); simpl; rewrite (IH _ H2); reflexivity. }
  destruct (inner_total e cols XS fh (List.length (f_rows (filter_fh fh X))) R0 SS CS) as (d & ED & EV); [congruence| |].
  { intros r Hr. assert (J : In (r_time r) (map r_time (f_rows XS))) by now apply in_map. rewrite TS in J. apply in_map_iff in J as (r1 & <- & J).
    unfold filter_fh, filter_rows in J. cbn [f_rows] in J. apply filter_In in J as [_ J]. apply existsb_exists in J as (t & J & Q). apply Z.eqb_eq in Q. now rewrite Q. }
  assert (NS' : all_nonneg (filter_fh fh XC) -> all_nonneg XS).
  { intros N. apply NS. intros c Hc r v Hr Hv. apply (N r v Hr). unfold filter_fh, filter_rows in Hr. cbn [f_rows] in Hr.
    clear - Hv. revert Hv. generalize (r_vals r). induction (f_cols (filter_fh fh XC)) as [|x cs IH]; intros [|w vs] H; try discriminate. cbn [value_of] in H.
    destruct (String.eqb c x); [injection H as <-; simpl; auto|simpl; eauto]. }
  exists d. split; [exact E|]. split.
  - unfold transform. rewrite K2, K1. cbn [attr bind negb]. rewrite K3. cbn [bind]. rewrite ES. cbn [bind]. exact ED.
  - intros env H. apply EV. intros HH. destruct (H HH) as [H1 H2]. split; [|exact H2]. apply NS'. apply filter_nonneg, NC, H1.
Qed.

(** * All effects of a forecaster *)
Section Effects.
Variable order : list string -> list string.

(** an effect fitted on columns among [cols], ready to be transformed or left out *)
Definition entry_ready (cols : list string) (f : fitted_effect) : Prop :=
  (forall c, In c (fe_cols f) -> In c cols) /\
  (should_skip_predict (fe_effect f) = Ok true \/ ready (fe_cols f) (fe_effect f)).

Lemma fit_usable X cols e s : single X -> f_rows X <> [] -> (forall c, In c cols -> In c (f_cols X)) -> usable cols e ->
  exists XC e', select_columns 0%R X cols = Ok XC /\ fit order (clone e) (Some XC) s = (e', None) /\ has_hill e' = has_hill e /\
    (should_skip_predict e' = Ok true \/ ready cols e').
Proof.
  intros S0 N I U. destruct (proj2 (select_columns_iff 0%R X cols) I) as (XC & E). destruct (select_single _ _ _ S0 E) as (SC & CC & _ & LC & _).
  assert (NC : f_rows XC <> []) by (intros Q; rewrite Q in LC; destruct (f_rows X); [congruence|discriminate]).
  exists XC. destruct U as [[U1 U2]|U].
  - destruct (fit_skips order e cols XC s SC CC U1 U2) as (e' & F & K & H). exists e'. auto.
  - destruct (fit_ready order e cols XC s SC NC CC U) as (e' & F & K & H). exists e'. auto.
Qed.

Lemma mapM_total {A B} (f : A -> res B) (P : A -> B -> Prop) l : (forall a, In a l -> exists b, f a = Ok b /\ P a b) ->
  exists bs, mapM f l = Ok bs /\ Forall2 P l bs.
Proof.
  induction l as [|a l IH]; intros H; [exists []; split; [reflexivity|constructor]|].
  destruct (H a) as (b & E & Pb); [simpl; auto|]. destruct IH as (bs & Es & F); [intros; apply H; simpl; auto|].
  exists (b :: bs). cbn [mapM]. rewrite E, Es. split; [reflexivity|now constructor].
Qed.

Lemma uncovered_NoDup cols fitted : NoDup (uncovered cols fitted).
Proof. unfold uncovered. eapply Permutation_NoDup; [apply str_sort_perm|]. apply strs_unique_NoDup. Qed.

(** where an entry comes from, for the conditions on Hill effects *)
Definition from_listed (default : option effect) (effects : list listed) (X : frame R) (f : fitted_effect) : Prop :=
  (exists l, In l effects /\ fe_name f = l_name l /\ has_hill (fe_effect f) = has_hill (l_effect l) /\
     forall c, In c (fe_cols f) -> matched (l_regex l) c) \/
  (fe_name f = default_name /\ has_hill (fe_effect f) = has_hill (default_of default) /\ forall c, In c (fe_cols f) -> leftover effects X c).

Lemma fit_effects_total default effects X s : single X -> f_rows X <> [] ->
  (forall l, In l effects -> exists cols, match_columns (f_cols X) (l_regex l) = Ok cols /\ usable cols (l_effect l)) ->
  (forall cs, cs <> [] -> NoDup cs -> (forall c, In c cs <-> leftover effects X c) -> usable cs (default_of default)) ->
  exists fitted, fit_effects order default effects (Some X) s = Ok fitted /\
    Forall (fun f => entry_ready (f_cols X) f /\ from_listed default effects X f) fitted.
Proof.
  intros S0 N HE HD. unfold fit_effects.
  destruct (mapM_total (fit_one order (Some X) s) (fun l f => (entry_ready (f_cols X) f /\ from_listed default effects X f)) effects) as (main & M & F).
  { intros l Hl. destruct (HE l Hl) as (cols & Mc & U).
    assert (I : forall c, In c cols -> In c (f_cols X)) by (intros c Hc; apply (ForecasterFacts.match_columns_In _ _ _ Mc c) in Hc; tauto).
    destruct (fit_usable X cols (l_effect l) s S0 N I U) as (XC & e' & E1 & E2 & E3 & E4).
    destruct l as [[n e] re]. unfold fit_one. cbn [l_effect l_regex fst snd] in *. rewrite Mc. cbn [bind]. rewrite E1. cbn [bind]. rewrite E2.
    eexists. split; [reflexivity|]. split; [split; [exact I|exact E4]|]. left. exists ((n, e), re). split; [exact Hl|]. split; [reflexivity|]. split; [exact E3|].
    intros c Hc. apply (ForecasterFacts.match_columns_In _ _ _ Mc c) in Hc. tauto. }
  rewrite M. cbn [bind]. pose proof (mapM_fit order X s effects main M) as FF. pose proof (fun c => uncovered_In order X s effects main c FF) as U. clear FF.
  assert (FM : Forall (fun f => entry_ready (f_cols X) f /\ from_listed default effects X f) main).
  { apply Forall_forall. intros f Hf. apply Forall2_In_both in F as [_ F]. destruct (F f Hf) as (l & _ & Q). exact Q. }
  pose proof (uncovered_NoDup (f_cols X) main) as UN.
  destruct (uncovered (f_cols X) main) as [|c0 cs] eqn:E; [exists main; auto|]. fold (default_of default).
  assert (I : forall c, In c (c0 :: cs) -> In c (f_cols X)) by (intros c Hc; apply U in Hc; apply Hc).
  destruct (fit_usable X (c0 :: cs) (default_of default) s S0 N I) as (XC & e' & E1 & E2 & E3 & E4); [apply HD; [discriminate|exact UN|exact U]|].
  rewrite E1. cbn [bind]. rewrite E2. eexists. split; [reflexivity|]. apply Forall_app. split; [exact FM|]. constructor; [|constructor].
  split; [split; [exact I|exact E4]|]. right. split; [reflexivity|]. split; [exact E3|]. intros c Hc. now apply U.
Qed.

(** data and effects are built in parallel *)
Definition paired (all : list fitted_effect) (X : frame R) (fh : list Z) (ne : string * effect) (nd : string * edata) : Prop :=
  fst ne = fst nd /\ exists f, In f all /\ fe_name f = fst ne /\ fe_effect f = snd ne /\
    forall env, (has_hill (snd ne) = true -> (forall c, In c (fe_cols f) -> non_negative X c) /\ (0 < env "half_max" 0%nat)%R) ->
      evaluates env (List.length (f_rows (filter_fh fh X))) (snd ne) (snd nd).

Lemma effects_total_from all X fh : single X -> forall fitted, Forall (entry_ready (f_cols X)) fitted -> (forall f, In f fitted -> In f all) ->
  forall effs0 data0, Forall2 (paired all X fh) effs0 data0 -> NoDup (map fst effs0) ->
  exists effs data,
    foldM (fun out f => let '(name, e, cols) := f in skip <- should_skip_predict e ;;
           if (skip : bool) then Ok out else XC <- select_columns 0%R X cols ;; d <- transform e (Some XC) fh ;; Ok (dict_set out name d)) data0 fitted = Ok data /\
    foldM (fun out f => let '(name, e, _) := f in skip <- should_skip_predict e ;; Ok (if (skip : bool) then out else dict_set out name e)) effs0 fitted = Ok effs /\
    Forall2 (paired all X fh) effs data /\ NoDup (map fst effs).
Proof.
  intros S0. induction fitted as [|[[n e] cols] fitted IH]; intros F I effs0 data0 P ND; cbn [foldM].
  - exists effs0, data0. auto.
  - inversion F as [|? ? [Fi Fr] F']; subst. cbn [fe_cols fe_effect fst snd] in *.
    assert (I' : forall f, In f fitted -> In f all) by (intros; apply I; simpl; auto).
    destruct Fr as [K|K].
    + rewrite K. cbn [bind]. apply IH; auto.
    + destruct (ready_skip _ _ K) as (K1 & _ & _). rewrite K1. cbn [bind].
      destruct (transform_total e cols X fh K S0 Fi) as (XC & d & E1 & E2 & EV). rewrite E1. cbn [bind]. rewrite E2. cbn [bind].
      apply IH; auto; [|now apply dict_set_nodup]. apply Forall2_dict_set; [exact P|intros a b [Q _]; exact Q|].
      split; [reflexivity|]. exists (n, e, cols). split; [apply I; simpl; auto|]. split; [reflexivity|]. split; [reflexivity|]. exact EV.
Qed.

Lemma effects_total fitted X fh : single X -> Forall (entry_ready (f_cols X)) fitted ->
  exists effs data, transform_effects fitted X fh = Ok data /\ non_skipped fitted = Ok effs /\ Forall2 (paired fitted X fh) effs data /\ NoDup (map fst effs).
Proof.
  intros S0 F. destruct (effects_total_from fitted X fh S0 fitted F (fun f H => H) [] []) as (effs & data & H1 & H2 & H3 & H4); [constructor|constructor|].
  exists effs, data. auto.
Qed.
End Effects.

(** * The location *)
Lemma chain_total env data n t : a_shape t = [n; 1] -> arr_wf t -> forall effs pe,
  dict_get pe "trend" = Some t -> ~ In "trend" (map fst effs) ->
  (forall name e, In (name, e) effs -> exists d, dict_get data name = Some d /\ evaluates (own_env env name) n e d) ->
  exists vs gs, chain env data pe (effect_fns effs) vs gs /\ Forall (fun v => a_shape v = [n; 1]) vs.
Proof.
  intros St Wt. induction effs as [|[name e] effs IH]; intros pe G NT H; [exists [], []; split; constructor|].
  destruct (H name e) as (d & Gd & EV); [simpl; auto|]. destruct (EV pe t G St Wt) as (v & Y & Sv). apply eval_yields in Y as (l & Y).
  destruct (IH (dict_set pe name v)) as (vs & gs & C & F).
  - rewrite dict_get_set. destruct (String.eqb_spec "trend" name); [exfalso; apply NT; simpl; auto|exact G].
  - intros I. apply NT. simpl. auto.
  - intros; apply H; simpl; auto.
  - exists (v :: vs), ((map (prefixed name) l ++ [(name, SDet v)])%list :: gs). split; [|constructor; assumption].
    exact (ch_cons env data pe name (predict e) _ d v l vs gs Gd Y C).
Qed.

Lemma sum_total sh vs : forall m, a_shape m = sh -> Forall (fun v => a_shape v = sh) vs ->
  exists m', foldM (arr_zip Rplus) m vs = Ok m' /\ a_shape m' = sh.
Proof.
  induction vs as [|v vs IH]; intros m Sm F; cbn [foldM]; [eauto|]. inversion F; subst.
  unfold arr_zip at 1. destruct (list_eq_dec Nat.eq_dec (a_shape m) (a_shape v)); [|congruence]. cbn [bind]. apply IH; [reflexivity|assumption].
Qed.

Lemma mean_total env (trend : prog arr) effs data n : (exists t, yields env trend t /\ a_shape t = [n; 1] /\ arr_wf t) ->
  ~ In "trend" (map fst effs) ->
  (forall name e, In (name, e) effs -> exists d, dict_get data name = Some d /\ evaluates (own_env env name) n e d) ->
  exists m, yields env (compute_mean trend (Some data) (Some (effect_fns effs))) m /\ a_shape m = [n; 1].
Proof.
  intros (t & Y & St & Wt) NT H. destruct (chain_total env data n t St Wt effs [("trend", t)] eq_refl NT H) as (vs & gs & C & F).
  destruct (sum_total [n; 1] vs t St F) as (m & Fm & Sm). exists m. split; [|exact Sm]. apply eval_yields in Y as (lt & Y). apply eval_yields. eexists.
  apply eval_compute_mean. exists t, lt, vs, gs. auto.
Qed.

Lemma model_total c s p t td y data env n : c_hier c = false -> p_has_exogenous p = true ->
  (c_likelihood c = "normal" \/ c_likelihood c = "gamma" \/ c_likelihood c = "negbinomial") ->
  (exists v, yields env (trend_predict t td) v /\ a_shape v = [n; 1] /\ arr_wf v) ->
  ~ In "trend" (map fst (p_effects p)) ->
  (forall name e, In (name, e) (p_effects p) -> exists d, dict_get data name = Some d /\ evaluates (own_env env name) n e d) ->
  exists o, yields env (model_call c s p t td y (Some data)) o.
Proof.
  intros Hc He Hl HT NT HE. destruct (mean_total env _ _ data n HT NT HE) as (m & Y & Sm).
  assert (Q : forall (dist : arr -> distr) ns sh k, exists o, yields env (noise <~ sample "noise_scale" (DHalfNormal (scalar ns)) [] ;;
            n <~ lift_res (Ok k) ;; _ <~ plate "data" n ;; observe "obs" (dist noise) sh y) o).
  { intros dist ns sh k. exists (site_value env "obs" sh y). apply yields_bind. eexists. split; [apply yields_sample; reflexivity|].
    apply yields_bind. exists k. split; [now apply yields_lift|]. apply yields_bind. exists tt. split; [apply yields_plate|]. unfold observe, site_value.
    destruct y; constructor; constructor. }
  unfold model_call. rewrite Hc, He. destruct Hl as [-> | [-> | ->]]; cbn [String.eqb Ascii.eqb Bool.eqb].
  - unfold univariate_model. destruct (Q (fun noise => DNormal (reshape_col m) (const_arr (a_shape (reshape_col m)) (item0 noise))) (c_noise c) (a_shape (reshape_col m)) n) as (o & Yo).
    exists o. apply yields_bind. exists m. split; [exact Y|]. unfold len. rewrite Sm. exact Yo.
  - unfold univariate_gamma_model. destruct (Q (fun noise => gamma_reparametrized (reshape_col (to_positive m)) (item0 noise)) (c_noise c) (a_shape (reshape_col (to_positive m))) n) as (o & Yo).
    exists o. apply yields_bind. exists m. split; [exact Y|]. unfold len. cbn [to_positive arr_map a_shape]. rewrite Sm. exact Yo.
  - unfold univariate_negbinomial_model. set (m2 := arr_map (fun x => x * scale_number s)%R (to_positive m)).
    destruct (Q (fun noise => DNegBinomial2 (reshape_col m2) (const_arr (a_shape (reshape_col m2)) (item0 noise * scale_number s)%R)) (c_noise c) (a_shape (reshape_col m2)) n) as (o & Yo).
    exists o. apply yields_bind. exists m. split; [exact Y|]. fold m2. unfold len at 1. replace (a_shape m2) with [n; 1] by (symmetry; exact Sm). exact Yo.
Qed.

(** * Trends *)
(** the series whose end points give the initial values *)
Definition start_series (p : piecewise_params) (y : frame R) : frame R := if pw_detrend p then detrend_frame y else y.

Lemma start_series_values p y : single y -> f_rows y <> [] -> exists v vs, target_matrix (start_series p y) = Ok [v :: vs] /\
  forall x, In x (v :: vs) -> exists r, In r (f_rows (start_series p y)) /\ x = val0 r.
Proof.
  intros S0 N. assert (L : f_levels (start_series p y) = 0) by (unfold start_series; destruct (pw_detrend p); apply S0).
  assert (N' : f_rows (start_series p y) <> []).
  { unfold start_series. destruct (pw_detrend p); [|exact N]. unfold detrend_frame. cbn [f_rows]. unfold iterate_all_series. rewrite (single_series_ids y S0 N). cbn [map flat_map snd].
    rewrite app_nil_r. assert (E : rows_of y [] = f_rows y).
    { unfold rows_of. clear N. assert (P : forall r, In r (f_rows y) -> r_path r = []) by (intros; now apply (single_paths y)).
      induction (f_rows y) as [|r l IH]; [reflexivity|]. cbn [filter]. rewrite (P r) by (simpl; auto). simpl. f_equal. apply IH. intros; apply P; simpl; auto. }
    rewrite E. unfold ols_line. destruct (f_rows y); [congruence|discriminate]. }
  unfold target_matrix, series_to_tensor. rewrite L. cbn [bind map]. rewrite map_map.
  destruct (f_rows (start_series p y)) as [|r rows] eqn:E; [congruence|]. cbn [map]. eexists _, _. split; [reflexivity|].
  intros x Hx. change (In x (map val0 (r :: rows))) in Hx. apply in_map_iff in Hx as (r' & <- & Hr). exists r'. split; [exact Hr|reflexivity].
Qed.

Lemma suggest_total p y ts : single y -> f_rows y <> [] -> (hd 0 ts < last ts 0)%R ->
  match pw_logistic p with
  | None => True
  | Some None => forall r, In r (f_rows (start_series p y)) -> (0 < val0 r)%R
  | Some (Some _) => False
  end ->
  exists k m, suggest p y ts = Ok ([XF k], [XF m]).
Proof.
  intros S0 N HT HL. destruct (start_series_values p y S0 N) as (v & vs & E & P). unfold suggest. fold (start_series p y). rewrite E. cbn [bind endpoints mapM].
  destruct (pw_logistic p) as [[c|]|]; [contradiction| |cbn [map]; eauto].
  cbn [concat app]. rewrite app_nil_r. cbn [bind].
  assert (Q : forall x, In x (v :: vs) -> (0 < x < Rmax_list v vs * (105 / 100))%R).
  { intros x Hx. destruct (P x Hx) as (r & Hr & ->). pose proof (HL r Hr). pose proof (Rmax_list_ge v vs _ Hx). lra. }
  rewrite suggest_logistic_inside; [cbn [bind map fst snd]; eauto|exact HT|].
  intros ye [<-|[]]. cbn [fst snd]. split; apply Q; [simpl; auto|]. destruct vs as [|w vs]; [simpl; auto|].
  change (last (v :: w :: vs) 0%R) with (last (w :: vs) 0%R). right. clear. revert w. induction vs as [|a vs IH]; intros w; [simpl; auto|]. right. apply IH.
Qed.

Lemma piecewise_fit_total ns_of p y iv rg : single y -> (2 <= List.length (f_rows y)) -> NoDup (map r_time (f_rows y)) ->
  increasing (map (fun t => days_since_epoch (ns_of t)) (map r_time (f_rows y))) ->
  pw_interval p = Scalar iv -> (0 < iv)%R -> pw_range p = Scalar rg -> (0 < rg)%R ->
  match pw_logistic p with
  | None => True
  | Some None => forall r, In r (f_rows (start_series p y)) -> (0 < val0 r)%R
  | Some (Some _) => False
  end ->
  exists f cp k m, piecewise_fit ns_of p y = Ok f /\ pf_cps f = [cp] /\ pf_offset_loc f = [XF m] /\ pf_global_rates f = [XF k] /\ pf_params f = p /\ pf_n_series f = 1 /\
    pf_series f = None.
Proof.
  intros S0 L2 ND INC PI HI PR HR HL. pose proof (proj2 S0) as L0.
  assert (N : f_rows y <> []) by (destruct (f_rows y); [simpl in L2; lia|discriminate]).
  unfold piecewise_fit. unfold time_ids. rewrite times_unique_id by exact ND. set (td := map (fun t => days_since_epoch (ns_of t)) (map r_time (f_rows y))) in *.
  assert (Ld : 2 <= List.length td) by (unfold td; rewrite !map_length; exact L2).
  destruct (fit_time_ok td INC Ld) as (s & st & E & Ps & H0 & H1 & MN). rewrite E. cbn [bind]. set (ts := map (scale_time s st) td).
  assert (HD : hd 0%R ts = 0%R) by (unfold ts; destruct td; [simpl in Ld; lia|exact H0]).
  assert (LA : last ts 0%R = INR (List.length td - 1)).
  { unfold ts. rewrite <- H1. clear -Ld. destruct td as [|a td]; [simpl in Ld; lia|]. clear. revert a. induction td as [|b td IH]; intros a; [reflexivity|].
    change (last (map (scale_time s st) (a :: b :: td)) 0%R) with (last (map (scale_time s st) (b :: td)) 0%R).
    change (last (a :: b :: td) 0%R) with (last (b :: td) 0%R). apply IH. }
  assert (PL : (0 < last ts 0)%R) by (rewrite LA; apply lt_0_INR; lia).
  assert (TM : (0 < Rmax_list (hd 0 ts) (tl ts))%R).
  { eapply Rlt_le_trans; [exact PL|]. apply Rmax_list_ge. destruct ts as [|a l] eqn:Et; [simpl in PL; lra|]. cbn [hd tl]. clear. revert a. induction l as [|b l IH]; intros a; [simpl; auto|].
    change (last (a :: b :: l) 0%R) with (last (b :: l) 0%R). right. apply IH. }
  unfold n_series_of. rewrite L0. rewrite PI, PR.
  destruct (setup_changepoints_spec (Rmax_list (hd 0%R ts) (tl ts)) (Scalar iv) (Scalar rg) 1) as [(cps & Ec & F)|[Ec (ir & Hin & Hl)]].
  { simpl. intros I [<-|[]]. exact HI. }
  2:{ exfalso. simpl in Hin. destruct Hin as [<-|[]]. simpl in Hl. unfold changepoint_limit in Hl.
      destruct (Rltb rg 1 && Rltb 0 rg) eqn:B1; [nra|]. destruct (Rleb 1 rg) eqn:B2; [apply Rleb_true in B2; lra|].
      apply andb_false_iff in B1 as [B1|B1]; [apply Rltb_false in B1|apply Rltb_false in B1]; [apply Rleb_false in B2|]; lra. }
  rewrite Ec. cbn [bind]. simpl in F. inversion F as [|? cp ? rest Hcp Hrest]; subst. inversion Hrest; subst.
  destruct (suggest_total p y ts S0 N) as (k & m & ES); [lra|exact HL|]. rewrite ES. cbn [bind].
  eexists _, cp, k, m. split; [reflexivity|]. cbn [pf_cps pf_offset_loc pf_global_rates pf_params pf_n_series pf_series]. repeat split.
Qed.
