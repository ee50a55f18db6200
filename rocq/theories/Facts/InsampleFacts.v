(** Predictions for the dates of the training data. *)
From Coq Require Import Reals String Bool ZArith List Lia Sorted Permutation.
From Verif.Model Require Import Base Num XFloat Regex Frame Arr Expand Aggregate Scale Predict Prog Likelihood Trend Effect
  TrendProg Engine Forecaster History.
From Verif.Spec Require Import FrameSpec ProgSpec EffectSpec ForecasterSpec AlignSpec ShapeSpec InsampleSpec.
From Verif.Facts Require Import BaseFacts NumFacts OrderFacts FrameFacts PredictFacts CompleteFacts ProgFacts LikelihoodFacts MeanFacts EffectFacts ForecasterFacts ForecasterInv ForecasterProps
  AlignFacts HorizonFacts.
Import ListNotations.
Local Open Scope string_scope.

(** * programs *)
Definition alike (y : arr) (tr : trace) (e : env) (m m' : prog arr) : Prop :=
  match run e tr m, run e tr m' with
  | Ok (_, t), Ok (_, t') => exists before d v,
      t = (before ++ [("obs", SSample d y true)])%list /\ t' = (before ++ [("obs", SSample d v false)])%list
  | Err a, Err b => a = b
  | _, _ => False
  end.

Lemma alike_bind {A} y e (p : prog A) k k' : (forall a tr, alike y tr e (k a) (k' a)) -> forall tr, alike y tr e (pbind p k) (pbind p k').
Proof.
  intros H. induction p as [a|x|n d sh o k0 IH|n v k0 IH|n s k0 IH]; intros tr; cbn [pbind].
  - apply H.
  - reflexivity.
  - unfold alike. cbn [run]. destruct (record _ _ _) as [tr'|]; [|reflexivity]. cbn [bind]. apply (IH _ tr').
  - unfold alike. cbn [run]. destruct (record _ _ _) as [tr'|]; [|reflexivity]. cbn [bind]. apply (IH tr').
  - unfold alike. cbn [run]. destruct (record _ _ _) as [tr'|]; [|reflexivity]. cbn [bind]. apply (IH tr').
Qed.

Lemma alike_observe y e d sh tr : alike y tr e (observe "obs" d sh (Some y)) (observe "obs" d sh None).
Proof.
  unfold alike, observe. cbn [run]. unfold record. destruct (dict_get tr "obs") eqn:E; [reflexivity|]. cbn [bind run].
  rewrite !BaseFacts.dict_set_new by (now apply dict_get_None). eexists tr, d, _. split; reflexivity.
Qed.

Lemma univariate_alike c s p t td data y : c_hier c = false ->
  same_but_observed y (model_call c s p t td (Some y) data) (model_call c s p t td None data).
Proof.
  intros Hc e. cut (forall tr, alike y tr e (model_call c s p t td (Some y) data) (model_call c s p t td None data)); [intros H; exact (H [])|].
  unfold model_call. rewrite Hc.
  destruct (String.eqb (c_likelihood c) "normal"); [|destruct (String.eqb (c_likelihood c) "gamma"); [|destruct (String.eqb (c_likelihood c) "negbinomial"); [|reflexivity]]];
  unfold univariate_model, univariate_gamma_model, univariate_negbinomial_model; intros tr;
  (apply alike_bind; intros mean tr1; apply alike_bind; intros noise tr2; apply alike_bind; intros n tr3; apply alike_bind; intros _ tr4; apply alike_observe).
Qed.

Lemma hierarchical_alike c s p t td data y ys : c_hier c = true -> squeeze_last y = Ok ys ->
  same_but_observed (transpose ys) (model_call c s p t td (Some y) data) (model_call c s p t td None data).
Proof.
  intros Hc Hs e. cut (forall tr, alike (transpose ys) tr e (model_call c s p t td (Some y) data) (model_call c s p t td None data)); [intros H; exact (H [])|].
  unfold model_call. rewrite Hc. unfold multivariate_model. intros tr.
  apply alike_bind. intros mean tr1. rewrite Hs. cbn [lift_res pbind]. destruct (p_single p).
  - apply alike_bind. intros std tr2. apply alike_bind. intros _ tr3. apply alike_observe.
  - apply alike_bind. intros n tr2. apply alike_bind. intros std tr3. apply alike_bind. intros corr tr4. apply alike_bind. intros half tr5.
    apply alike_bind. intros cov tr6. apply alike_bind. intros tt tr7. apply alike_bind. intros _ tr8. apply alike_bind. intros loc tr9. apply alike_observe.
Qed.

(** * rows *)
Lemma filter_label (l : list (row R)) r : NoDup (map (fun r => (r_path r, r_time r)) l) -> In r l ->
  filter (fun r' => path_eqb (r_path r') (r_path r) && Z.eqb (r_time r') (r_time r)) l = [r].
Proof.
  induction l as [|x l IH]; [contradiction|]. simpl. intros N H. inversion N as [|? ? N1 N2]; subst. destruct H as [->|H].
  - rewrite (proj2 (path_eqb_eq _ _) eq_refl), Z.eqb_refl. cbn [andb]. f_equal. clear IH.
    assert (G : forall l', (forall z, In z l' -> In z l) -> filter (fun r' => path_eqb (r_path r') (r_path r) && Z.eqb (r_time r') (r_time r)) l' = []).
    { induction l' as [|z l' IH]; intros G; [reflexivity|]. simpl. destruct (path_eqb (r_path z) (r_path r) && Z.eqb (r_time z) (r_time r)) eqn:E.
      - exfalso. apply andb_true_iff in E as [E1 E2]. apply path_eqb_eq in E1. apply Z.eqb_eq in E2. apply N1. rewrite <- E1, <- E2.
        apply in_map_iff. exists z. split; [reflexivity|]. apply G. now left.
      - apply IH. intros z' Hz'. apply G. now right. }
    apply G. auto.
  - destruct (path_eqb (r_path x) (r_path r) && Z.eqb (r_time x) (r_time r)) eqn:E; [|now apply IH].
    exfalso. apply andb_true_iff in E as [E1 E2]. apply path_eqb_eq in E1. apply Z.eqb_eq in E2. apply N1. rewrite E1, E2.
    apply in_map_iff. now exists r.
Qed.

Lemma loc_is_filter (X : frame R) times : NoDup (labels X) -> loc_index X (labels (filter_fh times X)) = Ok (filter_fh times X).
Proof.
  intros N. unfold loc_index.
  assert (G : forall rs, (forall r, In r rs -> In r (f_rows X)) ->
    mapM (fun pt => match filter (fun r => path_eqb (r_path r) (fst pt) && Z.eqb (r_time r) (snd pt)) (f_rows X) with
      | [] => Err KeyError
      | rs => Ok rs
      end) (map (fun r => (r_path r, r_time r)) rs) = Ok (map (fun r => [r]) rs)).
  { induction rs as [|r rs IH]; intros H; [reflexivity|]. cbn [map mapM fst snd]. rewrite (filter_label _ r N) by (apply H; now left).
    cbn [bind]. rewrite IH by (intros z Hz; apply H; now right). reflexivity. }
  unfold labels at 1. rewrite G.
  - cbn [bind]. f_equal. unfold filter_fh, filter_rows. cbn [f_rows]. f_equal. generalize (filter (fun r => existsb (Z.eqb (r_time r)) times) (f_rows X)).
    induction l as [|r l IH]; [reflexivity|]. simpl. now rewrite IH.
  - intros r Hr. unfold filter_fh, filter_rows in Hr. cbn [f_rows] in Hr. now apply filter_In in Hr.
Qed.

Lemma nil_path {V} (X : frame V) r : frame_wf X -> f_levels X = 0 -> In r (f_rows X) -> r_path r = [].
Proof. intros W L H. apply W in H. rewrite L in H. now destruct (r_path r). Qed.

(** * frames without columns *)
Definition strip (f : frame R) : frame R := empty_frame (f_levels f) (index_of f).
Lemma strip_rows f : f_rows (strip f) = map (fun r => mkRow (r_path r) (r_time r) []) (f_rows f).
Proof. unfold strip, empty_frame, index_of. cbn [f_rows]. now rewrite map_map. Qed.
Lemma strip_series f : series_ids (strip f) = series_ids f.
Proof. unfold series_ids. rewrite strip_rows, map_map. reflexivity. Qed.
Lemma strip_bottom f : loc_bottom_series (strip f) = (g <- loc_bottom_series f ;; Ok (strip g)).
Proof.
  unfold loc_bottom_series. change (f_levels (strip f)) with (f_levels f). destruct (f_levels f) as [|n] eqn:L; [reflexivity|].
  unfold get_bottom_series_idx. change (f_levels (strip f)) with (f_levels f). rewrite strip_series, L.
  match goal with |- context [bind ?m _] => destruct m as [idx|] end; [|reflexivity]. cbn [bind].
  unfold get_multiindex_loc. destruct idx as [|p0 idx]; [reflexivity|]. cbn [bind]. f_equal.
  unfold strip at 2, empty_frame, filter_rows, index_of. cbn [f_levels f_cols f_rows]. f_equal. rewrite strip_rows, map_map. now apply filter_map_comm.
Qed.

Lemma bare_rows (X X' : frame R) : f_levels X = f_levels X' -> f_cols X = [] -> f_cols X' = [] -> labels X = labels X' ->
  (forall r, In r (f_rows X) -> r_vals r = []) -> (forall r, In r (f_rows X') -> r_vals r = []) -> X = X'.
Proof.
  destruct X as [l c rs], X' as [l' c' rs']. unfold labels. cbn. intros -> -> -> E H H'. f_equal. revert rs' E H'.
  induction rs as [|r rs IH]; intros [|r' rs'] E H'; try discriminate; [reflexivity|]. injection E as E1 E2 E3.
  f_equal; [|apply IH; auto; intros z Hz; [apply H|apply H']; now right].
  destruct r as [p t v], r' as [p' t' v']. cbn in *. specialize (H _ (or_introl eq_refl)). specialize (H' _ (or_introl eq_refl)). cbn in *. congruence.
Qed.

Section Forecaster.
Variable ns_of : Z -> Z.
Variable order : list string -> list string.
Variable keep : path -> bool.
Context {TS : Type}.
Variable tr_fit_transform : TS -> frame R -> TS * res (frame R).
Variable tr_transform : TS -> frame R -> res (frame R).
Context {P : Type}.
Variable svi_run : Z -> nat -> nat -> prog arr -> res (list xr * P).
Variable nuts_run : Z -> nat -> nat -> nat -> prog arr -> res (nat -> nat -> env).
Variable latent_sites : prog arr -> list string.
Notation fit_forecaster := (fit_forecaster ns_of order keep tr_fit_transform svi_run nuts_run latent_sites).
Notation fit_data := (fit_data ns_of order keep tr_fit_transform).
Notation predict_model := (predict_model ns_of keep tr_transform).
Hypothesis transformers : forall s X s' X', tr_fit_transform s X = (s', Ok X') -> tr_transform s' X = Ok X' /\ labels X' = labels X.

Lemma max_time_some l : l <> [] -> exists t, max_time l = Ok t.
Proof. destruct l; [congruence|]. intros _. eexists. reflexivity. Qed.

Lemma run_again ob (X : frame R) ob' X' : run_fit_transform tr_fit_transform ob X = (ob', Ok X') ->
  run_transform tr_transform ob' X = Ok X' /\ labels X' = labels X.
Proof.
  intros H. apply run_fit_transform_inv in H as [_ H]. unfold run_transform. destruct (o_transformer ob) as [tr|] eqn:E.
  - destruct H as (tr' & -> & H). exact (transformers _ _ _ _ H).
  - destruct H as [-> ->]. rewrite E. auto.
Qed.

Lemma c76_univariate_data c ob s y X ob' p m post yraw : fit_data c ob s y X = (ob', Ok (p, m)) -> c_hier c = false ->
  frame_wf y -> f_levels y = 0 -> f_rows y <> [] -> ascending (labels y) -> index_of yraw = index_of y ->
  match X with None => True | Some X => frame_wf X /\ f_levels X = 0 /\ ascending (labels X) end ->
  exists m', predict_model c ob' (mkFitted (P := P) s p post) yraw X (Absolute (time_ids y)) = Ok m' /\
    same_but_observed (mkArr [List.length (flat_map r_vals (f_rows y)); 1] (flat_map r_vals (f_rows y))) m m'.
Proof.
  intros H Hc WY LY NY AY IY HX. unfold Forecaster.fit_data in H. rewrite Hc in H. apply univariate_fit_inv in H.
  destruct H as (t0 & t & yt & X1 & Xe & td & data & _ & _ & _ & HQ & HL & HO & HT & HE & HD & HN & HP & ->).
  set (times := time_ids y) in *.
  assert (TU : times = map r_time (f_rows y)).
  { unfold times, time_ids. apply times_unique_id. destruct AY as [_ N]. unfold labels in N.
    assert (P0 : forall r, In r (f_rows y) -> r_path r = []) by (intros r Hr; now apply (nil_path y)). clear -N P0.
    induction (f_rows y) as [|r l IH]; simpl in *; [constructor|]. inversion N as [|? ? N1 N2]; subst. constructor; [|apply IH; auto].
    intros I. apply in_map_iff in I as (z & E & Hz). apply N1. apply in_map_iff. exists z. split; [|exact Hz].
    rewrite E, (P0 z) by now right. rewrite (P0 r) by now left. reflexivity. }
  (* the frame given to the transformer *)
  set (X0 := match X with None => empty_frame (f_levels y) (index_of y) | Some X => X end) in *.
  assert (E0 : match X with None => empty_frame 0 (map (fun t => ([], t)) times) | Some X => X end = X0).
  { unfold X0. destruct X; [reflexivity|]. rewrite LY. f_equal. unfold index_of. rewrite TU, map_map. apply map_ext_in. intros r Hr. now rewrite (nil_path y r WY LY Hr). }
  assert (A0 : ascending (labels X0)).
  { unfold X0. destruct X as [X|]; [apply HX|]. unfold labels, empty_frame, index_of. cbn [f_rows]. rewrite !map_map. exact AY. }
  assert (P0 : forall x, In x (labels X0) -> fst x = []).
  { intros x Hx. unfold labels in Hx. apply in_map_iff in Hx as (r & <- & Hr). cbn [fst]. unfold X0 in Hr. destruct X as [X|].
    - destruct HX as (W & L & _). now apply (nil_path X).
    - unfold empty_frame, index_of in Hr. cbn [f_rows] in Hr. apply in_map_iff in Hr as (pt & <- & Hp). apply in_map_iff in Hp as (r & <- & Hr). cbn. now apply (nil_path y). }
  destruct (run_again _ _ _ _ HQ) as [HT2 LX]. rewrite <- LX in A0, P0.
  (* loc is a filter *)
  assert (LL : labels (filter_fh times X1) = labels y).
  { apply ascending_eq; [|exact AY|].
    - split; [|apply NoDup_labels_filter; apply A0]. apply filter_fh_sorted. apply A0.
    - intros x. rewrite horizon_labels. split.
      + intros [H1 H2]. rewrite TU in H2. apply in_map_iff in H2 as (r & E & Hr). apply in_map_iff. exists r. split; [|exact Hr].
        rewrite (nil_path y r WY LY Hr), E, <- (P0 x H1). now destruct x.
      + intros H. split.
        * apply in_map_iff in H as (r & <- & Hr).
          unfold loc_index in HL. inv_bind HL. apply BaseFacts.mapM_ok in E. apply Forall2_In_both in E. destruct E as [F1 _].
          destruct (F1 (r_path r, r_time r)) as (rs & _ & G); [unfold index_of; apply in_map_iff; now exists r|]. cbn [fst snd] in G.
          destruct (filter _ (f_rows X1)) as [|z zs] eqn:F in G; [discriminate|]. assert (I : In z (z :: zs)) by now left. rewrite <- F in I.
          apply filter_In in I as [I E]. apply andb_true_iff in E as [E1 E2]. apply path_eqb_eq in E1. apply Z.eqb_eq in E2.
          apply in_map_iff. exists z. rewrite E1, E2. auto.
        * rewrite TU. apply in_map_iff in H as (r & <- & Hr). cbn [snd]. apply in_map. exact Hr. }
  assert (XE : Xe = filter_fh times X1).
  { pose proof (loc_is_filter X1 times (proj2 A0)) as G. rewrite LL in G. change (labels y) with (index_of y) in G. rewrite G in HL. now injection HL as <-. }
  unfold ForecasterSpec.predict_model. rewrite Hc. unfold univariate_predict_model.
  destruct (max_time_some (map r_time (f_rows yraw))) as [cut ->].
  { intros E. unfold index_of in IY. destruct (f_rows yraw); [|discriminate]. destruct (f_rows y); [congruence|discriminate]. }
  cbn [bind to_absolute ft_prepared ft_scale]. rewrite E0, HT2. cbn [bind]. rewrite HO.
  rewrite trend_transform_filter, <- XE, HT. cbn [bind].
  assert (p_has_exogenous p = true) as -> by (rewrite HP; reflexivity). rewrite transform_effects_filter, <- XE, HD. cbn [bind].
  eexists. split; [reflexivity|]. unfold reshape_col. cbn [a_flat]. now apply univariate_alike.
Qed.

Lemma tensor_squeezes tensor : exists ys, squeeze_last (arr_of_data 1 (D3 tensor)) = Ok ys.
Proof. unfold squeeze_last, arr_of_data. cbn. eexists. reflexivity. Qed.

Lemma aggregate_nonempty (y : frame R) yb : f_levels y <> 0 -> loc_bottom_series (aggregate keep y) = Ok yb -> index_of (aggregate keep y) <> [].
Proof.
  intros L H E. assert (A : f_rows (aggregate keep y) = []) by (unfold index_of in E; destruct (f_rows (aggregate keep y)); [reflexivity|discriminate]).
  assert (LA : f_levels (aggregate keep y) = f_levels y) by (unfold aggregate; destruct (f_levels y) eqn:E1; [exact E1|reflexivity]).
  unfold loc_bottom_series, get_bottom_series_idx, series_ids in H. rewrite A, LA in H. destruct (f_levels y) as [|[|n]]; [congruence| |]; discriminate.
Qed.

Lemma expand_again shared (X X' : frame R) ex : expand_bottom 0%R (fun _ => false) order shared X = Ok (X', ex) ->
  exists ex', expand_transform 0%R (fun _ => false) ex X = Ok (X', ex').
Proof.
  unfold expand_bottom. intros H. inv_bind H. rewrite expand_transform_ids in H. destruct (ex_skip x) eqn:K.
  - injection H as <- <-. rewrite expand_transform_ids, K. eauto.
  - destruct (f_levels X) eqn:L; [discriminate|]. inv_bind H. injection H as <- <-. rewrite expand_transform_ids. cbn [ex_skip ex_matched]. rewrite L, E0. cbn [bind]. eauto.
Qed.

(** the same bottom rows of X give the same model *)
Lemma hierarchical_again c ob s y X ob' p m post yraw X0 : fit_data c ob s y X = (ob', Ok (p, m)) -> c_hier c = true ->
  f_levels y <> 0 -> (o_transformer ob = None \/ p_has_exogenous p = true) ->
  loc_bottom_series (match X with
                   | None => empty_frame (f_levels (aggregate keep y)) (index_of (aggregate keep y))
                   | Some X => if no_columns X then empty_frame (f_levels (aggregate keep y)) (index_of (aggregate keep y)) else X
                   end) = Ok X0 ->
  loc_bottom_series (let none := aggregate keep (empty_frame (f_levels yraw) (map fst (reindex_time_series yraw (time_ids y)))) in
                     match X with None => none | Some X => if no_columns X then none else X end) = Ok X0 ->
  incl (time_ids y) (map r_time (f_rows X0)) ->
  exists m' yb tensor ys, predict_model c ob' (mkFitted (P := P) s p post) yraw X (Absolute (time_ids y)) = Ok m' /\
    loc_bottom_series (aggregate keep y) = Ok yb /\ series_to_tensor yb = Ok tensor /\ squeeze_last (arr_of_data 1 (D3 tensor)) = Ok ys /\
    same_but_observed (transpose ys) m m'.
Proof.
  intros H Hc L HT0 HF HR HI. unfold Forecaster.fit_data in H. rewrite Hc in H. apply hierarchical_fit_inv in H.
  destruct H as (yb & tensor & X0' & X1 & X2 & ob1 & t0 & t & td & data & H).
  destruct H as (HB & HS & HX & HQ & HH & HE & HG & HTF & HO & HT & HFE & HD & HN & HIX & HSI & ->).
  assert (X0' = X0) as -> by congruence. destruct (tensor_squeezes tensor) as [ys Hys].
  unfold ForecasterSpec.predict_model. rewrite Hc. unfold hierarchical_predict_model. cbn [ft_prepared ft_scale to_absolute].
  destruct (max_time_some (map snd (p_index p))) as [cut ->].
  { rewrite HIX. pose proof (aggregate_nonempty y yb L HB) as N. destruct (index_of (aggregate keep y)); [congruence|discriminate]. }
  cbv zeta in HR. cbn [bind]. rewrite HR. cbn [bind]. destruct (run_again _ _ _ _ HQ) as [HT2 LX].
  assert (RT : run_transform tr_transform ob' X0 = Ok X1) by (subst ob'; exact HT2).
  assert (HOt : o_trend ob' = t) by now subst ob'.
  destruct (p_has_exogenous p) eqn:HX1.
  - assert (forallb (fun t => existsb (Z.eqb t) (map r_time (f_rows X0))) (time_ids y) = true) as ->.
    { apply forallb_forall. intros z Hz. apply existsb_exists. exists z. split; [now apply HI|apply Z.eqb_refl]. }
    rewrite RT. cbn [bind]. destruct HE as (ex & HE & EX). rewrite EX. cbn [attr bind]. destruct (expand_again _ _ _ _ HE) as [ex' ->]. cbn [bind].
    rewrite HOt, HT. cbn [bind]. rewrite HD. cbn [bind fst]. eexists _, yb, tensor, ys. repeat split; auto. now apply hierarchical_alike.
  - destruct HE as [-> EX]. destruct HT0 as [HT0|]; [|discriminate].
    assert (X1 = X0) as ->. { unfold run_fit_transform in HQ. rewrite HT0 in HQ. congruence. }
    cbn [bind]. rewrite HOt, HT. cbn [bind]. rewrite HD. cbn [bind fst]. eexists _, yb, tensor, ys. repeat split; auto. now apply hierarchical_alike.
Qed.

Lemma same_series {V W} (f : frame V) (g : frame W) : index_of f = index_of g -> series_ids f = series_ids g.
Proof.
  intros E. unfold series_ids. f_equal. transitivity (map fst (index_of f)); [unfold index_of; now rewrite map_map|].
  rewrite E. unfold index_of. now rewrite map_map.
Qed.
Lemma same_times {V W} (f : frame V) (g : frame W) : index_of f = index_of g -> time_ids f = time_ids g.
Proof.
  intros E. unfold time_ids. f_equal. transitivity (map snd (index_of f)); [unfold index_of; now rewrite map_map|].
  rewrite E. unfold index_of. now rewrite map_map.
Qed.

(** without columns, the frame of a prediction over the training dates is that of the fit *)
Lemma bare_bottom (y yraw : frame R) : frame_wf y -> frame_wf yraw -> f_levels y <> 0 -> f_levels y = f_levels yraw -> index_of yraw = index_of y ->
  f_rows y <> [] -> balanced yraw -> full_crossing yraw -> (forall r, In r (f_rows yraw) -> ~ In total_name (r_path r)) ->
  loc_bottom_series (aggregate keep (empty_frame (f_levels yraw) (map fst (reindex_time_series yraw (time_ids y))))) = Ok (strip (sort_index y)).
Proof.
  intros WY WR L LL IY NE [ND BA] FC NT.
  set (Z0 := empty_frame (f_levels yraw) (map fst (reindex_time_series yraw (time_ids y)))).
  assert (LZ : labels Z0 = reindex_labels yraw (time_ids y)).
  { unfold labels, Z0, empty_frame, reindex_labels. cbn [f_rows]. rewrite map_map. cbn [r_path r_time]. rewrite <- map_id. apply map_ext. now intros []. }
  assert (TI : forall t, In t (time_ids y) <-> In t (map r_time (f_rows yraw))).
  { intros t. rewrite <- (same_times yraw y IY). unfold time_ids. apply times_unique_In. }
  assert (IL : forall x, In x (labels Z0) <-> In x (labels yraw)).
  { intros [q t]. rewrite LZ, reindex_full by (auto; congruence). rewrite TI. split.
    - intros [H1 H2]. apply BA; [|assumption]. apply series_ids_In in H1 as (r & Hr & <-). now apply in_map.
    - intros H. unfold labels in H. apply in_map_iff in H as (r & E & Hr). injection E as <- <-. split.
      + unfold series_ids. apply paths_unique_In. now apply in_map.
      + now apply in_map. }
  assert (WZ : frame_wf Z0).
  { intros r Hr. assert (I : In (r_path r, r_time r) (labels Z0)) by (unfold labels; apply in_map_iff; now exists r).
    apply IL in I. unfold labels in I. apply in_map_iff in I as (r' & E & Hr'). injection E as E1 E2. split.
    - unfold Z0, empty_frame in Hr. cbn [f_rows] in Hr. apply in_map_iff in Hr as (x & <- & _). reflexivity.
    - rewrite <- E1. change (f_levels Z0) with (f_levels yraw). now apply WR. }
  assert (NZ : f_rows Z0 <> []).
  { intros E. destruct (f_rows y) as [|r l] eqn:EY; [congruence|].
    assert (I : In (r_path r, r_time r) (labels Z0)).
    { apply IL. change (labels yraw) with (index_of yraw). rewrite IY. unfold index_of. rewrite EY. now left. }
    unfold labels in I. now rewrite E in I. }
  rewrite bottom_of_aggregate_all; auto; [|change (f_levels Z0) with (f_levels yraw); congruence|].
  2:{ intros r Hr. assert (I : In (r_path r, r_time r) (labels Z0)) by (unfold labels; apply in_map_iff; now exists r).
      apply IL in I. unfold labels in I. apply in_map_iff in I as (r' & E & Hr'). injection E as E1 E2. rewrite <- E1. now apply NT. }
  f_equal. apply bare_rows; auto.
  - apply ascending_eq.
    + split; [apply (key_sorted_strong label), key_sort_sorted|]. unfold labels, sort_index. cbn [f_rows].
      eapply Permutation_NoDup; [apply (key_sort_labels (f_rows Z0))|]. change (NoDup (labels Z0)). rewrite LZ. apply reindex_NoDup.
      unfold time_ids. apply times_unique_NoDup.
    + unfold labels. rewrite strip_rows, map_map. cbn [r_path r_time]. split; [apply (key_sorted_strong label), key_sort_sorted|].
      unfold sort_index. cbn [f_rows]. eapply Permutation_NoDup; [apply (key_sort_labels (f_rows y))|]. change (NoDup (index_of y)). rewrite <- IY. exact ND.
    + intros x. unfold labels at 2. rewrite strip_rows, map_map. cbn [r_path r_time].
      transitivity (In x (labels Z0)); [split; apply Permutation_in; [symmetry|]; apply (key_sort_labels (f_rows Z0))|]. rewrite IL.
      change (labels yraw) with (index_of yraw). rewrite IY. split; apply Permutation_in; [|symmetry]; apply (key_sort_labels (f_rows y)).
  - intros r Hr. unfold sort_index in Hr. cbn [f_rows] in Hr. apply key_sort_In in Hr. unfold Z0, empty_frame in Hr. cbn [f_rows] in Hr. apply in_map_iff in Hr as (x & <- & _). reflexivity.
  - intros r Hr. rewrite strip_rows in Hr. apply in_map_iff in Hr as (x & <- & _). reflexivity.
Qed.

(** * fitted forecasters *)
Lemma c76_univariate c ob y X ob' f : fit_forecaster c ob y X = (ob', Ok f) -> c_hier c = false ->
  frame_wf y -> f_levels y = 0 -> f_rows y <> [] -> ascending (labels y) ->
  match X with None => True | Some X => frame_wf X /\ f_levels X = 0 /\ ascending (labels X) end ->
  exists ys m m', scale_y (discrete c) (ft_scale f) y = Ok ys /\ fit_data c ob (ft_scale f) ys X = (ob', Ok (ft_prepared f, m)) /\
    infer svi_run nuts_run latent_sites (engine_of c) m = Ok (ft_posterior f) /\
    predict_model c ob' f y X (Absolute (time_ids y)) = Ok m' /\
    same_but_observed (mkArr [List.length (flat_map r_vals (f_rows ys)); 1] (flat_map r_vals (f_rows ys))) m m'.
Proof.
  intros H Hc W L N A HX. apply fit_forecaster_inv in H as (s & ys & p & m & post & _ & HS & HF & HI & ->).
  destruct (scale_y_index _ _ _ _ HS) as [IX LX].
  destruct (c76_univariate_data c ob s ys X ob' p m post y HF Hc) as (m' & HP & HM); auto.
  - exact (scale_y_wf _ _ _ _ W HS).
  - congruence.
  - intros E. apply N. unfold index_of in IX. rewrite E in IX. destruct (f_rows y); [reflexivity|discriminate].
  - change (labels ys) with (index_of ys). rewrite IX. exact A.
  - rewrite (same_times ys y IX) in HP. exists ys, m, m'. auto 8.
Qed.

Lemma c76_hierarchical c ob y X ob' f Xb : fit_forecaster c ob y (Some X) = (ob', Ok f) -> c_hier c = true ->
  f_levels y <> 0 -> f_cols X <> [] -> (o_transformer ob = None \/ p_has_exogenous (ft_prepared f) = true) ->
  loc_bottom_series X = Ok Xb -> incl (map r_time (f_rows y)) (map r_time (f_rows Xb)) ->
  exists ys m m' yb tensor t, scale_y (discrete c) (ft_scale f) y = Ok ys /\ fit_data c ob (ft_scale f) ys (Some X) = (ob', Ok (ft_prepared f, m)) /\
    infer svi_run nuts_run latent_sites (engine_of c) m = Ok (ft_posterior f) /\
    predict_model c ob' f y (Some X) (Absolute (time_ids y)) = Ok m' /\
    loc_bottom_series (aggregate keep ys) = Ok yb /\ series_to_tensor yb = Ok tensor /\ squeeze_last (arr_of_data 1 (D3 tensor)) = Ok t /\
    same_but_observed (transpose t) m m'.
Proof.
  intros H Hc L NC HT HB HI0. apply fit_forecaster_inv in H as (s & ys & p & m & post & _ & HS & HF & HI & ->). cbn [ft_prepared] in HT.
  destruct (scale_y_index _ _ _ _ HS) as [IX LX].
  assert (NX : no_columns X = false) by (unfold no_columns; destruct (f_cols X); [congruence|reflexivity]).
  destruct (hierarchical_again c ob s ys (Some X) ob' p m post y Xb HF Hc) as (m' & yb & tensor & t & HP & H1 & H2 & H3 & H4); auto.
  - congruence.
  - now rewrite NX.
  - cbv zeta. now rewrite NX.
  - rewrite (same_times ys y IX). intros z Hz. unfold time_ids in Hz. apply (proj1 (times_unique_In _ _)) in Hz. now apply HI0.
  - rewrite (same_times ys y IX) in HP. exists ys, m, m', yb, tensor, t. auto 10.
Qed.

Lemma c76_bare c ob y X ob' f : fit_forecaster c ob y X = (ob', Ok f) -> c_hier c = true ->
  match X with None => True | Some X => f_cols X = [] end -> (o_transformer ob = None \/ p_has_exogenous (ft_prepared f) = true) ->
  frame_wf y -> f_levels y <> 0 -> f_rows y <> [] -> balanced y -> full_crossing y -> (forall r, In r (f_rows y) -> ~ In total_name (r_path r)) ->
  exists ys m m' yb tensor t, scale_y (discrete c) (ft_scale f) y = Ok ys /\ fit_data c ob (ft_scale f) ys X = (ob', Ok (ft_prepared f, m)) /\
    infer svi_run nuts_run latent_sites (engine_of c) m = Ok (ft_posterior f) /\
    predict_model c ob' f y X (Absolute (time_ids y)) = Ok m' /\
    loc_bottom_series (aggregate keep ys) = Ok yb /\ series_to_tensor yb = Ok tensor /\ squeeze_last (arr_of_data 1 (D3 tensor)) = Ok t /\
    same_but_observed (transpose t) m m'.
Proof.
  intros H Hc HX HT W L N B FC NT. apply fit_forecaster_inv in H as (s & ys & p & m & post & _ & HS & HF & HI & ->). cbn [ft_prepared] in HT.
  destruct (scale_y_index _ _ _ _ HS) as [IX LX]. pose proof (scale_y_wf _ _ _ _ W HS) as WS.
  assert (NS : f_rows ys <> []). { intros E. apply N. unfold index_of in IX. rewrite E in IX. destruct (f_rows y); [reflexivity|discriminate]. }
  assert (NTS : forall r, In r (f_rows ys) -> ~ In total_name (r_path r)).
  { intros r Hr. assert (I : In (r_path r, r_time r) (index_of ys)) by (unfold index_of; apply in_map_iff; now exists r).
    rewrite IX in I. unfold index_of in I. apply in_map_iff in I as (r' & E & Hr'). injection E as <- _. now apply NT. }
  assert (LS : f_levels ys <> 0) by congruence.
  assert (BS : loc_bottom_series (empty_frame (f_levels (aggregate keep ys)) (index_of (aggregate keep ys))) = Ok (strip (sort_index ys))).
  { change (loc_bottom_series (strip (aggregate keep ys)) = Ok (strip (sort_index ys))). rewrite strip_bottom, bottom_of_aggregate_all by auto. reflexivity. }
  assert (BP : loc_bottom_series (aggregate keep (empty_frame (f_levels y) (map fst (reindex_time_series y (time_ids ys))))) = Ok (strip (sort_index ys))).
  { apply bare_bottom; auto. }
  destruct (hierarchical_again c ob s ys X ob' p m post y (strip (sort_index ys)) HF Hc) as (m' & yb & tensor & t & HP & H1 & H2 & H3 & H4); auto.
  - destruct X as [X|]; [|exact BS]. unfold no_columns. rewrite HX. exact BS.
  - cbv zeta. destruct X as [X|]; [|exact BP]. unfold no_columns. rewrite HX. exact BP.
  - intros z Hz. unfold time_ids in Hz. apply (proj1 (times_unique_In _ _)) in Hz. rewrite strip_rows, map_map. cbn [r_time]. unfold sort_index. cbn [f_rows].
    apply in_map_iff in Hz as (r & <- & Hr). apply in_map. now apply key_sort_In.
  - rewrite (same_times ys y IX) in HP. exists ys, m, m', yb, tensor, t. auto 10.
Qed.
End Forecaster.
