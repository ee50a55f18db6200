(** Exogenous columns in other units: fitting and forecasting. *)
From Coq Require Import Reals Lra ZArith String Ascii Bool List Lia.
From Verif.Model Require Import Base Num XFloat Frame Arr Prog Likelihood Effect Trend TrendProg Aggregate Predict Scale Expand Forecaster.
From Verif.Spec Require Import FrameSpec ProgSpec EffectSpec ForecasterSpec SiteSpec CounterSpec RescaleSpec.
From Verif.Facts Require Import BaseFacts OrderFacts FrameFacts NumFacts ProgFacts MeanFacts LikelihoodFacts ModelProps ForecasterFacts ForecasterInv SiteFacts PosteriorFacts CounterFacts PanelBottom DensityFacts RescaleFrames RescaleEffects RescalePredict.
Import ListNotations.
Local Open Scope string_scope.

(** * The values in the new units *)
Lemma unit_unique effs name ef x : NoDup (map fst effs) -> (forall n g, In (n, g) effs -> no_slash n = true) -> In (name, ef) effs ->
  has_unit effs (name ++ "/" ++ x) -> unit_site ef = Some x.
Proof.
  intros ND NS I (n & g & z & J & U & E). apply app_inv_slash in E as [-> ->]; [|eauto|eauto].
  pose proof (dict_get_nodup _ _ _ ND I) as A. pose proof (dict_get_nodup _ _ _ ND J) as B. congruence.
Qed.

Lemma convert_converts k effs e : NoDup (map fst effs) -> (forall n g, In (n, g) effs -> no_slash n = true) -> converts k effs e (convert k effs e).
Proof.
  intros ND NS. set (q := fun n (ne : string * effect) => match unit_site (snd ne) with Some x => String.eqb n (fst ne ++ "/" ++ x) | None => false end). split.
  - intros name ef cols x I C U j. unfold convert. change (fun ne : string * effect => _) with (q (name ++ "/" ++ x)).
    destruct (find (q (name ++ "/" ++ x)) effs) as [[n g]|] eqn:F.
    + apply find_some in F as [J Q]. unfold q in Q. cbn [fst snd] in Q. destruct (unit_site g) as [z|] eqn:Ug; [|discriminate]. apply String.eqb_eq in Q.
      apply app_inv_slash in Q as [<- <-]; [|eauto|eauto]. pose proof (dict_get_nodup _ _ _ ND I) as A. pose proof (dict_get_nodup _ _ _ ND J) as B.
      assert (g = ef) as -> by congruence. now rewrite C.
    + exfalso. pose proof (find_none _ _ F _ I) as Q. unfold q in Q. cbn [fst snd] in Q. rewrite U, String.eqb_refl in Q. discriminate.
  - intros n H j. unfold convert. change (fun ne : string * effect => _) with (q n). destruct (find (q n) effs) as [[m g]|] eqn:F; [|reflexivity].
    exfalso. apply H. apply find_some in F as [J Q]. unfold q in Q. cbn [fst snd] in Q. destruct (unit_site g) as [z|] eqn:Ug; [|discriminate]. apply String.eqb_eq in Q.
    exists m, g, z. auto.
Qed.

(** * Programs *)
Lemma alike_scope (moved moved0 : string -> Prop) {A} e e' name (p p' : prog A) : (forall n, moved0 n -> moved (name ++ "/" ++ n)) ->
  evals_alike moved0 (own_env e name) (own_env e' name) p p' -> evals_alike moved e e' (scope name p) (scope name p').
Proof.
  intros M H a l E. rewrite eval_scope in E. destruct (eval (own_env e name) p) as [[b l0]|] eqn:E0; [|discriminate]. cbn [bind] in E. injection E as <- <-.
  destruct (H _ _ E0) as (l' & E' & S). rewrite eval_scope, E'. cbn [bind]. eexists. split; [reflexivity|]. clear -S M.
  induction S as [|[n s] [n' s'] l l' [N V] F IH]; cbn [map]; constructor; [|exact IH]. cbn [fst snd] in *. subst n'. split; [reflexivity|].
  unfold prefixed. cbn [fst snd]. destruct s, s'; auto. destruct V as (V1 & V2 & V3 & V4). repeat (split; [assumption|]). intros Q. apply V4. intros Z. apply Q. now apply M.
Qed.
Lemma alike_det moved {B} e e' n v (f f' : arr -> prog B) : evals_alike moved e e' (f v) (f' v) -> evals_alike moved e e' (x <~ deterministic n v ;; f x) (x <~ deterministic n v ;; f' x).
Proof.
  intros F a l H. cbn [deterministic pbind eval] in *. destruct (eval e (f v)) as [[a1 l1]|] eqn:E; [|discriminate]. cbn [bind] in H. injection H as <- <-.
  destruct (F _ _ E) as (l1' & E' & S). rewrite E'. cbn [bind]. eexists. split; [reflexivity|]. constructor; [split; reflexivity|exact S].
Qed.

Lemma alike_names moved {A} e e' (p : prog A) : (forall n, no_slash n = true -> forall j, e n j = e' n j) ->
  (forall a l, eval e p = Ok (a, l) -> forall n, In n (map fst l) -> no_slash n = true) -> evals_alike moved e e' p p.
Proof. intros H N. apply alike_same. intros a l E n d v I. apply H. apply (N _ _ E). apply in_map_iff. now exists (n, SSample d v false). Qed.

Ltac steps H := repeat (first
  [ match type of H with context [eval ?e (pbind (lift_res ?x) ?f)] => let a := fresh "a" in let E := fresh "E" in
      destruct x as [a|] eqn:E; [|discriminate H]; cbn [lift_res pbind eval bind] in H end
  | progress cbn [lift_res pbind sample observe plate eval bind] in H ]).
Lemma tail_shared c s p t td y : exists tail,
  ((forall data, model_call c s p t td y data = pbind (compute_mean (trend_predict t td) data (if c_hier c then Some (effect_fns (p_effects p)) else if p_has_exogenous p then Some (effect_fns (p_effects p)) else None)) tail) /\
   forall e m o l, eval e (tail m) = Ok (o, l) -> incl (map fst l) (tl reserved)) \/ forall data, model_call c s p t td y data = Raise KeyError.
Proof.
  unfold model_call. destruct (c_hier c) eqn:Hc.
  - unfold multivariate_model. eexists. left. split; [intros data; reflexivity|]. intros e m o l H.
    assert (Hy : exists y', eval e (if p_single p then
        std <~ sample "std_observation" (DHalfNormal (scalar (c_noise c))) [] ;; _ <~ plate "time" 1 ;;
        observe "obs" (DNormal (reshape_col m) (const_arr (a_shape (reshape_col m)) (item0 std))) (a_shape (reshape_col m)) y'
      else n <~ lift_res (shape_at m 0) ;;
        std <~ sample "std_observation" (DHalfNormal (const_arr [n] (c_noise c))) [n] ;;
        corr <~ sample "corr_matrix" (DLKJCholesky n (c_concentration c)) [n; n] ;;
        half <~ lift_res (matmul (diag std) corr) ;; cov <~ lift_res (matmul half (diag std)) ;;
        t <~ lift_res (shape_at m 1) ;; _ <~ plate "time" (last (a_shape m) 0) ;;
        loc <~ lift_res (squeeze_last m) ;;
        observe "obs" (DMvNormal (transpose loc) (tile0 t cov)) (1 :: a_shape (transpose loc)) y') = Ok (o, l)).
    { destruct y as [ya|]; cbn [pbind] in H; [|eexists; exact H]. destruct (squeeze_last ya) as [sq|]; cbn [lift_res pbind] in H; [|discriminate]. eexists. exact H. }
    clear H. destruct Hy as (y' & H). destruct (p_single p) eqn:Hs; steps H; injection H as <- <-; intros x Ix; simpl in Ix; unfold reserved; simpl; tauto.
  - destruct (String.eqb (c_likelihood c) "normal"); [|destruct (String.eqb (c_likelihood c) "gamma"); [|destruct (String.eqb (c_likelihood c) "negbinomial"); [|exists (fun _ => Raise KeyError); now right]]].
    all: unfold univariate_model, univariate_gamma_model, univariate_negbinomial_model; eexists; left; split; [intros data; reflexivity|]; intros e m o l H; steps H; injection H as <- <-;
      intros x Ix; simpl in Ix; unfold reserved; simpl; tauto.
Qed.

Section Runs.
Variables (k : string -> R) (c : config) (s : scale) (p : prepared) (t : trend) (td td' : tdata) (y : option arr) (data data' : dict edata).
Hypothesis HX : c_hier c = false -> p_has_exogenous p = true.
Hypothesis ND : NoDup (map fst (p_effects p)).
Hypothesis HC : forall n ef, In (n, ef) (p_effects p) -> free_name n /\ unnested ef.
Hypothesis HT : (forall ef, t <> TEffect ef) -> td' = td.
Hypothesis HD : dict_units k (p_effects p) data data'.
Hypothesis HU : units_fit k (p_effects p).
Variables e e' : env.
Hypothesis HE : converts k (p_effects p) e e'.
Notation moved := (has_unit (p_effects p)).

Let slash : forall n g, In (n, g) (p_effects p) -> no_slash n = true.
Proof. intros n g I. exact (proj1 (proj1 (HC _ _ I))). Qed.
Let plain : forall n, no_slash n = true -> forall j, e n j = e' n j.
Proof.
  intros n N j. symmetry. apply (proj2 HE). intros (a & b & x & _ & _ & ->). rewrite app_slash_has in N. discriminate.
Qed.

Lemma dict_get_keys {V W} (d : dict V) (d' : dict W) n : map fst d = map fst d' -> dict_get d n = None -> dict_get d' n = None.
Proof.
  revert d'. induction d as [|[a b] d IH]; intros [|[a' b'] d'] H; try discriminate; [auto|]. cbn [map fst] in H. injection H as -> H. cbn [dict_get].
  destruct (String.eqb n a'); [discriminate|]. now apply IH.
Qed.

Lemma alike_effects effs : incl effs (p_effects p) -> forall mp, evals_alike moved e e' (apply_effects data mp (effect_fns effs)) (apply_effects data' mp (effect_fns effs)).
Proof.
  induction effs as [|[name ef] effs IH]; intros IN mp.
  { intros a l [= <- <-]. exists []. split; [reflexivity|constructor]. }
  cbn [effect_fns map apply_effects fst snd]. apply alike_bind; [|intros a; apply IH; intros z Iz; apply IN; now right]. clear IH.
  assert (I : In (name, ef) (p_effects p)) by (apply IN; now left). destruct mp as [mean pd]. unfold apply_effect.
  unfold dict_item. destruct (dict_get data name) as [x|] eqn:D; [|intros a l; discriminate].
  destruct (dict_get data' name) as [x'|] eqn:D'. 2:{ apply (dict_get_keys _ data) in D'; [congruence|]. symmetry. exact (proj1 HD). }
  cbn [lift_res pbind]. destruct (proj2 HD _ _ _ D D') as (ef2 & cols & G & C & U). rewrite (dict_get_nodup _ _ _ ND I) in G. injection G as <-.
  apply alike_bind.
  - apply (alike_scope _ (fun n => unit_site ef = Some n)); [intros n H; exists name, ef, n; auto|].
    apply (predict_units k _ _ _ cols); [exact U|exact (proj1 HU)|exact (proj2 HU _ _ _ I C)| |].
    + intros n H j. unfold own_env. apply (proj2 HE). intros Q. apply H. now apply (unit_unique (p_effects p) name).
    + intros n H j. unfold own_env. exact (proj1 HE _ _ _ _ I C H j).
  - intros v. apply alike_det. apply alike_bind; [apply alike_lift|]. intros w a l [= <- <-]. exists []. split; [reflexivity|constructor].
Qed.

Lemma alike_model : evals_alike moved e e' (model_call c s p t td y (Some data)) (model_call c s p t td' y (Some data')).
Proof.
  intros o l E.
  assert (NT : forall ef, t <> TEffect ef).
  { intros ef ->. destruct (tail_shared c s p (TEffect ef) td y) as (tail & [(M & _)|M]); [|rewrite M in E; discriminate]. rewrite M in E.
    apply eval_split in E as (m & l1 & l2 & E1 & _ & _). unfold compute_mean in E1. apply eval_split in E1 as (tv & lt & l3 & E1 & _ & _).
    assert (Y : yields e (trend_predict (TEffect ef) td) tv) by (apply eval_yields; eauto). destruct td; cbn [trend_predict] in Y; try (now inversion Y). exact (effect_trend_fails _ _ _ _ Y). }
  rewrite (HT NT). revert o l E. change (evals_alike moved e e' (model_call c s p t td y (Some data)) (model_call c s p t td y (Some data'))).
  destruct (tail_shared c s p t td y) as (tail & [(M & K)|M]); [|rewrite M; intros o l; discriminate]. rewrite !M. apply alike_bind.
  - assert (EF : (if c_hier c then Some (effect_fns (p_effects p)) else if p_has_exogenous p then Some (effect_fns (p_effects p)) else None) = Some (effect_fns (p_effects p))).
    { destruct (c_hier c); [reflexivity|]. now rewrite (HX eq_refl). }
    rewrite EF. unfold compute_mean. apply alike_bind.
    + apply alike_names; [exact plain|]. intros a l E n I. assert (Y : yields e (trend_predict t td) a) by (apply eval_yields; eauto).
      apply trend_clean in Y as [_ Y]. rewrite (actions_eval _ _ _ _ E) in Y. apply Y in I. unfold trend_sites in I. simpl in I. intuition (subst; reflexivity).
    + intros a. apply alike_det. destruct (effect_fns (p_effects p)) eqn:Q; [intros z l [= <- <-]; exists []; split; [reflexivity|constructor]|]. rewrite <- Q. apply alike_bind; [apply alike_effects; apply incl_refl|].
      intros b z l [= <- <-]. exists []. split; [reflexivity|constructor].
  - intros m. apply alike_names; [exact plain|]. intros a l E n I. apply (K _ _ _ _ E) in I. unfold reserved in I. simpl in I. intuition (subst; reflexivity).
Qed.

Lemma same_names l l' : Forall2 (same_site moved) l l' -> map fst l' = map fst l.
Proof. induction 1 as [|a b l l' [N _] F IH]; [reflexivity|]. cbn [map]. now rewrite IH, N. Qed.

Lemma run_units o tr : run e [] (model_call c s p t td y (Some data)) = Ok (o, tr) ->
  exists tr', run e' [] (model_call c s p t td' y (Some data')) = Ok (o, tr') /\ same_run moved tr tr'.
Proof.
  intros R. assert (Y : yields e (model_call c s p t td y (Some data)) o) by (apply run_eval in R as (l0 & E0 & _); apply eval_yields; eauto).
  pose proof (model_sites _ _ _ _ _ _ _ _ _ HX ND HC Y) as N. destruct (run_nodup_trace _ _ _ _ R N) as (L & EL & -> & NL).
  destruct (alike_model _ _ EL) as (L' & EL' & S). exists L'. split; [|exact S]. apply run_eval. exists L'. split; [exact EL'|].
  apply record_all_fresh. simpl. rewrite (same_names _ _ S). exact NL.
Qed.
End Runs.

(** * Trends *)
Lemma units_trend_fit ns_of order k X X' t y sc : units_of k X X' -> trend_fit ns_of order t (Some X) y sc = trend_fit ns_of order t (Some X') y sc.
Proof. intros H. destruct t; cbn [trend_fit]; rewrite ?(units_seen _ _ _ H); [reflexivity|reflexivity|]. now rewrite (units_fit_effect order _ _ _ _ _ H). Qed.
Lemma units_trend ns_of k X X' t fh : units_of k X X' ->
  match trend_transform ns_of t X fh, trend_transform ns_of t X' fh with
  | Ok a, Ok a' => (forall ef, t <> TEffect ef) -> a' = a | Err x, Err x' => x = x' | _, _ => False end.
Proof.
  intros H. assert (R : forall b, units_res k (trend_rows b X fh) (trend_rows b X' fh)).
  { intros b. unfold trend_rows. destruct (attr (b_fitted b)) as [f|]; [|reflexivity]. cbn [bind]. destruct (negb f); [reflexivity|]. destruct (attr (b_cols b)) as [cs|]; [|reflexivity]. cbn [bind].
    apply units_select. now apply units_fh. }
  destruct t as [ps c b f|sc b loc|ef]; cbn [trend_transform].
  - specialize (R b). unfold units_res in R. destruct (trend_rows b X fh), (trend_rows b X' fh); try contradiction; cbn [bind]; [|exact R]. destruct (attr f); cbn [bind]; [reflexivity|reflexivity].
  - specialize (R b). unfold units_res in R. destruct (trend_rows b X fh), (trend_rows b X' fh); try contradiction; cbn [bind]; [|exact R]. intros _. unfold flat_transform. destruct R as (_ & _ & R). now rewrite (Forall2_len _ _ _ R).
  - pose proof (units_transform k X X' fh ef H) as T. destruct (transform ef (Some X) fh), (transform ef (Some X') fh); try contradiction; cbn [bind]; [|exact T]. intros N. now destruct (N ef).
Qed.

Lemma aggregate_rect keep f : rectangular f -> rectangular (aggregate keep f).
Proof.
  intros W. unfold aggregate. destruct (f_levels f); [exact W|]. unfold rectangular in *. cbn [f_rows f_cols]. rewrite Forall_forall in *. intros r I. apply key_sort_In, in_app_iff in I as [I|I].
  - apply in_flat_map in I as (q & _ & I). apply in_map_iff in I as (z & <- & _). cbn [r_vals]. unfold sum_vals. now rewrite map_length, seq_length.
  - apply filter_In in I as [I _]. now apply W.
Qed.

(** * Forecasters *)
Section Forecasters.
Context {Tr Post : Type}.
Variable ns_of : Z -> Z.
Variable order : list string -> list string.
Variable keep : path -> bool.
Variable tr_fit_transform : Tr -> frame R -> Tr * res (frame R).
Variable tr_transform : Tr -> frame R -> res (frame R).
Notation fit_data := (fit_data ns_of order keep tr_fit_transform).
Notation predict_model := (predict_model ns_of keep tr_transform).

Lemma same_programs_intro k c s p t td td' y data data' :
  (c_hier c = false -> p_has_exogenous p = true) -> NoDup (map fst (p_effects p)) -> (forall n ef, In (n, ef) (p_effects p) -> free_name n /\ unnested ef) ->
  ((forall ef, t <> TEffect ef) -> td' = td) -> dict_units k (p_effects p) data data' -> units_fit k (p_effects p) ->
  same_programs k (p_effects p) (model_call c s p t td y (Some data)) (model_call c s p t td' y (Some data')).
Proof.
  intros HX ND HC HT HD HU e o tr R. apply (run_units k c s p t td td' y data data' HX ND HC HT HD HU e); [|exact R].
  apply convert_converts; [exact ND|]. intros n g I. exact (proj1 (proj1 (HC _ _ I))).
Qed.

Lemma fit_units k c ob s y X ob' p m : fit_data c ob s y (Some X) = (ob', Ok (p, m)) -> clean_config c -> o_transformer ob = None ->
  rectangular X -> units_fit k (p_effects p) -> (c_hier c = true -> copies_alike k) ->
  exists m', fit_data c ob s y (Some (in_units k X)) = (ob', Ok (p, m')) /\ same_programs k (p_effects p) m m'.
Proof.
  intros H CC NT W HU KC. destruct (fit_effects_clean _ _ _ _ _ _ _ _ _ _ _ _ H CC) as (ND & HC & HX). pose proof (units_intro k X W) as U.
  unfold Forecaster.fit_data in *. destruct (c_hier c) eqn:Hc.
  - apply hierarchical_fit_inv in H as (yb & tensor & X0 & X1 & X2 & ob1 & t0 & t & td & data & H1 & H2 & H3 & H4 & H5 & H6 & H7 & H8 & -> & H9 & H10 & H11 & H12 & H13 & H14 & ->).
    unfold run_fit_transform in H4. rewrite NT in H4. injection H4 as <- <-.
    unfold hierarchical_fit_data. rewrite H1, H2. rewrite <- (units_no_columns _ _ _ U).
    assert (U0 : units_of k (if no_columns X then empty_frame (f_levels (aggregate keep y)) (index_of (aggregate keep y)) else X)
      (if no_columns X then empty_frame (f_levels (aggregate keep y)) (index_of (aggregate keep y)) else in_units k X)).
    { destruct (no_columns X); [apply units_empty|exact U]. }
    pose proof (units_bottom k _ _ U0) as B. unfold units_res in B. rewrite H3 in B. cbv zeta.
    destruct (loc_bottom_series (if no_columns X then _ else in_units k X)) as [X0'|]; [|contradiction].
    unfold run_fit_transform. rewrite NT. rewrite <- (units_no_columns _ _ _ B), <- H5.
    assert (E : exists X2', (if p_has_exogenous p then '(X3, ex) <- expand_bottom 0%R (fun _ => false) order (match c_shared c with None => [] | Some l => l end) X0' ;; Ok (X3, Some ex) else Ok (X0', None))
       = Ok (X2', p_expander p) /\ units_of k X2 X2').
    { destruct (p_has_exogenous p).
      - destruct H6 as (ex & E1 & E2). pose proof (units_expand_bottom order k (match c_shared c with None => [] | Some l => l end) _ _ (KC eq_refl) B) as Q. rewrite E1 in Q. unfold expand_res in Q.
        destruct (expand_bottom _ _ _ _ X0') as [[X2' ex']|]; [|contradiction]. destruct Q as [Q <-]. exists X2'. rewrite E2. auto.
      - destruct H6 as [-> ->]. eauto. }
    destruct E as (X2' & E & U2). rewrite E, H7. rewrite <- (units_trend_fit _ _ _ _ _ _ _ _ U2), H8.
    pose proof (units_trend ns_of k _ _ t (time_ids y) U2) as T. rewrite H9 in T. destruct (trend_transform ns_of t X2' _) as [td'|]; [|contradiction]. cbn [bind].
    rewrite <- (units_fit_effects order _ _ _ _ _ _ U2), H10. cbn [bind].
    pose proof (units_transform_effects k _ _ _ _ (time_ids y) U2 H12) as D. rewrite H11 in D. destruct (transform_effects _ X2' _) as [data'|]; [|contradiction]. cbn [bind]. rewrite H12. cbn [bind].
    assert (P : mkPrepared (index_of (aggregate keep y)) (p_fitted p) (p_effects p) (p_has_exogenous p) (p_expander p) (Nat.eqb (n_series (f_levels (aggregate keep y)) (index_of (aggregate keep y))) 1) = p).
    { rewrite <- H14, <- H13. now destruct p. }
    rewrite P, ?NT. eexists. split; [reflexivity|]. apply same_programs_intro; auto. rewrite Hc. discriminate.
  - apply univariate_fit_inv in H as (t0 & t & yt & X1 & Xe & td & data & H1 & H2 & H3 & H4 & H5 & _ & H6 & H7 & H8 & H9 & H10 & ->).
    unfold run_fit_transform in H4. cbn [o_transformer] in H4. rewrite NT in H4. injection H4 as <- <-.
    unfold univariate_fit_data. rewrite H1, H2. rewrite <- (units_trend_fit _ _ _ _ _ _ _ _ U), H3. unfold run_fit_transform. cbn [o_transformer]. rewrite NT. cbn [bind].
    pose proof (units_loc k _ _ (index_of y) U) as B. unfold units_res in B. rewrite H5 in B. destruct (loc_index (in_units k X) _) as [X2'|]; [|contradiction]. cbn [bind o_trend] in *.
    pose proof (units_trend ns_of k _ _ t (time_ids y) B) as T. rewrite H6 in T. destruct (trend_transform ns_of t X2' _) as [td'|]; [|contradiction]. cbn [bind].
    rewrite <- (units_fit_effects order _ _ _ _ _ _ B), H7. cbn [bind].
    pose proof (units_transform_effects k _ _ _ _ (time_ids y) B H9) as D. rewrite H8 in D. destruct (transform_effects _ X2' _) as [data'|]; [|contradiction]. cbn [bind]. rewrite H9. cbn [bind].
    rewrite truthy_invert. rewrite <- H10. eexists. split; [reflexivity|]. apply same_programs_intro; auto.
Qed.

Lemma predict_units_of k c ob (f f' : fitted (P := Post)) y X fh m :
  ft_scale f' = ft_scale f -> ft_prepared f' = ft_prepared f ->
  predict_model c ob f y (Some X) fh = Ok m -> o_transformer ob = None -> rectangular X ->
  (c_hier c = false -> p_has_exogenous (ft_prepared f) = true) -> NoDup (map fst (p_effects (ft_prepared f))) -> (forall n ef, In (n, ef) (p_effects (ft_prepared f)) -> free_name n /\ unnested ef) ->
  non_skipped (p_fitted (ft_prepared f)) = Ok (p_effects (ft_prepared f)) ->
  units_fit k (p_effects (ft_prepared f)) -> (c_hier c = true -> copies_alike k) ->
  exists m', predict_model c ob f' y (Some (in_units k X)) fh = Ok m' /\ same_programs k (p_effects (ft_prepared f)) m m'.
Proof.
  intros ES EP H NT W HX ND HC NS HU KC. pose proof (units_intro k X W) as U. unfold ForecasterSpec.predict_model in *. destruct (c_hier c) eqn:Hc.
  - inv_bind H. injection H as <-. unfold hierarchical_predict_model in *. rewrite EP, ES. do 3 inv_bind E. destruct x2 as [Xb ex]. repeat inv_bind E. injection E as <-. cbn [fst bind].
    rewrite <- (units_no_columns _ _ _ U).
    set (none := aggregate keep (empty_frame (f_levels y) (map fst (reindex_time_series y (to_absolute x0 fh))))) in *.
    assert (U0 : units_of k (if no_columns X then none else X) (if no_columns X then none else in_units k X)).
    { destruct (no_columns X); [|exact U]. apply units_no_cols; [|unfold none; rewrite (proj2 (PanelBottom.aggregate_levels _ _)); reflexivity].
      unfold none. apply aggregate_rect. unfold rectangular, empty_frame. cbn [f_rows f_cols]. apply Forall_forall. intros r I. apply in_map_iff in I as ((q & z) & <- & _). reflexivity. }
    pose proof (units_bottom k _ _ U0) as B. unfold units_res in B. rewrite E1 in B. cbv zeta.
    destruct (loc_bottom_series (if no_columns X then none else in_units k X)) as [X0'|]; [|contradiction]. cbn [bind].
    assert (E : exists Xb', (if p_has_exogenous (ft_prepared f) then
        if forallb (fun t => existsb (Z.eqb t) (map r_time (f_rows X0'))) (to_absolute x0 fh) then
          Xb <- run_transform tr_transform ob X0' ;; ex <- attr (p_expander (ft_prepared f)) ;; '(Xb, ex) <- expand_transform 0%R (fun _ => false) ex Xb ;; Ok (Xb, Some ex)
        else Err AssertionError
      else Ok (X0', p_expander (ft_prepared f))) = Ok (Xb', ex) /\ units_of k Xb Xb').
    { destruct (p_has_exogenous (ft_prepared f)); [|injection E2 as <- <-; eauto]. rewrite <- (units_times _ _ _ B). destruct (forallb _ _); [|discriminate].
      unfold run_transform in *. rewrite NT in *. cbn [bind] in *. destruct (attr (p_expander (ft_prepared f))) as [ex0|]; [|discriminate]. cbn [bind] in *.
      pose proof (units_expand k ex0 _ _ (KC eq_refl) B) as Q. unfold expand_res in Q. destruct (expand_transform _ _ ex0 x1) as [[B1 ex1]|]; [|discriminate]. cbn [bind] in E2. injection E2 as <- <-.
      destruct (expand_transform _ _ ex0 X0') as [[B1' ex1']|]; [|contradiction]. destruct Q as [Q <-]. cbn [bind]. eauto. }
    destruct E as (Xb' & E & U2). rewrite E. cbn [bind].
    pose proof (units_trend ns_of k _ _ (o_trend ob) (to_absolute x0 fh) U2) as T. rewrite E3 in T. destruct (trend_transform ns_of (o_trend ob) Xb' _) as [td'|]; [|contradiction]. cbn [bind].
    pose proof (units_transform_effects k _ _ _ _ (to_absolute x0 fh) U2 NS) as D. rewrite E4 in D. destruct (transform_effects _ Xb' _) as [data'|]; [|contradiction]. cbn [bind fst].
    eexists. split; [reflexivity|]. apply same_programs_intro; auto. rewrite Hc. discriminate.
  - unfold univariate_predict_model in *. rewrite EP, ES. do 3 inv_bind H. rewrite (HX eq_refl) in *. inv_bind H. inv_bind E2. injection E2 as <-. injection H as <-. cbn [bind].
    unfold run_transform in *. rewrite NT in *. injection E0 as <-. cbn [bind].
    pose proof (units_trend ns_of k _ _ (o_trend ob) (to_absolute x fh) U) as T. rewrite E1 in T. destruct (trend_transform ns_of (o_trend ob) (in_units k X) _) as [td'|]; [|contradiction]. cbn [bind].
    pose proof (units_transform_effects k _ _ _ _ (to_absolute x fh) U NS) as D. rewrite E3 in D. destruct (transform_effects _ (in_units k X) _) as [data'|]; [|contradiction]. cbn [bind].
    eexists. split; [reflexivity|]. apply same_programs_intro; auto.
Qed.

(** ** Through [fit] *)
Variable svi_run : Z -> nat -> nat -> prog arr -> res (list xr * Post).
Variable nuts_run : Z -> nat -> nat -> nat -> prog arr -> res (nat -> nat -> env).
Variable latent_sites : prog arr -> list string.
Notation fit_forecaster := (fit_forecaster ns_of order keep tr_fit_transform svi_run nuts_run latent_sites).

Lemma fitted_plain c ob s y X ob' p m : fit_data c ob s y X = (ob', Ok (p, m)) -> o_transformer ob = None ->
  o_transformer ob' = None /\ non_skipped (p_fitted p) = Ok (p_effects p).
Proof.
  unfold Forecaster.fit_data. destruct (c_hier c); intros H NT.
  - apply hierarchical_fit_inv in H as (yb & tensor & X0 & X1 & X2 & ob1 & t0 & t & td & data & H1 & H2 & H3 & H4 & H5 & H6 & H7 & H8 & -> & H9 & H10 & H11 & H12 & _).
    unfold run_fit_transform in H4. rewrite NT in H4. injection H4 as <- _. auto.
  - apply univariate_fit_inv in H as (t0 & t & yt & X1 & Xe & td & data & H1 & H2 & H3 & H4 & H5 & _ & H6 & H7 & H8 & H9 & _).
    unfold run_fit_transform in H4. cbn [o_transformer] in H4. rewrite NT in H4. injection H4 as <- _. auto.
Qed.

Lemma c101_predict k c ob y X0 ob' (f : fitted (P := Post)) ob'' f' : fit_forecaster c ob y X0 = (ob', Ok f) ->
  fit_forecaster c ob y (option_map (in_units k) X0) = (ob'', Ok f') -> clean_config c -> o_transformer ob = None ->
  (forall X, X0 = Some X -> rectangular X) -> units_fit k (p_effects (ft_prepared f)) -> (c_hier c = true -> copies_alike k) ->
  forall y2 X fh m, predict_model c ob' f y2 (Some X) fh = Ok m -> rectangular X ->
  exists m', predict_model c ob'' f' y2 (Some (in_units k X)) fh = Ok m' /\ same_programs k (p_effects (ft_prepared f)) m m'.
Proof.
  intros H H' CC NT W HU KC y2 X fh m Hm WX. pose proof (forecaster_clean _ _ _ _ _ _ _ _ _ _ _ _ _ H CC) as (ND & HC & HX).
  unfold Forecaster.fit_forecaster in H, H'. destruct (s <- set_y_scales (c_scale c) y ;; _) as [[s ys]|]; [|discriminate].
  destruct (fit_data c ob s ys X0) as [ob1 [[p m1]|]] eqn:F; [|discriminate]. cbn [bind] in H. injection H as <- H. inv_bind H. injection H as <-. cbn [ft_prepared] in *.
  destruct (fitted_plain _ _ _ _ _ _ _ _ F NT) as [NT' NS].
  assert (Q : exists m1', fit_data c ob s ys (option_map (in_units k) X0) = (ob1, Ok (p, m1'))).
  { destruct X0 as [X0|]; [|exists m1; exact F]. destruct (fit_units k _ _ _ _ _ _ _ _ F CC NT (W _ eq_refl) HU KC) as (m1' & F' & _). eauto. }
  destruct Q as (m1' & F'). rewrite F' in H'. cbn [bind] in H'. injection H' as <- H'. inv_bind H'. injection H' as <-.
  exact (predict_units_of k c ob1 (mkFitted s p x) (mkFitted s p x0) y2 X fh m eq_refl eq_refl Hm NT' WX HX ND HC NS HU KC).
Qed.
End Forecasters.

(** * Back *)
Lemma in_units_back k X : rectangular X -> (forall c, k c <> 0%R) -> in_units (fun c => / k c)%R (in_units k X) = X.
Proof.
  intros W K. destruct X as [lv cols rows]. unfold in_units. cbn [f_levels f_cols f_rows]. f_equal. rewrite map_map. unfold rectangular in W. cbn [f_rows f_cols] in W.
  induction W as [|[pt z vs] rows L F IH]; [reflexivity|]. cbn [map r_path r_time r_vals] in *. rewrite IH. do 2 f_equal. clear -L K.
  revert vs L. unfold scale_vals. induction cols as [|c cols IHc]; intros [|v vs] L; try discriminate; [reflexivity|]. cbn [map combine fst snd]. f_equal.
  - field. apply K. - apply IHc. now injection L.
Qed.
Lemma converted_back k ef cols j v : (forall c, k c <> 0%R) -> converted (fun c => / k c)%R ef cols j (converted k ef cols j v) = v.
Proof. intros K. induction ef; cbn [converted]; auto; field; apply K. Qed.
Lemma convert_back k effs e n j : (forall c, k c <> 0%R) -> convert (fun c => / k c)%R effs (convert k effs e) n j = e n j.
Proof. intros K. unfold convert. destruct (find _ effs) as [[m g]|]; [|reflexivity]. destruct (input_feature_column_names g) as [cols|]; [|reflexivity]. now apply converted_back. Qed.
