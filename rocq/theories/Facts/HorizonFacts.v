(** What a prediction reads of the exogenous data: the rows of the horizon. *)
From Coq Require Import Reals String Bool ZArith List Lia.
From Verif.Model Require Import Base Num XFloat Regex Frame Arr Expand Aggregate Scale Predict Prog Likelihood Trend Effect
  TrendProg Engine Forecaster History.
From Verif.Spec Require Import FrameSpec ProgSpec EffectSpec ForecasterSpec.
From Verif.Facts Require Import BaseFacts NumFacts FrameFacts EffectFacts EffectFourier ExpandFacts ForecasterFacts ForecasterInv ForecasterProps UnitsFacts.
Import ListNotations.
Local Open Scope string_scope.

(** * selection and filtering *)
Lemma filter_twice {A} (p : A -> bool) l : filter p (filter p l) = filter p l.
Proof. induction l as [|x l IH]; [reflexivity|]. simpl. destruct (p x) eqn:E; [simpl; rewrite E; congruence|exact IH]. Qed.
Lemma filter_fh_twice {V} fh (X : frame V) : filter_fh fh (filter_fh fh X) = filter_fh fh X.
Proof. unfold filter_fh, filter_rows. cbn [f_levels f_cols f_rows]. now rewrite filter_twice. Qed.
Lemma filter_map_comm {A B} (p : B -> bool) (q : A -> bool) (g : A -> B) l : (forall x, In x l -> p (g x) = q x) -> filter p (map g l) = map g (filter q l).
Proof.
  induction l as [|x l IH]; intros H; [reflexivity|]. simpl. rewrite H by now left. rewrite IH by (intros z Hz; apply H; now right). now destruct (q x).
Qed.
Lemma select_filter (X : frame R) fh cols :
  select_columns 0%R (filter_fh fh X) cols = (XC <- select_columns 0%R X cols ;; Ok (filter_fh fh XC)).
Proof.
  unfold select_columns. change (f_cols (filter_fh fh X)) with (f_cols X). destruct (mapM _ cols) as [pos|]; [|reflexivity]. cbn [bind].
  f_equal. unfold filter_fh, filter_rows. cbn [f_levels f_cols f_rows]. f_equal. symmetry. apply filter_map_comm. reflexivity.
Qed.
Lemma transform_filter e (X : frame R) fh : transform e (Some X) fh = transform e (Some (filter_fh fh X)) fh.
Proof.
  unfold transform. destruct (attr _) as [[]|]; cbn [bind negb]; auto. destruct (should_skip_predict e) as [[]|]; cbn [bind]; auto.
  destruct (input_feature_column_names e); cbn [bind]; auto. now rewrite filter_fh_twice.
Qed.

(** the effects *)
Definition same_seen (cols : list string) (fh : list Z) (X X' : frame R) : Prop :=
  f_levels X = f_levels X' /\ seen cols fh X = seen cols fh X'.
Lemma transform_effects_seen fitted fh (X X' : frame R) : frame_wf X -> frame_wf X' ->
  (forall f, In f fitted -> same_seen (fe_cols f) fh X X') -> transform_effects fitted X fh = transform_effects fitted X' fh.
Proof.
  intros W W' H. unfold transform_effects. generalize (@nil (string * edata)). induction fitted as [|[[n e] cols] l IH]; intros acc; [reflexivity|].
  cbn [foldM]. assert (E : (XC <- select_columns 0%R X cols ;; d <- transform e (Some XC) fh ;; Ok (dict_set acc n d)) =
                           (XC <- select_columns 0%R X' cols ;; d <- transform e (Some XC) fh ;; Ok (dict_set acc n d))).
  { destruct (H (n, e, cols)) as [L S]; [now left|]. cbn [fe_cols snd] in S.
    pose proof (select_as_seen X fh cols W) as A. pose proof (select_as_seen X' fh cols W') as A'. rewrite <- S, <- L, <- A in A'. rewrite !select_filter in A'.
    destruct (select_columns 0%R X cols) as [XC|] eqn:EX; destruct (select_columns 0%R X' cols) as [XC'|] eqn:EX'; cbn [bind] in *; try discriminate; [|congruence].
    rewrite (transform_filter e XC), (transform_filter e XC'). injection A' as A'. assert (AA : filter_fh fh XC' = filter_fh fh XC).
    { unfold filter_fh, filter_rows. congruence. }
    now rewrite AA. }
  destruct (should_skip_predict e) as [[]|]; cbn [bind]; [apply IH; intros f Hf; apply H; now right| |reflexivity].
  rewrite E. destruct (select_columns 0%R X' cols); cbn [bind]; [|reflexivity]. destruct (transform e _ fh); cbn [bind]; [|reflexivity].
  apply IH. intros f Hf. apply H. now right.
Qed.

(** subsets of columns *)
Lemma seen_subset (T cols : list string) fh (X X' : frame R) rows : seen T fh X = Some rows -> seen T fh X' = Some rows ->
  (forall c, In c cols -> In c T) -> seen cols fh X = seen cols fh X'.
Proof.
  unfold seen. destruct (forallb _ T) eqn:F; [|discriminate]. intros [= H]. destruct (forallb _ T) eqn:F' in |- *; [|discriminate]. intros [= H'] S.
  rewrite forallb_forall in F, F'.
  assert (forallb (fun c => str_in c (f_cols X)) cols = true) as -> by (apply forallb_forall; auto).
  assert (forallb (fun c => str_in c (f_cols X')) cols = true) as -> by (apply forallb_forall; auto). f_equal.
  rewrite <- H' in H. clear H' rows F F'. revert H. generalize (filter (fun r => if in_dec Z.eq_dec (r_time r) fh then true else false) (f_rows X)).
  generalize (filter (fun r => if in_dec Z.eq_dec (r_time r) fh then true else false) (f_rows X')).
  intros l' l. revert l'. induction l as [|r l IH]; intros [|r' l'] H; try discriminate; [reflexivity|]. cbn [map] in *. injection H as Hp Ht Hv Hl.
  f_equal; [|auto]. rewrite Hp, Ht. f_equal. apply map_ext_in. intros c Hc. apply S in Hc. clear - Hv Hc. induction T as [|d T IH]; [contradiction|].
  cbn [map] in Hv. injection Hv as H1 H2. destruct Hc as [<-|Hc]; auto.
Qed.

(** * the trend *)
Section Trend.
Variable ns_of : Z -> Z.
Variable order : list string -> list string.
Lemma trend_rows_seen b T fh (X X' : frame R) : b_cols b = Some T -> frame_wf X -> frame_wf X' -> same_seen T fh X X' ->
  trend_rows b X fh = trend_rows b X' fh.
Proof.
  intros B W W' [L S]. unfold trend_rows. destruct (attr (b_fitted b)) as [[]|]; cbn [bind negb]; auto. rewrite B. cbn [attr bind].
  rewrite !select_as_seen by assumption. now rewrite S, L.
Qed.
Lemma trend_transform_seen t0 X0 y s t fh (X X' : frame R) : trend_fit ns_of order t0 X0 y s = (t, None) -> frame_wf X -> frame_wf X' ->
  same_seen (columns_seen X0) fh X X' -> trend_transform ns_of t X fh = trend_transform ns_of t X' fh.
Proof.
  intros F W W' S. destruct t0 as [p cap b f|ps b loc|e]; cbn [trend_fit] in F.
  - destruct (piecewise_fit ns_of p y) as [f'|]; [|discriminate]. injection F as <-. cbn [trend_transform].
    rewrite (trend_rows_seen _ (columns_seen X0) fh X X'); auto.
  - injection F as <-. cbn [trend_transform]. rewrite (trend_rows_seen _ (columns_seen X0) fh X X'); auto.
  - destruct (fit order e X0 s) as [e' err] eqn:E. injection F as <- ->. cbn [trend_transform]. destruct S as [L S].
    now rewrite (fitted_transform_seen _ _ _ _ _ _ X X' E W W' L S).
Qed.
End Trend.

(** columns of the fitted effects *)
Lemma fitted_columns order default effects (X : frame R) s fitted f c : fit_effects order default effects (Some X) s = Ok fitted ->
  In f fitted -> In c (fe_cols f) -> In c (f_cols X).
Proof.
  intros H Hf Hc. apply fit_effects_inv in H as (main & dflt & -> & M & D). apply in_app_or in Hf as [Hf|Hf].
  - apply Forall2_In_both in M as [_ M]. destruct (M f Hf) as (l & _ & _ & Q & _). now apply Q.
  - destruct D as [[-> _]|(g & -> & _ & _ & Q & _)]; [contradiction|]. destruct Hf as [<-|[]]. apply Q in Hc. apply Hc.
Qed.

(** * expansion, for given series *)
Definition expand_ids (matched : list string) (ids : list path) (X : frame R) : res (frame R) :=
  X2 <- copy_columns 0%R (fun _ => false) matched ids X (add_zero_columns 0%R matched ids X) ;; Ok (drop_columns X2 matched).
Lemma expand_transform_ids e (X : frame R) : expand_transform 0%R (fun _ => false) e X =
  if ex_skip e then Ok (X, e)
  else match f_levels X with
  | 0 => Err ValueError
  | _ => X' <- expand_ids (ex_matched e) (series_ids X) X ;;
         Ok (X', mkExpander false (ex_matched e) (ex_ids e)
            (dict_of_list (flat_map (fun i => map (fun c => (get_col_name c i, c)) (ex_matched e)) (series_ids X))))
  end.
Proof.
  unfold expand_transform, expand_ids. destruct (ex_skip e); [reflexivity|]. destruct (f_levels X); [reflexivity|].
  destruct (copy_columns _ _ _ _ _ _); reflexivity.
Qed.

Lemma filter_set_col fh (X : frame R) n v : filter_fh fh (set_col X n (fun _ => v)) = set_col (filter_fh fh X) n (fun _ => v).
Proof.
  unfold set_col. change (f_cols (filter_fh fh X)) with (f_cols X). destruct (col_pos (f_cols X) n); unfold filter_fh, filter_rows; cbn [f_levels f_cols f_rows]; f_equal;
    apply filter_map_comm; reflexivity.
Qed.
Lemma filter_add_zero fh matched ids : forall X : frame R, filter_fh fh (add_zero_columns 0%R matched ids X) = add_zero_columns 0%R matched ids (filter_fh fh X).
Proof.
  unfold add_zero_columns. induction matched as [|m ms IH]; intros X; [reflexivity|]. cbn [fold_left]. rewrite IH. f_equal. clear IH ms. revert X.
  induction ids as [|i ids IH]; intros X; [reflexivity|]. cbn [fold_left]. now rewrite IH, filter_set_col.
Qed.
Lemma combine_filter {A B} (p : A -> bool) (q : B -> bool) l l' : Forall2 (fun a b => p a = q b) l l' ->
  combine (filter p l) (filter q l') = filter (fun ab => p (fst ab)) (combine l l').
Proof. induction 1 as [|a b l l' H F IH]; [reflexivity|]. simpl. rewrite <- H. destruct (p a); simpl; now rewrite IH. Qed.
Lemma labels_Forall2 (X Y : frame R) : labels X = labels Y -> Forall2 (fun r r' => r_path r = r_path r' /\ r_time r = r_time r') (f_rows X) (f_rows Y).
Proof.
  unfold labels. revert Y. destruct X as [? ? l]. intros [? ? l']. cbn [f_rows]. revert l'. induction l as [|r l IH]; intros [|r' l'] H; try discriminate; constructor.
  - now injection H.
  - apply IH. now injection H.
Qed.
Lemma filter_copy_column fh (Xo X : frame R) c i : labels X = labels Xo ->
  copy_column 0%R (fun _ => false) (filter_fh fh Xo) (filter_fh fh X) c i = (X' <- copy_column 0%R (fun _ => false) Xo X c i ;; Ok (filter_fh fh X')).
Proof.
  intros L. unfold copy_column. change (f_cols (filter_fh fh Xo)) with (f_cols Xo). change (f_cols (filter_fh fh X)) with (f_cols X).
  destruct (col_pos (f_cols Xo) c) as [src|]; [|reflexivity]. destruct (col_pos (f_cols X) _) as [dst|]; [|reflexivity]. cbn [bind]. f_equal.
  unfold filter_fh, filter_rows. cbn [f_levels f_cols f_rows]. f_equal. rewrite combine_filter.
  - symmetry. apply filter_map_comm. intros [r ro] _. reflexivity.
  - apply labels_Forall2 in L. eapply Forall2_impl; [|exact L]. cbv beta. intros a b [_ ->]. reflexivity.
Qed.
Lemma filter_copy_columns fh matched (Xo : frame R) ids : forall X, labels X = labels Xo ->
  copy_columns 0%R (fun _ => false) matched ids (filter_fh fh Xo) (filter_fh fh X) =
  (X' <- copy_columns 0%R (fun _ => false) matched ids Xo X ;; Ok (filter_fh fh X')).
Proof.
  unfold copy_columns. induction ids as [|i ids IH]; intros X L; [reflexivity|]. cbn [foldM].
  assert (E : forall ms X, labels X = labels Xo ->
     foldM (fun X c => copy_column 0%R (fun _ => false) (filter_fh fh Xo) X c i) (filter_fh fh X) ms =
     (X' <- foldM (fun X c => copy_column 0%R (fun _ => false) Xo X c i) X ms ;; Ok (filter_fh fh X'))).
  { clear. induction ms as [|m ms IH]; intros X L; [reflexivity|]. cbn [foldM]. rewrite filter_copy_column by assumption.
    destruct (copy_column _ _ Xo X m i) as [X1|] eqn:C; cbn [bind]; [|reflexivity]. apply IH.
    apply copy_column_labels in C; [|rewrite !labels_length; congruence]. destruct C as [C _]. congruence. }
  rewrite E by assumption. destruct (foldM _ X matched) as [X1|] eqn:F; cbn [bind]; [|reflexivity]. apply IH.
  clear E IH. revert X L F. induction matched as [|m ms IH]; intros X L F; cbn [foldM] in F; [now injection F as <-|].
  destruct (copy_column _ _ Xo X m i) as [X2|] eqn:C; [|discriminate]. cbn [bind] in F. apply (IH X2); [|exact F].
  apply copy_column_labels in C; [|rewrite !labels_length; congruence]. destruct C as [C _]. congruence.
Qed.
Lemma filter_drop fh (X : frame R) cols : filter_fh fh (drop_columns X cols) = drop_columns (filter_fh fh X) cols.
Proof. unfold drop_columns, filter_fh, filter_rows. cbn [f_levels f_cols f_rows]. f_equal. apply filter_map_comm. reflexivity. Qed.
Lemma filter_expand fh matched ids (X : frame R) : expand_ids matched ids (filter_fh fh X) = (X' <- expand_ids matched ids X ;; Ok (filter_fh fh X')).
Proof.
  unfold expand_ids. rewrite <- filter_add_zero, filter_copy_columns by apply add_zero_labels.
  destruct (copy_columns _ _ _ _ _ _); cbn [bind]; [|reflexivity]. now rewrite filter_drop.
Qed.

(** * everything depends on the rows of the horizon only *)
Lemma transform_effects_filter fitted fh (X : frame R) : transform_effects fitted X fh = transform_effects fitted (filter_fh fh X) fh.
Proof.
  unfold transform_effects. apply foldM_ext. intros out [[n e] cols]. destruct (should_skip_predict e) as [[]|]; cbn [bind]; auto.
  rewrite select_filter. destruct (select_columns 0%R X cols) as [XC|]; cbn [bind]; [|reflexivity]. now rewrite transform_filter.
Qed.
Lemma trend_transform_filter ns_of t fh (X : frame R) : trend_transform ns_of t X fh = trend_transform ns_of t (filter_fh fh X) fh.
Proof.
  destruct t; cbn [trend_transform]; unfold trend_rows; rewrite ?filter_fh_twice; auto. now rewrite transform_filter.
Qed.
Lemma expand_transform_filter e fh (X X' : frame R) : filter_fh fh X = filter_fh fh X' -> series_ids X = series_ids X' ->
  match expand_transform 0%R (fun _ => false) e X, expand_transform 0%R (fun _ => false) e X' with
  | Ok (Y, e1), Ok (Y', e2) => filter_fh fh Y = filter_fh fh Y' /\ e1 = e2
  | Err a, Err b => a = b
  | _, _ => False
  end.
Proof.
  intros F S. assert (L : f_levels X = f_levels X') by exact (f_equal f_levels F). rewrite !expand_transform_ids. destruct (ex_skip e); [auto|].
  rewrite <- L, <- S. destruct (f_levels X); [reflexivity|].
  pose proof (filter_expand fh (ex_matched e) (series_ids X) X) as E. pose proof (filter_expand fh (ex_matched e) (series_ids X) X') as E'.
  rewrite <- F in E'. rewrite E in E'. destruct (expand_ids _ _ X) as [Y|]; destruct (expand_ids _ _ X') as [Y'|]; cbn [bind] in *; try discriminate; [|congruence].
  split; [|reflexivity]. exact (f_equal (fun r => match r with Ok v => v | Err _ => Y end) E').
Qed.
Lemma series_ids_filter (q : path -> bool) (X : frame R) : series_ids (filter_rows (fun r => q (r_path r)) X) = filter q (series_ids X).
Proof.
  unfold series_ids, paths_unique. rewrite <- (unique_filter _ path_eqb_eq). f_equal. cbn [filter_rows f_rows]. symmetry. now apply filter_map_comm.
Qed.
Lemma filter_comm {A} (p q : A -> bool) l : filter p (filter q l) = filter q (filter p l).
Proof. induction l as [|x l IH]; [reflexivity|]. simpl. destruct (p x) eqn:P, (q x) eqn:Q; simpl; rewrite ?P, ?Q; congruence. Qed.
Lemma loc_bottom_filter fh (X X' : frame R) : filter_fh fh X = filter_fh fh X' -> series_ids X = series_ids X' ->
  match loc_bottom_series X, loc_bottom_series X' with
  | Ok Y, Ok Y' => filter_fh fh Y = filter_fh fh Y' /\ series_ids Y = series_ids Y'
  | Err a, Err b => a = b
  | _, _ => False
  end.
Proof.
  intros F S. assert (L : f_levels X = f_levels X') by exact (f_equal f_levels F). assert (C : f_cols X = f_cols X') by exact (f_equal f_cols F).
  unfold loc_bottom_series. rewrite <- L. destruct (f_levels X) as [|n] eqn:LX; [auto|].
  assert (I : get_bottom_series_idx X = get_bottom_series_idx X') by (unfold get_bottom_series_idx; now rewrite <- L, LX, S).
  rewrite <- I. destruct (get_bottom_series_idx X) as [idx|]; [|reflexivity]. cbn [bind]. unfold get_multiindex_loc. destruct idx as [|p0 idx]; [reflexivity|]. split.
  - unfold filter_fh, filter_rows in F |- *. cbn [f_levels f_cols f_rows] in F |- *. injection F as _ _ F. rewrite LX, <- L, C. f_equal.
    rewrite filter_comm, F. apply filter_comm.
  - rewrite !(series_ids_filter (fun p => path_in (firstn (List.length p0) p) (p0 :: idx))). now rewrite S.
Qed.
Lemma times_present fh (X X' : frame R) : filter_fh fh X = filter_fh fh X' ->
  forallb (fun t => existsb (Z.eqb t) (map r_time (f_rows X))) fh = forallb (fun t => existsb (Z.eqb t) (map r_time (f_rows X'))) fh.
Proof.
  intros F. assert (H : forall (X X' : frame R) t, filter_fh fh X = filter_fh fh X' -> In t fh -> existsb (Z.eqb t) (map r_time (f_rows X)) = true -> existsb (Z.eqb t) (map r_time (f_rows X')) = true).
  { clear. intros X X' t F Ht H. apply existsb_exists in H as (t' & H & E). apply Z.eqb_eq in E. subst t'. apply in_map_iff in H as (r & E & Hr).
    assert (I : In r (f_rows (filter_fh fh X))).
    { apply filter_In. split; [exact Hr|]. apply existsb_exists. exists t. split; [exact Ht|]. apply Z.eqb_eq. congruence. }
    rewrite F in I. apply filter_In in I as [I _]. apply existsb_exists. exists t. split; [|apply Z.eqb_refl]. rewrite <- E. now apply in_map. }
  assert (E : forall t, In t fh -> existsb (Z.eqb t) (map r_time (f_rows X)) = existsb (Z.eqb t) (map r_time (f_rows X'))).
  { intros t Ht. destruct (existsb (Z.eqb t) (map r_time (f_rows X))) eqn:A.
    - symmetry. now apply (H X X').
    - destruct (existsb (Z.eqb t) (map r_time (f_rows X'))) eqn:B; [|reflexivity]. apply (H X' X) in B; auto. congruence. }
  clear -E. revert E. generalize fh. intros l. induction l as [|t l IH]; intros E; [reflexivity|]. cbn [forallb]. rewrite E by now left. rewrite IH; [reflexivity|]. intros u Hu. apply E. now right.
Qed.

(** * forecasters *)
Section Forecaster.
Variable ns_of : Z -> Z.
Variable order : list string -> list string.
Variable keep : path -> bool.
Context {TS : Type}.
Variable tr_fit_transform : TS -> frame R -> TS * res (frame R).
Variable tr_transform : TS -> frame R -> res (frame R).
Context {P : Type}.
Variable svi_run : Z -> nat -> nat -> prog arr -> res (list xr * P).
Variable nuts_run : Z -> nat -> nat -> nat -> prog arr -> res (nat -> nat -> env).
Variable latent_sites : prog arr -> list string.
Variable guide_draw : P -> Z -> nat -> prog arr -> env.
Variable complete_draw : env -> Z -> nat -> prog arr -> env.
Notation fit_forecaster := (fit_forecaster ns_of order keep tr_fit_transform svi_run nuts_run latent_sites).
Notation call_method := (call_method ns_of keep tr_transform guide_draw complete_draw).

Lemma method_draws c ob (f : fitted (P := P)) y m X X' fh :
  predictive_samples_dict ns_of keep tr_transform guide_draw complete_draw c ob f y X fh =
  predictive_samples_dict ns_of keep tr_transform guide_draw complete_draw c ob f y X' fh ->
  call_method c ob f y m X fh = call_method c ob f y m X' fh.
Proof.
  intros E. destruct m; cbn [History.call_method]; unfold forecast_point, forecast_quantiles, forecast_samples, forecast_all_sites, forecast_all_sites_samples; now rewrite E.
Qed.

Lemma c75_univariate c ob y X0 ob1 f : fit_forecaster c ob y X0 = (ob1, Ok f) -> c_hier c = false -> o_transformer ob = None ->
  forall y2 X X' fh cutoff rows m, max_time (map r_time (f_rows y2)) = Ok cutoff -> frame_wf X -> frame_wf X' -> f_levels X = f_levels X' ->
  let T := match X0 with None => [] | Some X0 => f_cols X0 end in
  seen T (to_absolute cutoff fh) X = Some rows -> seen T (to_absolute cutoff fh) X' = Some rows ->
  call_method c ob1 f y2 m (Some X) fh = call_method c ob1 f y2 m (Some X') fh.
Proof.
  intros H Hc NT y2 X X' fh cutoff rows m HM W W' L T S S'. apply method_draws. unfold predictive_samples_dict. rewrite Hc. f_equal.
  apply fit_forecaster_inv in H as (s & ys & p & pm & post & _ & _ & HF & _ & ->). unfold fit_data in HF. rewrite Hc in HF.
  apply univariate_fit_inv in HF. destruct HF as (t0 & t & yt & X1 & Xe & td & data & _ & _ & HTF & HQ & HL & HO & _ & HE & _).
  apply run_fit_transform_inv in HQ. destruct HQ as [_ HQ]. simpl in HQ. rewrite NT in HQ. destruct HQ as [HQ1 HQ2].
  assert (Q1 : o_transformer ob1 = None) by (now rewrite HQ1).
  assert (CE : f_cols Xe = T). { apply loc_index_inv in HL. destruct HL as (_ & -> & _). rewrite HQ2. unfold T. now destruct X0. }
  f_equal. unfold univariate_predict_model. rewrite HM. cbn [bind]. unfold run_transform. rewrite Q1. cbn [bind].
  assert (ST : same_seen (columns_seen X0) (to_absolute cutoff fh) X X').
  { split; [exact L|]. apply (seen_subset T _ _ _ _ rows S S'). intros c0 Hc0. unfold T. destruct X0 as [X0|]; [|exact Hc0]. unfold columns_seen in Hc0. destruct (frame_empty X0); [contradiction|exact Hc0]. }
  assert (SE : forall g, In g (p_fitted p) -> same_seen (fe_cols g) (to_absolute cutoff fh) X X').
  { intros g Hg. split; [exact L|]. apply (seen_subset T _ _ _ _ rows S S'). intros c0 Hc0. rewrite <- CE. eapply fitted_columns; eauto. }
  rewrite HO. rewrite (trend_transform_seen ns_of order t0 X0 yt 1 t _ X X' HTF W W' ST). cbn [ft_prepared].
  now rewrite (transform_effects_seen (p_fitted p) (to_absolute cutoff fh) X X' W W' SE).
Qed.

Lemma c75_hierarchical c ob (f : fitted (P := P)) : c_hier c = true -> o_transformer ob = None ->
  forall y2 X X' fh cutoff m, max_time (map snd (p_index (ft_prepared f))) = Ok cutoff ->
  filter_fh (to_absolute cutoff fh) X = filter_fh (to_absolute cutoff fh) X' -> series_ids X = series_ids X' ->
  call_method c ob f y2 m (Some X) fh = call_method c ob f y2 m (Some X') fh.
Proof.
  intros Hc NT y2 X X' fh cutoff m HM F S. apply method_draws. unfold predictive_samples_dict. rewrite Hc.
  assert (E : hierarchical_predict_model ns_of keep tr_transform c ob f y2 (Some X) fh = hierarchical_predict_model ns_of keep tr_transform c ob f y2 (Some X') fh); [|now rewrite E].
  unfold hierarchical_predict_model. rewrite HM. cbn [bind]. set (fh' := to_absolute cutoff fh) in *.
  assert (C : no_columns X = no_columns X') by (unfold no_columns; assert (f_cols X = f_cols X') as -> by exact (f_equal f_cols F); reflexivity).
  rewrite <- C. destruct (no_columns X); [reflexivity|].
  pose proof (loc_bottom_filter fh' X X' F S) as B. destruct (loc_bottom_series X) as [Y|]; destruct (loc_bottom_series X') as [Y'|]; try contradiction; cbn [bind]; [|congruence].
  destruct B as [FY SY]. destruct (p_has_exogenous (ft_prepared f)).
  - rewrite (times_present fh' Y Y' FY). destruct (forallb _ fh'); [|reflexivity]. unfold run_transform. rewrite NT. cbn [bind].
    destruct (attr (p_expander (ft_prepared f))) as [ex|]; [|reflexivity]. cbn [bind].
    pose proof (expand_transform_filter ex fh' Y Y' FY SY) as G.
    destruct (expand_transform _ _ ex Y) as [[Z1 e1]|]; destruct (expand_transform _ _ ex Y') as [[Z2 e2]|]; try contradiction; cbn [bind]; [|congruence].
    destruct G as [FZ ->]. rewrite (trend_transform_filter ns_of (o_trend ob) fh' Z1), (trend_transform_filter ns_of (o_trend ob) fh' Z2), FZ.
    now rewrite (transform_effects_filter _ fh' Z1), (transform_effects_filter _ fh' Z2), FZ.
  - cbn [bind]. rewrite (trend_transform_filter ns_of (o_trend ob) fh' Y), (trend_transform_filter ns_of (o_trend ob) fh' Y'), FY.
    now rewrite (transform_effects_filter _ fh' Y), (transform_effects_filter _ fh' Y'), FY.
Qed.
End Forecaster.
