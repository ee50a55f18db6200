(** Components of forecasts of one series. *)
From Coq Require Import Reals Lra ZArith String Ascii Bool List Lia Permutation.
From Verif.Model Require Import Base Num XFloat Frame Arr Prog Effect Expand Trend TrendProg Scale Engine Forecaster.
From Verif.Spec Require Import FrameSpec ProgSpec EffectSpec ForecasterSpec SiteSpec ShapeSpec AlignSpec OverlapSpec ResponseSpec.
From Verif.Facts Require Import BaseFacts FrameFacts NumFacts ArrFacts ProgFacts EffectFacts EffectPredict EffectFourier AlignFacts ExpandFacts ForecasterFacts ForecasterInv ForecasterProps ModelProps TotalFacts HorizonFacts OverlapFacts OverlapFrames OverlapForecaster SiteFacts ComponentFacts PosteriorFacts DensityFacts DocsForecaster ResponseFacts ResponseEffects.
Import ListNotations.
Local Open Scope string_scope.

Lemma Forall2_nth_error_l {A B} (P : A -> B -> Prop) l l' : Forall2 P l l' -> forall i a, nth_error l i = Some a -> exists b, nth_error l' i = Some b /\ P a b.
Proof. induction 1 as [|a b l l' H F IH]; intros [|i] x Hx; try discriminate; cbn [nth_error] in *; [injection Hx as <-; eauto|eauto]. Qed.

(** * Priors *)
Definition drawn (env : env) (l : list (string * site)) (p : string) (d : distr) (sh : list nat) : Prop := In (p, SSample d (site_value env p sh None) false) l.
Fixpoint draws (env : env) (ef : effect) (l : list (string * site)) (k : nat) : Prop :=
  match ef with
  | Linear _ d _ => drawn env l "coefs" d [k]
  | Log _ d r _ => drawn env l "log_scale" d [] /\ drawn env l "log_rate" r []
  | Hill _ h s m _ => drawn env l "half_max" h [] /\ drawn env l "slope" s [] /\ drawn env l "max_effect" m []
  | Lift inner _ _ _ _ => draws env inner l k
  | Fourier _ _ sigma _ _ _ _ _ => drawn env l "coefs" (DNormal (scalar 0) (scalar sigma)) [k]
  end.
Lemma drawn_in env l l' p d sh : incl l l' -> drawn env l p d sh -> drawn env l' p d sh.
Proof. unfold drawn. auto. Qed.
Lemma draws_in env ef : forall l l' k, incl l l' -> draws env ef l k -> draws env ef l' k.
Proof.
  induction ef as [m p b|m p q b|m p q r b|inner IH tab ps b sc|sp terms ps m b ff x l0]; intros l l' k I D; cbn [draws] in *.
  - eauto using drawn_in.
  - destruct D. split; eauto using drawn_in.
  - destruct D as (? & ? & ?). do 2 (split; [eauto using drawn_in|]). eauto using drawn_in.
  - eauto.
  - eauto using drawn_in.
Qed.

Lemma mode_sites env m raw pe w l : eval env (predict_mode m raw pe) = Ok (w, l) -> exists x l1, eval env raw = Ok (x, l1) /\ incl l1 l.
Proof.
  unfold predict_mode. intros H. apply eval_split in H as (tv & la & lb & H1 & H & ->). cbv zeta in H. apply eval_split in H as (x & lc & ld & H2 & H & ->). exists x, lc. split; [exact H2|]. intros s Hs. apply in_or_app. right. apply in_or_app. now left.
Qed.
Lemma linear_sites env d a rows k x l : rows_array rows k a -> eval env (linear_raw d (EArr a)) = Ok (x, l) -> drawn env l "coefs" d [k].
Proof.
  intros (_ & _ & s & Sh & _) H. unfold linear_raw in H. rewrite Sh, rev_app_distr in H. cbn [rev app] in H. destruct k as [|k]; [discriminate|]. unfold plate, sample in H. cbn [pbind eval] in H.
  destruct (eval env (lift_res _)) as [[a0 l0]|]; [|discriminate]. cbn [bind] in H. injection H as _ <-. unfold drawn. simpl. auto.
Qed.
Lemma predict_draws env pe ef : forall rows k d w l, inputs ef rows k d -> eval env (predict ef d pe) = Ok (w, l) -> draws env ef l k.
Proof.
  induction ef as [m p b|m p q b|m p q r b|inner IH tab ps b sc|sp terms ps m b ff x l0]; intros rows k d w l I E.
  - destruct d as [|a|]; try contradiction. cbn [inputs predict draws] in *. apply mode_sites in E as (x & l1 & E & Il). eapply drawn_in; [exact Il|]. eapply linear_sites; eauto.
  - destruct d as [|a|]; try contradiction. cbn [inputs predict draws] in *. apply mode_sites in E as (x & l1 & E & Il). unfold log_raw, sample in E. cbn [pbind eval bind] in E. injection E as _ <-.
    split; eapply drawn_in; try exact Il; unfold drawn; simpl; auto.
  - destruct d as [|a|]; try contradiction. cbn [inputs predict draws] in *. apply mode_sites in E as (x & l1 & E & Il). unfold hill_raw, sample in E. cbn [pbind eval bind] in E.
    destruct (eval env (pbind (lift_res _) _)) as [[a0 l0]|]; [|discriminate]. cbn [bind] in E. injection E as _ <-.
    split; [|split]; eapply drawn_in; try exact Il; unfold drawn; simpl; auto.
  - destruct d as [| |d lift]; try contradiction. cbn [inputs predict draws] in *. apply eval_split in E as (x & la & lb & E & _ & ->). apply (draws_in _ _ la); [intros z Hz; apply in_or_app; now left|]. eapply IH; eauto.
  - destruct d as [|a|]; try contradiction. cbn [inputs predict draws] in *. destruct l0 as [[mm bb]|]; [|discriminate]. apply mode_sites in E as (y & l1 & E & Il). eapply drawn_in; [exact Il|]. eapply linear_sites; eauto.
Qed.
Lemma drawn_prior e name tr l p d sh : NoDup (map fst tr) -> (forall x, In x l -> In (prefixed name x) tr) -> drawn (own_env e name) l p d sh -> has_prior e name tr p d sh.
Proof.
  intros N I D. apply I in D. unfold prefixed in D. cbn [fst snd] in D. exists (site_value (own_env e name) p sh None). split; [now apply dict_get_nodup|]. split; [reflexivity|]. intros i Hi.
  unfold site_value. cbn [a_flat]. rewrite (map_nth_error _ i (seq 0 (prod_shape sh)) (d := i)); [reflexivity|]. clear -Hi. rewrite (nth_error_nth' _ 0) by (now rewrite seq_length). f_equal. now rewrite seq_nth.
Qed.

(** * Fitting keeps the options *)
Fixpoint options (ef ef' : effect) : Prop :=
  match ef, ef' with
  | Linear m d _, Linear m' d' _ => m = m' /\ d = d'
  | Log m d r _, Log m' d' r' _ => m = m' /\ d = d' /\ r = r'
  | Hill m h s x _, Hill m' h' s' x' _ => m = m' /\ h = h' /\ s = s' /\ x = x'
  | Lift i _ _ _ _, Lift i' _ _ _ _ => options i i'
  | Fourier sp terms sg m _ _ _ _, Fourier sp' terms' sg' m' _ _ _ _ => sp = sp' /\ terms = terms' /\ sg = sg' /\ m = m'
  | _, _ => False
  end.
Lemma fit_options order e : forall X s e', fit order (clone e) X s = (e', None) -> options e e'.
Proof.
  induction e as [m p b|m p q b|m p q r b|inner IH tab ps b sc|sp terms ps m b ff x l]; intros X s e' H.
  1-3: cbn [clone fit] in H; unfold base_fit in H; destruct (_ && _)%bool; [discriminate|]; injection H as <-; cbn [options]; auto.
  - cbn [clone fit] in H. destruct (fit order (clone inner) X s) as [i [er|]] eqn:E; [discriminate|]. apply IH in E. unfold base_fit in H. destruct (_ && _)%bool; [discriminate|]. injection H as <-. exact E.
  - cbn [clone fit mk_fourier] in H. unfold base_fit in H. destruct (_ && _)%bool; [discriminate|]. destruct (inner_fit _ _ _) as [e1 [er|]] eqn:E; [discriminate|]. injection H as <-.
    cbn [set_cols set_base get_base inner_fit] in E. destruct (fourier_fit sp terms X) as [f|]; [|discriminate]. destruct X as [X|]; [|discriminate]. cbv zeta in E. destruct (fourier_transform f X) as [XF|]; [|discriminate].
    match type of E with (match ?q with _ => _ end) = _ => destruct q as [[XE x']|] end; [|discriminate]. destruct (check_mode m) as [mm|]; [|discriminate]. injection E as <-. cbn [options set_fitted set_base]. auto.
Qed.
Lemma answers_options e name place ef : forall ef' x t trend v, options ef ef' -> answers e name place ef' x t trend v -> answers e name place ef x t trend v.
Proof.
  induction ef as [m p b|m p q b|m p q r b|inner IH tab ps b sc|sp terms ps m b ff x l]; intros [] x0 t trend v O A; try contradiction; cbn [options answers] in *.
  - destruct O as [-> ->]. exact A.
  - destruct O as (-> & -> & ->). exact A.
  - destruct O as (-> & -> & -> & ->). exact A.
  - eapply IH; eauto.
  - destruct O as (-> & -> & -> & ->). exact A.
Qed.


(** number of inputs, for [q] series *)
Fixpoint size (q : nat) (ef : effect) (n : nat) : nat :=
  match ef with Lift inner _ _ _ _ => size q inner n | Fourier sp terms _ _ _ _ _ _ => 2 * List.length (fourier_pairs sp terms) * q | _ => n end.
Lemma reads_size X cols t0 ef : forall r z, reads X cols t0 ef r z -> List.length z = size 1 ef (List.length cols).
Proof.
  assert (V : forall r z, values_at X r cols z -> List.length z = List.length cols) by (intros r z H; apply (f_equal (@List.length _)) in H; rewrite !map_length in H; congruence).
  induction ef; intros r0 z H; cbn [reads size] in *; eauto. subst z. rewrite waves_length. lia.
Qed.
Lemma inputs_size ef : forall rows k d z, inputs ef rows k d -> In z rows -> List.length z = k.
Proof.
  assert (V : forall rows k d z, (match d with EArr a => rows_array rows k a | _ => False end) -> In z rows -> List.length z = k).
  { intros rows k [|a|] z H I; try contradiction. destruct H as (F & _). rewrite Forall_forall in F. auto. }
  induction ef; intros rows k d z H I; cbn [inputs] in *; try (eapply V; eauto; fail). destruct d; try contradiction. eauto.
Qed.
Lemma draws_priors e name tr q n ef0 : forall ef l, NoDup (map fst tr) -> (forall x, In x l -> In (prefixed name x) tr) -> options ef0 ef -> draws (own_env e name) ef l (size q ef n) -> priors e name q ef0 tr n.
Proof.
  induction ef0 as [m p b|m p p' b|m p p' r b|inner IH tab ps b sc|sp terms ps m b ff x l0]; intros [] l N I O D; try contradiction; cbn [options draws size priors] in *.
  - destruct O as [-> ->]. eapply drawn_prior; eauto.
  - destruct O as (-> & -> & ->). destruct D. split; eapply drawn_prior; eauto.
  - destruct O as (-> & -> & -> & ->). destruct D as (? & ? & ?). do 2 (split; [eapply drawn_prior; eauto|]). eapply drawn_prior; eauto.
  - eapply IH; eauto.
  - destruct O as (-> & -> & -> & ->). eexists. split; [apply pairs_harmonics|]. eapply drawn_prior; eauto.
Qed.

(** * Prepared data *)
Lemma prepared_entry (fitted : list fitted_effect) effs X ts data : non_skipped fitted = Ok effs -> transform_effects fitted X ts = Ok data ->
  forall name ef, In (name, ef) effs -> exists cols XC d, In (name, ef, cols) fitted /\ select_columns 0%R X cols = Ok XC /\ transform ef (Some XC) ts = Ok d /\ should_skip_predict ef = Ok false /\ dict_get data name = Some d.
Proof.
  intros HN HT. pose proof (non_skipped_nodup _ _ HN) as ND.
  assert (K : forall name ef, dict_get effs name = Some ef -> exists cols XC d, In (name, ef, cols) fitted /\ select_columns 0%R X cols = Ok XC /\ transform ef (Some XC) ts = Ok d /\ should_skip_predict ef = Ok false /\ dict_get data name = Some d).
  2:{ intros name ef I. apply K. now apply dict_get_nodup. }
  unfold non_skipped in HN. unfold transform_effects in HT.
  assert (G : forall l, incl l fitted -> forall a0 a1,
    (forall name ef, dict_get a0 name = Some ef -> exists cols XC d, In (name, ef, cols) fitted /\ select_columns 0%R X cols = Ok XC /\ transform ef (Some XC) ts = Ok d /\ should_skip_predict ef = Ok false /\ dict_get a1 name = Some d) ->
    foldM (fun out f => let '(name, e, _) := f in skip <- should_skip_predict e ;; Ok (if (skip : bool) then out else dict_set out name e)) a0 l = Ok effs ->
    foldM (fun out f => let '(name, e, cols) := f in skip <- should_skip_predict e ;; if (skip : bool) then Ok out
           else XC <- select_columns 0%R X cols ;; d <- transform e (Some XC) ts ;; Ok (dict_set out name d)) a1 l = Ok data ->
    forall name ef, dict_get effs name = Some ef -> exists cols XC d, In (name, ef, cols) fitted /\ select_columns 0%R X cols = Ok XC /\ transform ef (Some XC) ts = Ok d /\ should_skip_predict ef = Ok false /\ dict_get data name = Some d).
  { induction l as [|[[name ef] cols] l IH]; intros I a0 a1 A F0 F1; cbn [foldM] in *; [injection F0 as <-; injection F1 as <-; exact A|].
    destruct (should_skip_predict ef) as [[|]|] eqn:SK; cbn [bind] in *; [apply (IH (fun g Hg => I g (or_intror Hg)) a0 a1); auto| |discriminate].
    destruct (select_columns 0%R X cols) as [XC|] eqn:SC; [|discriminate]. cbn [bind] in *. destruct (transform ef (Some XC) ts) as [d|] eqn:T; [|discriminate]. cbn [bind] in *.
    refine (IH (fun g Hg => I g (or_intror Hg)) _ _ _ F0 F1). intros nm g. rewrite !dict_get_set. destruct (String.eqb_spec nm name) as [->|NE]; [|apply A]. intros [= <-]. exists cols, XC, d. repeat split; auto. apply I. now left. }
  apply (G fitted (incl_refl _) [] []); auto. discriminate.
Qed.

(** selecting columns twice *)
Lemma value_selected (cols0 : list string) (vals0 : list R) cols : forall z, map (value_of cols0 vals0) cols = map Some z -> forall c, In c cols -> value_of cols z c = value_of cols0 vals0 c.
Proof.
  induction cols as [|d cols IH]; intros [|u z] H c I; try discriminate; [destruct I|]. injection H as H1 H. cbn [value_of]. destruct (String.eqb_spec c d) as [->|NE]; [now rewrite H1|].
  destruct I as [E|I]; [congruence|]. now apply IH.
Qed.
Lemma reads_selected X XC cols t0 ef : forall r r' z, f_cols XC = cols -> r_time r' = r_time r -> values_at X r cols (r_vals r') -> reads XC cols t0 ef r' z -> reads X cols t0 ef r z.
Proof.
  assert (V : forall r r' z, f_cols XC = cols -> values_at X r cols (r_vals r') -> values_at XC r' cols z -> values_at X r cols z).
  { intros r r' z C V H. unfold values_at in *. rewrite <- H. apply map_ext_in. intros c Hc. symmetry. rewrite C. now apply value_selected. }
  induction ef; intros r0 r' z0 C T H Hz; cbn [reads] in *; eauto. now rewrite <- T.
Qed.

Lemma knows_input cols t0 ef : knows cols t0 ef -> input_feature_column_names ef = Ok cols.
Proof. intros K. destruct ef; cbn [knows input_feature_column_names] in *; try (destruct K as [K _]; rewrite K; reflexivity). destruct K as [_ K]. assert (b_cols (get_base ef) = Some cols) by (destruct ef; apply K). now rewrite H. Qed.

Lemma transform_reads cols t0 ts (N : ts <> []) (O : in_order ts) X XC (W : frame_wf X) (LV : f_levels X = 0) (CV : covers X ts) ef d env pe w : select_columns 0%R X cols = Ok XC -> knows cols t0 ef -> should_skip_predict ef = Ok false ->
  transform ef (Some XC) ts = Ok d -> yields env (predict ef d pe) w -> exists rows k, inputs ef rows k d /\ Forall2 (reads X cols t0 ef) (f_rows (filter_fh ts X)) rows.
Proof.
  intros SC K SK H Y. unfold transform in H. destruct (attr (b_fitted _)) as [[]|]; cbn [bind negb] in H; try discriminate. rewrite SK, (knows_input _ _ _ K) in H. cbn [bind] in H.
  rewrite select_filter in H. destruct (select_columns 0%R XC cols) as [XD|] eqn:SD; [|discriminate]. cbn [bind] in H.
  pose proof (select_wf _ _ _ W SC) as WC. pose proof (OverlapFrames.select_labels _ _ _ SC) as (S1 & S2 & S3 & _). assert (CC : covers XC ts) by (apply (covers_same X); auto).
  destruct (inner_reads cols t0 ts N O XC XD WC ltac:(congruence) CC SD env pe ef d w K H Y) as (rows & k & I & F). exists rows, k. split; [exact I|].
  pose proof (select_values_at _ _ _ W SC) as F2.
  assert (F3 : Forall2 (fun r r' => r_time r' = r_time r /\ values_at X r cols (r_vals r')) (f_rows (filter_fh ts X)) (f_rows (filter_fh ts XC))).
  { assert (F4 : Forall2 (fun r r' => r_time r' = r_time r /\ values_at X r cols (r_vals r')) (f_rows X) (f_rows XC)) by (clear -F2; induction F2 as [|a b l l' (_ & ? & ?) F IH]; constructor; auto).
    unfold filter_fh, filter_rows. cbn [f_rows]. apply Forall2_filter; [exact F4|]. intros r r' (-> & _). reflexivity. }
  clear -F F3 S3. revert rows F. induction F3 as [|r r' l l' (T & V) F3 IH]; intros rows F; inversion F; subst; constructor; auto. eapply reads_selected; eauto.
Qed.

Lemma located (X X' : frame R) index : loc_index X index = Ok X' -> forall pt, In pt index -> exists r, In r (f_rows X') /\ r_path r = fst pt /\ r_time r = snd pt.
Proof.
  unfold loc_index. intros H pt I. inv_bind H. injection H as <-. cbn [f_rows]. apply BaseFacts.mapM_ok in E. apply Forall2_In_both in E. destruct (proj1 E _ I) as (rs & Hrs & Q).
  destruct (filter _ (f_rows X)) as [|r l] eqn:F; [discriminate|]. injection Q as <-. exists r. assert (Hr : In r (r :: l)) by now left. rewrite <- F in Hr. apply filter_In in Hr as [_ Hr]. apply andb_prop in Hr as [H1 H2].
  apply path_eqb_eq in H1. apply Z.eqb_eq in H2. split; [|auto]. apply in_concat. exists (r :: l). split; [exact Hrs|now left].
Qed.

(** configured effects *)
Lemma configured_listed c l name : In l (effects_of c) -> name = l_name l -> exists effects regex, c_effects c = Some effects /\ In (name, l_effect l, regex) effects.
Proof. unfold effects_of. intros I ->. destruct (c_effects c) as [effects|]; [|destruct I]. exists effects, (snd l). split; [reflexivity|]. destruct l as [[n ef] rg]. exact I. Qed.
Lemma configured_default c name : name = default_name -> name = "exogenous_variables_effect" /\
  (c_default c = Some (default_of (c_default c)) \/ c_default c = None /\ default_of (c_default c) = Linear Additive (DNormal (scalar 0) (scalar 1)) base_init).
Proof. intros ->. split; [reflexivity|]. destruct (c_default c); [left; reflexivity|right; split; reflexivity]. Qed.

(** * One series *)
Section Any.
Variable ns_of : Z -> Z.
Variable order : list string -> list string.
Variable keep : path -> bool.
Context {TS : Type}.
Variable tr_fit_transform : TS -> frame R -> TS * res (frame R).
Variable tr_transform : TS -> frame R -> res (frame R).
Context {P : Type}.
Variable svi_run : Z -> nat -> nat -> prog arr -> res (list xr * P).
Variable nuts_run : Z -> nat -> nat -> nat -> prog arr -> res (nat -> nat -> env).
Variable latent_sites : prog arr -> list string.
Notation fit_forecaster := (fit_forecaster ns_of order keep tr_fit_transform svi_run nuts_run latent_sites).
Notation predict_model := (predict_model ns_of keep tr_transform).

Lemma univariate_state c ob y X ob' (f : fitted (P := P)) t0 : fit_forecaster c ob y X = (ob', Ok f) -> c_hier c = false -> f_levels y = 0 -> first_date (map r_time (f_rows y)) t0 ->
  (forall Z, X = Some Z -> frame_wf Z) -> (forall s Z s' Z', frame_wf Z -> tr_fit_transform s Z = (s', Ok Z') -> frame_wf Z') -> frame_wf y ->
  forall name ef cols, In (name, ef, cols) (p_fitted (ft_prepared f)) -> knows cols t0 ef /\ exists ef0, configured c name ef0 /\ options ef0 ef.
Proof.
  intros H Hc L FD WX WT Wy. apply fit_forecaster_inv in H. destruct H as (s & ys & p & m & post & _ & HY & HF & _ & ->). cbn [ft_prepared].
  unfold fit_data in HF. rewrite Hc in HF. apply univariate_fit_inv in HF. destruct HF as (tr0 & t & yt & X1 & Xe & td & data & _ & _ & _ & HR & HL & _ & _ & HE & _ & HN & HP & _).
  apply scale_y_index in HY. destruct HY as [IY LY]. rewrite IY in *.
  assert (W1 : frame_wf X1).
  { apply run_fit_transform_inv in HR as [_ HR]. cbn [o_transformer] in HR. assert (W0 : frame_wf (match X with None => empty_frame (f_levels ys) (index_of y) | Some X => X end)).
    { destruct X as [Z|]; [auto|]. intros r Hr. unfold empty_frame in *. cbn [f_rows f_cols f_levels] in *. apply in_map_iff in Hr as (pt & <- & Hp). split; [reflexivity|]. cbn [r_path]. rewrite LY.
      unfold index_of in Hp. apply in_map_iff in Hp as (r & <- & Hr). now apply Wy. }
    destruct (o_transformer ob) as [tr|]; [destruct HR as (tr' & _ & HR); eauto|destruct HR as [_ ->]; exact W0]. }
  pose proof HL as HL0. apply loc_index_inv in HL as (L1 & C1 & N1 & R1). destruct FD as [FI FM].
  assert (NY : index_of y <> []) by (unfold index_of; destruct (f_rows y); [destruct FI|discriminate]). specialize (N1 NY).
  assert (SX : single Xe).
  { assert (WE : frame_wf Xe) by (intros r Hr; rewrite L1, C1; apply W1; now apply R1). split; [exact WE|]. assert (HE1 : exists r, In r (f_rows Xe)) by (clear -N1; destruct (f_rows Xe) as [|r rs]; [congruence|exists r; now left]). destruct HE1 as (r & Hr).
    destruct (WE r Hr) as [_ PL]. apply R1 in Hr. destruct Hr as [_ Hr]. unfold index_of in Hr. apply in_map_iff in Hr as (r0 & E & Hr). injection E as EP _. rewrite <- PL, <- EP. destruct (Wy r0 Hr) as [_ ->]. exact L. }
  assert (FE : first_date (map r_time (f_rows Xe)) t0).
  { assert (EQ : forall t1, In t1 (map r_time (f_rows Xe)) <-> In t1 (map r_time (f_rows y))).
    { intros t1. split; intros H1; apply in_map_iff in H1 as (r & <- & Hr).
      - apply R1 in Hr as [_ Hr]. unfold index_of in Hr. apply in_map_iff in Hr as (r0 & E & Hr). injection E as _ <-. now apply in_map.
      - destruct (located _ _ _ HL0 (r_path r, r_time r)) as (r' & H1 & H2 & H3); [unfold index_of; apply in_map_iff; eauto|]. cbn [snd] in H3. rewrite <- H3. now apply in_map. }
    split; [now apply EQ|]. intros t1 H1. apply FM. now apply EQ. }
  intros name ef cols I.
  assert (S2 : forall e0 XC, select_columns 0%R Xe cols = Ok XC -> fit order (clone e0) (Some XC) (scale_number s) = (ef, None) -> knows cols t0 ef /\ options e0 ef).
  { intros e0 XC SC FT. pose proof (select_wf _ _ _ (proj1 SX) SC) as WC. pose proof (OverlapFrames.select_labels _ _ _ SC) as (Q1 & Q2 & Q3 & _).
    assert (ET : map r_time (f_rows XC) = map r_time (f_rows Xe)) by (unfold labels in Q1; apply (f_equal (map snd)) in Q1; rewrite !map_map in Q1; exact Q1).
    split; [|eapply fit_options; eauto]. rewrite <- Q3. eapply fit_knows; [split; [exact WC|rewrite Q2; apply SX]| |exact FT|rewrite ET; exact FE].
    intros E. rewrite E in ET. destruct (f_rows Xe); [congruence|discriminate]. }
  apply fit_effects_inv in HE as (main & dflt & EF & F & D). rewrite EF in I. apply in_app_iff in I as [I|I].
  - apply Forall2_In_both in F. destruct (proj2 F _ I) as (l & Hl & NM & _ & XC & SC & FT). cbn [fe_name fe_cols fe_effect fst snd] in *. destruct (S2 _ _ SC FT) as [K O]. split; [exact K|]. exists (l_effect l). split; [|exact O]. left. now apply configured_listed.
  - destruct D as [[-> _]|(g & -> & NM & _ & _ & XC & SC & FT)]; [contradiction|]. destruct I as [->|[]]. cbn [fe_name fe_cols fe_effect fst snd] in *. destruct (S2 _ _ SC FT) as [K O]. split; [exact K|]. exists (default_of (c_default c)). split; [|exact O]. right. now apply configured_default.
Qed.

Lemma univariate_trend_length c ob y X ob' (f : fitted (P := P)) Xt ts td e tv : fit_forecaster c ob y X = (ob', Ok f) -> c_hier c = false -> f_levels y = 0 ->
  scalar_piecewise (o_trend ob') \/ flat_trend (o_trend ob') -> covers Xt ts -> f_levels Xt = 0 -> trend_transform ns_of (o_trend ob') Xt ts = Ok td -> yields e (trend_predict (o_trend ob') td) tv ->
  arr_wf tv /\ List.length (a_flat tv) = List.length ts.
Proof.
  intros H Hc L TT CV LV T Y. split; [eapply univariate_trend_ok; eauto|]. destruct (univariate_trend_fit _ _ _ _ _ _ _ _ _ _ _ _ _ H Hc) as (tr0 & X1 & yt & HT & LT & _). destruct TT as [SP|FT].
  - assert (NS : n_series_of yt = 1) by (unfold n_series_of; now rewrite LT, L). destruct (piecewise_value ns_of order _ _ _ _ _ HT SP ltac:(congruence)) as (sq & V). destruct (V _ _ _ _ _ T Y) as [W S].
    unfold arr_wf in W. rewrite W, S, NS, LT, L, shape_size. lia.
  - destruct (o_trend ob') as [|sc b loc|]; try contradiction. cbn [trend_transform] in T. inv_bind T. injection T as <-. unfold trend_rows in E. destruct (attr (b_fitted b)) as [[]|]; cbn [bind negb] in E; try discriminate.
    destruct (attr (b_cols b)) as [cols|]; [|discriminate]. cbn [bind] in E. rewrite select_filter in E. destruct (select_columns 0%R Xt cols) as [XC|] eqn:SC; [|discriminate]. cbn [bind] in E. injection E as <-.
    apply OverlapFrames.select_labels in SC as (S1 & S2 & _ & _). cbn [trend_predict] in Y. destruct loc as [loc|]; [|inversion Y]. unfold flat_prog in Y. destruct (flat_prior loc sc) as [cc rr].
    apply yields_bind in Y as (v & _ & Y). apply yields_ret in Y. subst tv. unfold flat_predict, arr_map, flat_transform. cbn [a_flat]. rewrite map_length, repeat_length, (covered_rows XC) by (apply (covers_same Xt); auto).
    rewrite (series_of_labels XC Xt) by auto. unfold series_of. rewrite LV. cbn [List.length]. lia.
Qed.

Theorem c104_univariate c ob y X ob' (f : fitted (P := P)) t0 : fit_forecaster c ob y X = (ob', Ok f) -> c_hier c = false -> f_levels y = 0 -> frame_wf y -> clean_config c ->
  scalar_piecewise (o_trend ob') \/ flat_trend (o_trend ob') -> (forall Z, X = Some Z -> frame_wf Z) -> (forall s Z s' Z', frame_wf Z -> tr_fit_transform s Z = (s', Ok Z') -> frame_wf Z') ->
  first_date (map r_time (f_rows y)) t0 ->
  forall y2 X2 fh m cutoff ts Xt, predict_model c ob' f y2 X2 fh = Ok m -> max_time (map r_time (f_rows y2)) = Ok cutoff -> to_absolute cutoff fh = ts ->
  run_transform tr_transform ob' (supplied X2 ts) = Ok Xt -> covers Xt ts -> frame_wf Xt -> f_levels Xt = 0 -> ts <> [] -> in_order ts ->
  forall e o tr, run e [] m = Ok (o, tr) ->
  exists tv, dict_get tr "trend" = Some (SDet tv) /\
  forall name ef, In (name, ef) (p_effects (ft_prepared f)) ->
    exists ef0 cols w, configured c name ef0 /\ In (name, ef, cols) (p_fitted (ft_prepared f)) /\ dict_get tr name = Some (SDet w) /\
    (forall j t r, nth_error ts j = Some t -> In r (f_rows Xt) -> r_time r = t ->
       exists x trend v, values_at Xt r cols x /\ nth_error (a_flat tv) j = Some trend /\ nth_error (a_flat w) j = Some v /\ answers e name (fun k => k) ef0 x (t - t0) trend v) /\
    priors e name 1 ef0 tr (List.length cols).
Proof.
  intros HF Hc L Wy HC TT WX WT FD y2 X2 fh m cutoff ts Xt Hm Hcut Hts RX CV WV LV N O e o tr RU.
  pose proof (univariate_state _ _ _ _ _ _ _ HF Hc L FD WX WT Wy) as ST. destruct (forecaster_clean _ _ _ _ _ _ _ _ _ _ _ _ _ HF HC) as (C1 & C2 & HX).
  destruct (predict_univariate _ _ _ _ _ _ _ _ _ _ _ _ Hm Hc (HX Hc) Hcut Hts) as (Xa & td & data & RX2 & TD & TE & ->).
  assert (XS : supplied X2 ts = match X2 with None => empty_frame 0 (map (fun t => ([], t)) ts) | Some X => X end) by (unfold supplied, empty_frame; destruct X2; [reflexivity|now rewrite map_map]). rewrite XS in RX. rewrite RX in RX2. injection RX2 as <-.
  destruct (one_run (fun _ _ => 0%R) c (ft_scale f) (ft_prepared f) (o_trend ob') td None data HX C1 C2) as (k & _ & ONE). destruct (ONE _ _ _ RU) as (mm & tv & lt & gs & l2 & ND & T & GS & _ & _ & E).
  destruct (univariate_trend_length _ _ _ _ _ _ _ _ _ _ _ HF Hc L TT CV LV TD (proj2 (eval_yields _ _ _) (ex_intro _ _ T))) as [WTV LTV].
  exists tv. split; [apply dict_get_nodup; [exact ND|]; rewrite E; apply in_app_iff; right; now left|]. intros name ef I.
  assert (HN : non_skipped (p_fitted (ft_prepared f)) = Ok (p_effects (ft_prepared f))).
  { pose proof HF as HF'. apply fit_forecaster_inv in HF'. destruct HF' as (s & ys & p & m & post & _ & _ & HF' & _ & ->). unfold fit_data in HF'. rewrite Hc in HF'. apply univariate_fit_inv in HF'. cbn [ft_prepared].
    now destruct HF' as (tr0 & t & yt & X1 & Xe & td' & data' & _ & _ & _ & _ & _ & _ & _ & _ & _ & HN & _). }
  destruct (prepared_entry _ _ _ _ _ HN TE name ef I) as (cols & XC & d & IF & SC & TR & SK & DG). destruct (ST _ _ _ IF) as [K (ef0 & CF & OP)].
  assert (GI : exists w l, eval (own_env e name) (predict ef d [("trend", tv)]) = Ok (w, l) /\ incl (own_sites (name, ef) (w, l)) tr).
  { rewrite E. clear -GS I DG. revert I GS. generalize (p_effects (ft_prepared f)). intros effs I. revert gs. induction effs as [|ne effs IH]; intros gs GS; [destruct I|]. inversion GS as [|? g ? gs' (x & Dx & Ex) GS']; subst. destruct I as [->|I].
    - cbn [fst snd] in *. rewrite DG in Dx. injection Dx as <-. destruct g as [w l]. exists w, l. split; [exact Ex|]. intros z Hz. apply in_or_app. right. right. apply in_or_app. left. cbn [combine map concat fst snd]. apply in_or_app. now left.
    - destruct (IH I gs' GS') as (w & l & H1 & H2). exists w, l. split; [exact H1|]. intros z Hz. apply H2 in Hz. apply in_app_or in Hz as [Hz|[Hz|Hz]]; apply in_or_app; [now left|right; now left|]. right. right. apply in_app_or in Hz as [Hz|Hz]; apply in_or_app; [left|now right].
      cbn [combine map concat fst snd]. apply in_or_app. now right. }
  destruct GI as (w & l & EV & IN). pose proof (proj2 (eval_yields _ _ _) (ex_intro _ _ EV)) as YV.
  destruct (transform_reads cols t0 ts N O Xt XC WV LV CV ef d _ _ _ SC K SK TR YV) as (rows & kk & INP & RD). pose proof (Forall2_len _ _ _ RD) as LR.
  assert (SO : List.length (series_of Xt) = 1) by (unfold series_of; now rewrite LV). rewrite (covered_rows _ _ CV), SO, Nat.mul_1_l in LR.
  assert (RN : rows <> []) by (intros ->; destruct ts; [congruence|discriminate]).
  exists ef0, cols, w. split; [exact CF|]. split; [exact IF|]. split. { apply dict_get_nodup; [exact ND|]. apply IN. unfold own_sites. cbn [fst snd]. apply in_or_app. right. now left. }
  split.
  - intros j t r Hj Hr Ht. assert (NJ : nth_error (f_rows (filter_fh ts Xt)) j = Some r).
    { assert (S0 : nth_error (series_of Xt) 0 = Some []) by (unfold series_of; now rewrite LV). destruct (covered_nth _ _ _ _ _ _ CV S0 Hj) as (r' & E' & P' & T'). cbn [Nat.mul Nat.add] in E'.
      assert (r = r'); [|now subst]. apply (nodup_map_inj (fun r => (r_path r, r_time r)) (f_rows (filter_fh ts Xt))).
      - change (NoDup (labels (filter_fh ts Xt))). rewrite (covers_labels _ _ CV). apply nodup_pairs; [apply series_of_nodup|now apply in_order_nodup].
      - unfold filter_fh, filter_rows. cbn [f_rows]. apply filter_In. split; [exact Hr|]. apply existsb_exists. exists t. split; [now apply nth_error_In in Hj|]. apply Z.eqb_eq. exact Ht.
      - now apply nth_error_In in E'.
      - destruct (WV r Hr) as [_ PR]. rewrite LV in PR. destruct (r_path r); [|discriminate]. congruence. }
    destruct (Forall2_nth_error_l _ _ _ RD j r NJ) as (z & HZ & RZ). destruct (predict_replies _ tv WTV ef rows kk d w RN INP ltac:(congruence) YV j z HZ) as (tk & v & HT & HV & RP).
    assert (VX : exists x, values_at Xt r cols x).
    { destruct (select_value Xt XC cols WV SC) as (g & _ & _ & _ & G). exists (r_vals (g r)). destruct (G r Hr) as (_ & _ & LG & VG). apply (nth_ext _ _ None None); [now rewrite !map_length|]. intros q Hq. rewrite map_length in Hq.
      destruct (nth_error cols q) as [cq|] eqn:EC; [|apply nth_error_None in EC; lia]. rewrite (nth_error_nth _ q None (map_nth_error _ q cols EC)). rewrite (VG q cq EC). symmetry. rewrite (nth_indep _ None (Some 0%R)) by (rewrite map_length; lia). apply (map_nth Some). }
    destruct VX as (x & VX). exists x, tk, v. do 3 (split; [assumption|]). eapply answers_options; [exact OP|]. subst t. eapply reads_answers; eauto.
  - assert (KS : kk = size 1 ef (List.length cols)). { destruct rows as [|z rows]; [congruence|]. inversion RD as [|? ? ? ? RZ]; subst. rewrite <- (reads_size _ _ _ _ _ _ RZ). symmetry. eapply inputs_size; [exact INP|now left]. }
    eapply draws_priors; [exact ND| |exact OP|rewrite <- KS; eapply predict_draws; eauto]. intros s Hs. apply IN. unfold own_sites. cbn [fst snd]. apply in_or_app. left. now apply in_map.
Qed.
End Any.
