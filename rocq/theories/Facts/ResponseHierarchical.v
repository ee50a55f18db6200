(** Components of forecasts of hierarchies. *)
From Coq Require Import Reals Lra ZArith String Ascii Bool List Lia Permutation.
From Verif.Model Require Import Base Num XFloat Frame Arr Prog Effect Expand Trend TrendProg Aggregate Scale Engine Forecaster.
From Verif.Spec Require Import RegexSpec FrameSpec ProgSpec EffectSpec ForecasterSpec SiteSpec ShapeSpec AlignSpec OverlapSpec ResponseSpec.
From Verif.Facts Require Import BaseFacts FrameFacts NumFacts ArrFacts ProgFacts EffectFacts EffectPredict EffectFourier AlignFacts AlignForecaster ExpandFacts ForecasterFacts ForecasterInv ForecasterProps ModelProps TotalFacts HorizonFacts OverlapFacts OverlapFrames OverlapForecaster SiteFacts ComponentFacts PosteriorFacts OverlapNone CompleteFacts OrderFacts DensityFacts DocsForecaster ResponseFacts ResponseEffects ResponseForecaster ResponsePanel ResponseRead.
From Verif.Facts Require InsampleFacts ShapeFacts FrameProps PredictFacts.
Import ListNotations.
Local Open Scope string_scope.

Lemma dates_same X p : dates_of X p = dates X p.
Proof.
  unfold dates_of, dates. f_equal. apply filter_ext. intros r. destruct (list_eq_dec string_dec (r_path r) p) as [E|E]; [apply path_eqb_eq; exact E|]. destruct (path_eqb (r_path r) p) eqn:Q; [apply path_eqb_eq in Q; contradiction|reflexivity].
Qed.
Lemma dates_labels (X Y : frame R) p : labels X = labels Y -> dates_of X p = dates_of Y p.
Proof.
  intros H. assert (G : forall l : list (row R), map r_time (filter (fun r => path_eqb (r_path r) p) l) = map snd (filter (fun pt => path_eqb (fst pt) p) (map (fun r => (r_path r, r_time r)) l))).
  { induction l as [|r l IH]; [reflexivity|]. cbn [filter map fst snd]. destruct (path_eqb (r_path r) p); cbn [map snd]; now rewrite IH. }
  unfold dates_of. rewrite !G. unfold labels in H. now rewrite H.
Qed.
Lemma knows_labels Z Z' cols ef m : labels Z' = labels Z -> knows_panel Z cols ef m -> knows_panel Z' cols ef m.
Proof.
  intros H [C K]. split; [exact C|]. pose proof (series_ids_labels _ _ H) as SI. destruct ef; auto. destruct K as (f & mm & K1 & K2 & K3 & K4 & K5 & K6). exists f, mm. split; [exact K1|]. split; [intros p t0; rewrite (dates_labels _ _ _ H); apply K2|]. do 3 (split; [assumption|]).
  rewrite SI. exact K6.
Qed.
Lemma knows_panel_input Z cols ef m : knows_panel Z cols ef m -> input_feature_column_names ef = Ok cols.
Proof. intros K. destruct ef; destruct K as [K K']; try contradiction; cbn [input_feature_column_names get_base] in *; now rewrite K. Qed.

Lemma reads_panel_selected Z0 cols m X XC ef r r' z : f_cols XC = cols -> r_path r' = r_path r -> r_time r' = r_time r -> values_at X r cols (r_vals r') -> reads_panel XC Z0 cols m ef r' z -> reads_panel X Z0 cols m ef r z.
Proof.
  assert (V : forall r r' z, f_cols XC = cols -> values_at X r cols (r_vals r') -> values_at XC r' cols z -> values_at X r cols z).
  { clear. intros r r' z C V H. unfold values_at in *. rewrite <- H. apply map_ext_in. intros c Hc. symmetry. rewrite C. now apply value_selected. }
  intros C P T H Hz. destruct ef; cbn [reads_panel] in *; eauto. now rewrite <- P, <- T.
Qed.

Section Transform.
Variables (ts : list Z).
Hypothesis (N : ts <> []) (O : in_order ts).
Variables (Z0 : frame R) (cols m : list string) (X XC : frame R).
Hypothesis (W : frame_wf X) (LV : f_levels X <> 0) (CV : covers X ts) (SC : select_columns 0%R X cols = Ok XC) (IDS : series_ids X = series_ids Z0).
Hypothesis (ND : NoDup (map (String.concat "-") (series_ids Z0))).

Lemma transform_reads_panel ef d env pe w : knows_panel Z0 cols ef m -> should_skip_predict ef = Ok false ->
  transform ef (Some XC) ts = Ok d -> yields env (predict ef d pe) w -> exists rows k, inputs ef rows k d /\ Forall2 (reads_panel X Z0 cols m ef) (f_rows (filter_fh ts X)) rows.
Proof.
  intros K SK H Y. unfold transform in H. destruct (attr (b_fitted _)) as [[]|]; cbn [bind negb] in H; try discriminate. rewrite SK, (knows_panel_input _ _ _ _ K) in H. cbn [bind] in H.
  rewrite select_filter in H. destruct (select_columns 0%R XC cols) as [XD|] eqn:SD; [|discriminate]. cbn [bind] in H.
  pose proof (select_wf _ _ _ W SC) as WC. pose proof (OverlapFrames.select_labels _ _ _ SC) as (S1 & S2 & S3 & _). assert (CC : covers XC ts) by (apply (covers_same X); auto).
  destruct (inner_reads_panel ts Z0 cols m N O XC XD WC ltac:(congruence) CC SD ltac:(rewrite <- IDS; now apply series_ids_labels) ND env pe ef d w K H Y) as (rows & k & I & F). exists rows, k. split; [exact I|].
  pose proof (select_values_at _ _ _ W SC) as F2.
  assert (F3 : Forall2 (fun r r' => r_path r' = r_path r /\ r_time r' = r_time r /\ values_at X r cols (r_vals r')) (f_rows (filter_fh ts X)) (f_rows (filter_fh ts XC))).
  { unfold filter_fh, filter_rows. cbn [f_rows]. apply Forall2_filter; [exact F2|]. intros r r' (_ & -> & _). reflexivity. }
  clear -F F3 S3. revert rows F. induction F3 as [|r r' l l' (P & T & V) F3 IH]; intros rows F; inversion F; subst; constructor; auto. eapply reads_panel_selected; eauto.
Qed.
End Transform.

(** the trend has as many values as there are rows *)
Lemma predict_length env tv (W : arr_wf tv) Z0 cols m ef rows k d w : knows_panel Z0 cols ef m -> inputs ef rows k d -> yields env (predict ef d [("trend", tv)]) w -> List.length (a_flat tv) = List.length rows.
Proof.
  intros [_ K] I Y. destruct ef as [mo p b|mo p q b|mo p q r b|inner tab ps b sc|sp terms ps mo b ff x l]; try contradiction.
  - destruct d as [|a|]; try contradiction. cbn [inputs predict] in *. apply (mode_value _ _ _ [("trend", tv)] _ tv W eq_refl) in Y as (x & Y & Lx & _). apply (linear_value _ _ _ rows k) in Y as (_ & L & _); [congruence|exact I].
  - destruct d as [|a|]; try contradiction. cbn [inputs predict] in *. destruct l as [[mm bb]|]; [|inversion Y]. apply (mode_value _ _ _ [("trend", tv)] _ tv W eq_refl) in Y as (y & Y & Lx & _). apply (linear_value _ _ _ rows k) in Y as (_ & L & _); [congruence|exact I].
Qed.
(** how the waves are numbered *)
Definition sigma_of (ef : effect) (m : list string) (k : nat) : nat :=
  match ef with Fourier sp terms _ _ _ _ _ _ => renumber (fourier_cols (fourier_pairs sp terms)) m k | _ => 0 end.
Lemma numbering_of Z0 cols ef m ef0 : knows_panel Z0 cols ef m -> options ef0 ef -> numbering ef0 (sigma_of ef m).
Proof.
  intros [_ K] O. destruct ef0, ef; try contradiction; cbn [numbering options] in *; auto. destruct O as (-> & -> & -> & ->). destruct K as (f & mm & _ & _ & FP & _ & PM & _). rewrite FP in PM.
  eexists. split; [apply pairs_harmonics|]. cbn [sigma_of]. rewrite <- fourier_cols_length. apply renumber_perm; [apply fourier_cols_nodup|exact PM].
Qed.
(** the numbering is fixed by the fit *)
Definition wave_numbers (ef : effect) : nat -> nat :=
  sigma_of ef (match ef with Fourier sp terms _ _ _ _ (Some ex) _ => ex_matched ex | Fourier sp terms _ _ _ _ None _ => fourier_cols (fourier_pairs sp terms) | _ => [] end).
Lemma sigma_fixed Z cols ef m : knows_panel Z cols ef m -> sigma_of ef m = wave_numbers ef.
Proof.
  intros [_ K]. unfold wave_numbers. destruct ef as [mo p b|mo p q b|mo p q r b|inner tab ps b sc|sp terms ps mo b ff x l]; try contradiction; [reflexivity|]. destruct K as (f & mm & _ & _ & FP & _ & _ & K).
  destruct x as [ex|]; [destruct K as (_ & <- & _); reflexivity|]. destruct K as (_ & -> & _). now rewrite FP.
Qed.
Lemma reads_panel_answers e name X Z0 cols m ef r x z i t0 trend v : reads_panel X Z0 cols m ef r z -> knows_panel Z0 cols ef m -> values_at X r cols x -> nth_error (series_ids Z0) i = Some (r_path r) -> first_date (dates_of Z0 (r_path r)) t0 ->
  replies (own_env e name) ef z trend v -> answers e name (fun k => sigma_of ef m k * List.length (series_ids Z0) + i) ef x (r_time r - t0) trend v.
Proof.
  intros RD [_ K] V Hi Ht RP. destruct ef as [mo p b|mo p q b|mo p q b0 b|inner tab ps b sc|sp terms ps mo b ff y l]; try contradiction; cbn [reads_panel replies answers sigma_of] in *.
  - assert (z = x) by (apply map_Some_inj; unfold values_at in *; congruence). subst z. exact RP.
  - destruct K as (f & mm & _ & _ & FP & MN & _ & K). destruct RP as (m0 & b0 & -> & ->). exists mm, (fourier_pairs sp terms). split; [exact MN|]. split; [apply pairs_harmonics|].
    assert (m0 = mm) by (destruct y; destruct K as (_ & _ & [= -> _]); reflexivity). subst m0. f_equal. destruct RD as [_ RD]. rewrite (RD i t0 Hi Ht). reflexivity.
Qed.
Lemma reads_panel_size X Z0 cols m ef r z : reads_panel X Z0 cols m ef r z -> knows_panel Z0 cols ef m -> List.length z = size (List.length (series_ids Z0)) ef (List.length cols).
Proof.
  intros RD [_ K]. assert (V : values_at X r cols z -> List.length z = List.length cols) by (intros H; apply (f_equal (@List.length _)) in H; rewrite !map_length in H; congruence).
  destruct ef; try contradiction; cbn [reads_panel size] in *; [auto|]. apply RD.
Qed.

(** * Expansion *)
Lemma expand_bottom_state order (Order : forall l, Permutation (order l) l) shared (X X' : frame R) ex ids : expand_bottom 0%R (fun _ => false) order shared X = Ok (X', ex) -> f_levels X <> 0 -> copyable shared (f_cols X) ids ->
  ex_skip ex = false /\ NoDup (ex_matched ex) /\ forall c, In c (ex_matched ex) <-> In c (f_cols X) /\ ~ In c shared.
Proof.
  intros H L (ND & Lit & Pre & _). assert (FL : Forall literal (columns_to_expand (f_cols X) shared)).
  { apply Forall_forall. intros c Hc. apply columns_to_expand_In in Hc as [Hc _]. rewrite Forall_forall in Lit. auto. }
  destruct (expand_fit_literal order (columns_to_expand (f_cols X) shared) X FL L) as (e & Ee & Es & Em). unfold expand_bottom in H. rewrite Ee in H. cbn [bind] in H.
  assert (EQ : ex_skip ex = false /\ ex_matched ex = ex_matched e).
  { unfold expand_transform in H. rewrite Es in H. destruct (f_levels X); [congruence|]. destruct (copy_columns _ _ _ _ _ _); [|discriminate]. cbn [bind] in H. injection H as _ <-. auto. }
  destruct EQ as [E1 E2]. rewrite E2. split; [exact E1|]. split.
  - rewrite Em. eapply Permutation_NoDup; [apply Permutation_sym, Order|]. apply NoDup_filter, strs_unique_NoDup.
  - intros c. rewrite Em. assert (PI : forall l, In c (order l) <-> In c l) by (intros l; split; apply Permutation_in; [|apply Permutation_sym]; apply Order). rewrite PI, filter_In, strs_unique_In, existsb_exists. split.
    + intros [Hc (p & Hp & Hpre)]. split; [exact Hc|]. intros Hs. apply columns_to_expand_In in Hp as [Hp1 Hp2]. rewrite Pre in Hpre by assumption. discriminate.
    + intros [Hc Hs]. split; [exact Hc|]. exists c. split; [|apply prefix_refl]. apply columns_to_expand_In. auto.
Qed.
Lemma joins_distinct shared cols ids : cols <> [] -> NoDup ids -> copyable shared cols ids -> NoDup (map (String.concat "-") ids).
Proof.
  intros NE N (_ & _ & _ & Inj & _). destruct cols as [|c cols]; [congruence|]. apply NoDup_map_inj; [exact N|]. intros p q Hp Hq E. destruct (Inj c p c q) as [_ H]; auto; try (now left). now rewrite E.
Qed.
Lemma expanded_seen shared (X U : frame R) ex ex' : frame_wf X -> f_levels X <> 0 -> copyable shared (f_cols X) (series_ids X) -> ex_skip ex = false -> NoDup (ex_matched ex) -> (forall c, In c (ex_matched ex) <-> In c (f_cols X) /\ ~ In c shared) ->
  expand_transform 0%R (fun _ => false) ex X = Ok (U, ex') ->
  Forall2 (fun r r' => r_path r' = r_path r /\ r_time r' = r_time r /\ forall col u, value_of (f_cols U) (r_vals r') col = Some u -> seen shared (series_ids X) X r col u) (f_rows X) (f_rows U).
Proof.
  intros W L (ND & _ & _ & Inj & Fresh) SK NDm Min EX.
  assert (NDA : NoDup (f_cols X ++ map pname (zero_pairs (ex_matched ex) (series_ids X)))).
  { apply nodup_app; [exact ND| |].
    - apply NoDup_map_inj; [apply NoDup_flat_pairs; [exact NDm|apply paths_unique_NoDup]|]. intros [c i] [c' i'] H1 H2 E. apply zero_pairs_In in H1 as [H1 H1']. apply zero_pairs_In in H2 as [H2 H2']. cbn [fst snd] in *. unfold pname in E. cbn [fst snd] in E.
      apply Min in H1 as [H1 _]. apply Min in H2 as [H2 _]. destruct (Inj c i c' i') as [-> ->]; auto.
    - intros n Hn Hm. apply in_map_iff in Hm as ([c i] & <- & Hp). apply zero_pairs_In in Hp as [Hc Hi]. cbn [fst snd] in *. apply Min in Hc as [Hc _]. exact (Fresh c i Hc Hi Hn). }
  destruct (expand_transform_spec 0%R (fun _ => false) eq_refl ex X _ _ eq_refl eq_refl W L SK ND NDm ltac:(intros c Hc; now apply Min) NDA) as (U' & e' & EE & EL & EC & F). rewrite EX in EE. injection EE as <- <-.
  apply ExpandFacts.Forall2_impl with (2 := F). cbn. intros r r' Hr (P & T & Len & V1 & V2). split; [exact P|]. split; [exact T|]. intros col u Hu.
  assert (IC : In col (f_cols U)) by (destruct (in_dec string_dec col (f_cols U)) as [I|I]; [exact I|rewrite value_of_not_in in Hu by exact I; discriminate]). rewrite EC in IC. apply in_app_or in IC as [IC|IC].
  - apply filter_In in IC as [IC NM]. apply negb_true_iff in NM. assert (NM' : ~ In col (ex_matched ex)) by (intros H; apply str_in_iff in H; congruence). left. split; [exact IC|]. split; [destruct (in_dec string_dec col shared) as [I|I]; [exact I|elim NM'; apply Min; auto]|]. rewrite <- V1; auto.
  - apply in_map_iff in IC as ([c q] & <- & Hp). apply zero_pairs_In in Hp as [Hc Hq]. cbn [fst snd] in *. change (pname (c, q)) with (get_col_name c q) in *. rewrite V2 in Hu by assumption. pose proof (proj1 (Min c) Hc) as [Hc1 Hc2].
    right. exists c, q. split; [exact Hc1|]. split; [exact Hc2|]. split; [exact Hq|]. split; [reflexivity|]. destruct (path_eqb (r_path r) q) eqn:E.
    + left. apply path_eqb_eq in E. split; [now symmetry|]. destruct (value_of (f_cols X) (r_vals r) c) as [v|] eqn:EV; [|discriminate]. cbn in Hu. exact Hu.
    + right. split; [|congruence]. intros ->. rewrite path_eqb_refl in E. discriminate.
Qed.
Lemma bottom_series_ids X Xb : frame_wf X -> f_levels X <> 0 -> loc_bottom_series X = Ok Xb -> series_ids Xb = bottom_series X /\ f_cols Xb = f_cols X /\ f_levels Xb = f_levels X /\ f_rows Xb <> [] /\
  forall p, In p (bottom_series X) -> forall r, r_path r = p -> In r (f_rows Xb) <-> In r (f_rows X).
Proof.
  intros W L H. rewrite loc_bottom_spec in H by assumption. cbv zeta in H. destruct (f_rows (filter_rows _ X)) as [|r00 rs00] eqn:ER in H; [discriminate|]. injection H as <-. split; [|split; [reflexivity|split; [reflexivity|split]]].
  - unfold bottom_series, series_ids, filter_rows. cbn [f_rows]. unfold paths_unique. rewrite <- (unique_filter path_eqb path_eqb_eq). f_equal. symmetry. apply filter_map_comm. reflexivity.
  - rewrite ER. discriminate.
  - intros p Hp r Hr. unfold bottom_series in Hp. apply filter_In in Hp as [_ Hp]. unfold filter_rows. cbn [f_rows]. rewrite filter_In. split; [tauto|]. intros I. split; [exact I|]. now rewrite Hr.
Qed.
Lemma bottom_dates X Xb p : frame_wf X -> f_levels X <> 0 -> loc_bottom_series X = Ok Xb -> In p (bottom_series X) -> dates_of Xb p = dates X p.
Proof.
  intros W L H Hp. rewrite <- dates_same. rewrite loc_bottom_spec in H by assumption. cbv zeta in H. destruct (f_rows (filter_rows _ X)) as [|r00 rs00] eqn:ER in H; [discriminate|]. injection H as <-. clear ER.
  unfold dates_of, filter_rows. cbn [f_rows]. f_equal. unfold bottom_series in Hp. apply filter_In in Hp as [_ Hp]. induction (f_rows X) as [|r l IH]; [reflexivity|]. cbn [filter]. destruct (path_eqb (r_path r) p) eqn:E.
  - apply path_eqb_eq in E. rewrite E. change total_name with "__total". rewrite Hp. cbn [filter]. rewrite E, path_eqb_refl. now f_equal.
  - destruct (negb (String.eqb (last (r_path r) "") total_name)); cbn [filter]; rewrite ?E; exact IH.
Qed.

(** * Effects fitted on a panel *)
Lemma panel_state order (Order : forall l, Permutation (order l) l) c (Ut : frame R) s fitted : frame_wf Ut -> f_levels Ut <> 0 -> f_rows Ut <> [] -> NoDup (map (String.concat "-") (series_ids Ut)) ->
  fit_effects order (c_default c) (effects_of c) (Some Ut) s = Ok fitted ->
  forall name ef cols, In (name, ef, cols) fitted -> (exists m, knows_panel Ut cols ef m) /\ exists ef0, configured c name ef0 /\ options ef0 ef.
Proof.
  intros W L N ND HE name ef cols I.
  assert (S2 : forall e0 XC, select_columns 0%R Ut cols = Ok XC -> fit order (clone e0) (Some XC) s = (ef, None) -> (exists m, knows_panel Ut cols ef m) /\ options e0 ef).
  { intros e0 XC SC FT. pose proof (select_wf _ _ _ W SC) as WC. pose proof (OverlapFrames.select_labels _ _ _ SC) as (Q1 & Q2 & Q3 & _). split; [|eapply fit_options; eauto].
    destruct (fit_knows_panel order Order e0 XC s ef WC ltac:(congruence)) as (m & K).
    - intros E. unfold labels in Q1. rewrite E in Q1. destruct (f_rows Ut); [congruence|discriminate].
    - rewrite (series_ids_labels _ _ Q1). exact ND.
    - exact FT.
    - exists m. rewrite Q3 in K. eapply knows_labels; [|exact K]. now symmetry. }
  apply fit_effects_inv in HE as (main & dflt & EF & F & D). rewrite EF in I. apply in_app_iff in I as [I|I].
  - apply Forall2_In_both in F. destruct (proj2 F _ I) as (l & Hl & NM & _ & XC & SC & FT). cbn [fe_name fe_cols fe_effect fst snd] in *. destruct (S2 _ _ SC FT) as [K OP]. split; [exact K|]. exists (l_effect l). split; [|exact OP]. left. now apply configured_listed.
  - destruct D as [[-> _]|(g & -> & NM & _ & _ & XC & SC & FT)]; [contradiction|]. destruct I as [->|[]]. cbn [fe_name fe_cols fe_effect fst snd] in *. destruct (S2 _ _ SC FT) as [K OP]. split; [exact K|]. exists (default_of (c_default c)). split; [|exact OP]. right. now apply configured_default.
Qed.

(** the row of a series and a date *)
Lemma covered_row (U : frame R) ts i j p t r : covers U ts -> in_order ts -> nth_error (series_of U) i = Some p -> nth_error ts j = Some t -> In r (f_rows U) -> r_path r = p -> r_time r = t ->
  nth_error (f_rows (filter_fh ts U)) (i * List.length ts + j) = Some r.
Proof.
  intros CV O Hi Hj Hr Hp Ht. destruct (covered_nth _ _ _ _ _ _ CV Hi Hj) as (r' & E' & P' & T'). assert (r = r'); [|now subst]. apply (nodup_map_inj (fun r => (r_path r, r_time r)) (f_rows (filter_fh ts U))).
  - change (NoDup (labels (filter_fh ts U))). rewrite (covers_labels _ _ CV). apply nodup_pairs; [apply series_of_nodup|now apply in_order_nodup].
  - unfold filter_fh, filter_rows. cbn [f_rows]. apply filter_In. split; [exact Hr|]. apply existsb_exists. exists t. split; [now apply nth_error_In in Hj|]. apply Z.eqb_eq. exact Ht.
  - now apply nth_error_In in E'.
  - congruence.
Qed.
(** the component of one effect in the trace *)
Lemma component_sites e (effs : list (string * effect)) data tv gs name ef d pre mid post :
  Forall2 (fun ne g => exists x, dict_get data (fst ne) = Some x /\ eval (own_env e (fst ne)) (predict (snd ne) x [("trend", tv)]) = Ok g) effs gs -> In (name, ef) effs -> dict_get data name = Some d ->
  exists w l, eval (own_env e name) (predict ef d [("trend", tv)]) = Ok (w, l) /\ incl (own_sites (name, ef) (w, l)) (pre ++ mid :: concat (map (fun q => own_sites (fst q) (snd q)) (combine effs gs)) ++ post).
Proof.
  intros GS I DG. revert gs GS. induction effs as [|ne effs IH]; intros gs GS; [destruct I|]. inversion GS as [|? g ? gs' (x & Dx & Ex) GS']; subst. destruct I as [->|I].
  - cbn [fst snd] in *. rewrite DG in Dx. injection Dx as <-. destruct g as [w l]. exists w, l. split; [exact Ex|]. intros z Hz. apply in_or_app. right. right. apply in_or_app. left. cbn [combine map concat fst snd]. apply in_or_app. now left.
  - destruct (IH I gs' GS') as (w & l & H1 & H2). exists w, l. split; [exact H1|]. intros z Hz. apply H2 in Hz. apply in_app_or in Hz as [Hz|[Hz|Hz]]; apply in_or_app; [now left|right; now left|]. right. right. apply in_app_or in Hz as [Hz|Hz]; apply in_or_app; [left|now right].
    cbn [combine map concat fst snd]. apply in_or_app. now right.
Qed.

Lemma selected_values (X XC : frame R) cols r : frame_wf X -> select_columns 0%R X cols = Ok XC -> In r (f_rows X) -> exists x, values_at X r cols x.
Proof. intros W SC Hr. pose proof (select_values_at _ _ _ W SC) as F. apply Forall2_In_both in F. destruct (proj1 F _ Hr) as (r' & _ & _ & _ & V). eauto. Qed.

Section Any.
Variable ns_of : Z -> Z.
Variable order : list string -> list string.
Hypothesis Order : forall l, Permutation (order l) l.
Variable keep : path -> bool.
Context {TS : Type}.
Variable tr_fit_transform : TS -> frame R -> TS * res (frame R).
Variable tr_transform : TS -> frame R -> res (frame R).
Context {P : Type}.
Variable svi_run : Z -> nat -> nat -> prog arr -> res (list xr * P).
Variable nuts_run : Z -> nat -> nat -> nat -> prog arr -> res (nat -> nat -> env).
Variable latent_sites : prog arr -> list string.
Notation fit_forecaster := (fit_forecaster ns_of order keep tr_fit_transform svi_run nuts_run latent_sites).
Notation predict_model := (predict_model ns_of keep tr_transform).

Lemma panel_components c ob y X ob' (f : fitted (P := P)) Ut s0 : fit_forecaster c ob y X = (ob', Ok f) -> c_hier c = true -> f_levels y <> 0 -> frame_wf y -> (forall r, In r (f_rows y) -> ~ In "__total" (r_path r)) ->
  clean_config c -> scalar_piecewise (o_trend ob') ->
  frame_wf Ut -> f_levels Ut <> 0 -> f_rows Ut <> [] -> NoDup (map (String.concat "-") (series_ids Ut)) -> fit_effects order (c_default c) (effects_of c) (Some Ut) s0 = Ok (p_fitted (ft_prepared f)) ->
  non_skipped (p_fitted (ft_prepared f)) = Ok (p_effects (ft_prepared f)) ->
  forall U ts td data, frame_wf U -> f_levels U <> 0 -> covers U ts -> series_ids U = series_ids Ut -> ts <> [] -> in_order ts ->
  trend_transform ns_of (o_trend ob') U ts = Ok td -> transform_effects (p_fitted (ft_prepared f)) U ts = Ok data ->
  forall e o tr, run e [] (model_call c (ft_scale f) (ft_prepared f) (o_trend ob') td None (Some data)) = Ok (o, tr) ->
  exists tv, dict_get tr "trend" = Some (SDet tv) /\
  forall name ef, In (name, ef) (p_effects (ft_prepared f)) ->
    exists ef0 cols w, configured c name ef0 /\ In (name, ef, cols) (p_fitted (ft_prepared f)) /\ dict_get tr name = Some (SDet w) /\ numbering ef0 (wave_numbers ef) /\
    (forall i j t r t0, nth_error (series_ids Ut) i = Some (r_path r) -> nth_error ts j = Some t -> In r (f_rows U) -> r_time r = t -> first_date (dates_of Ut (r_path r)) t0 ->
       exists x trend v, values_at U r cols x /\ nth_error (a_flat tv) (i * List.length ts + j) = Some trend /\ nth_error (a_flat w) (i * List.length ts + j) = Some v /\
         answers e name (fun k => wave_numbers ef k * List.length (series_ids Ut) + i) ef0 x (t - t0) trend v) /\
    priors e name (List.length (series_ids Ut)) ef0 tr (List.length cols).
Proof.
  intros HF Hc L Wy NT HC SP WT LT NRT ND HE HN U ts td data WU LU CV IDS N O TD TE e o tr RU.
  pose proof (panel_state order Order c Ut s0 _ WT LT NRT ND HE) as ST. destruct (forecaster_clean _ _ _ _ _ _ _ _ _ _ _ _ _ HF HC) as (C1 & C2 & HX).
  destruct (one_run (fun _ _ => 0%R) c (ft_scale f) (ft_prepared f) (o_trend ob') td None data HX C1 C2) as (k & _ & ONE). destruct (ONE _ _ _ RU) as (mm & tv & lt & gs & l2 & NDT & T & GS & _ & _ & E).
  destruct (hierarchical_trend_shape _ _ _ _ _ _ _ _ _ _ _ _ _ HF Hc L Wy NT SP) as (sq & TS0). destruct (TS0 _ _ _ _ _ TD (proj2 (eval_yields _ _ _) (ex_intro _ _ T))) as [WTV _].
  exists tv. split; [apply dict_get_nodup; [exact NDT|]; rewrite E; apply in_app_iff; right; now left|]. intros name ef I.
  destruct (prepared_entry _ _ _ _ _ HN TE name ef I) as (cols & XC & d & IF & SC & TR & SK & DG). destruct (ST _ _ _ IF) as [(m & K) (ef0 & CF & OP)].
  destruct (component_sites e (p_effects (ft_prepared f)) data tv gs name ef d lt ("trend", SDet tv) l2 GS I DG) as (w & l & EV & IN). rewrite <- E in IN. pose proof (proj2 (eval_yields _ _ _) (ex_intro _ _ EV)) as YV.
  destruct (transform_reads_panel ts N O Ut cols m U XC WU LU CV SC IDS ND ef d _ _ _ K SK TR YV) as (rows & kk & INP & RD). pose proof (Forall2_len _ _ _ RD) as LR. pose proof (predict_length _ _ WTV _ _ _ _ _ _ _ _ K INP YV) as LTV.
  assert (SO : series_of U = series_ids Ut) by (unfold series_of; destruct (f_levels U); [congruence|exact IDS]).
  assert (RN : rows <> []).
  { intros ->. rewrite (covered_rows _ _ CV), SO in LR. assert (NI : series_ids Ut <> []) by (intros Q; assert (HR : exists r, In r (f_rows Ut)) by (clear -NRT; destruct (f_rows Ut) as [|r0 rs]; [congruence|exists r0; now left]); destruct HR as (r & Hr); assert (In (r_path r) (series_ids Ut)) by (apply series_ids_In; eauto); rewrite Q in *; contradiction).
    destruct (series_ids Ut); [congruence|]. destruct ts; [congruence|]. discriminate. }
  exists ef0, cols, w. rewrite <- (sigma_fixed _ _ _ _ K). split; [exact CF|]. split; [exact IF|]. split. { apply dict_get_nodup; [exact NDT|]. apply IN. unfold own_sites. cbn [fst snd]. apply in_or_app. right. now left. }
  split; [eapply numbering_of; eauto|]. split.
  - intros i j t r t0 Hi Hj Hr Ht FD. assert (NJ : nth_error (f_rows (filter_fh ts U)) (i * List.length ts + j) = Some r) by (eapply covered_row; eauto; now rewrite SO).
    destruct (Forall2_nth_error_l _ _ _ RD _ r NJ) as (z & HZ & RZ). destruct (predict_replies _ tv WTV ef rows kk d w RN INP LTV YV _ z HZ) as (tk & v & HT & HV & RP).
    destruct (selected_values _ _ _ _ WU SC Hr) as (x & VX). exists x, tk, v. do 3 (split; [assumption|]). eapply answers_options; [exact OP|]. subst t. eapply reads_panel_answers; eauto.
  - assert (KS : kk = size (List.length (series_ids Ut)) ef (List.length cols)). { destruct rows as [|z rows]; [congruence|]. inversion RD as [|? ? ? ? RZ]; subst. rewrite <- (reads_panel_size _ _ _ _ _ _ _ RZ K). symmetry. eapply inputs_size; [exact INP|now left]. }
    eapply draws_priors; [exact NDT| |exact OP|rewrite <- KS; eapply predict_draws; eauto]. intros s Hs. apply IN. unfold own_sites. cbn [fst snd]. apply in_or_app. left. now apply in_map.
Qed.

(** a forecast with any transformer *)
Lemma predict_transformed c ob (f : fitted (P := P)) y2 X fh cutoff ts m : predict_model c ob f y2 X fh = Ok m -> c_hier c = true -> max_time (map snd (p_index (ft_prepared f))) = Ok cutoff -> to_absolute cutoff fh = ts ->
  exists Xb Xt Xe td data, loc_bottom_series (let none := Aggregate.aggregate keep (empty_frame (f_levels y2) (map fst (reindex_time_series y2 ts))) in match X with None => none | Some X => if no_columns X then none else X end) = Ok Xb /\
    (if p_has_exogenous (ft_prepared f) then run_transform tr_transform ob Xb = Ok Xt /\ exists ex ex', p_expander (ft_prepared f) = Some ex /\ expand_transform 0%R (fun _ => false) ex Xt = Ok (Xe, ex') else Xe = Xb) /\
    trend_transform ns_of (o_trend ob) Xe ts = Ok td /\ transform_effects (p_fitted (ft_prepared f)) Xe ts = Ok data /\
    m = model_call c (ft_scale f) (ft_prepared f) (o_trend ob) td None (Some data).
Proof.
  intros H Hc HM HT. unfold ForecasterSpec.predict_model in H. rewrite Hc in H. destruct (hierarchical_predict_model _ _ _ _ _ _ _ _ _) as [[m' ex0]|] eqn:E; [|discriminate]. cbn [bind fst] in H. injection H as ->.
  unfold hierarchical_predict_model in E. rewrite HM in E. cbn [bind] in E. cbv zeta in E. rewrite HT in E. cbv zeta.
  destruct (loc_bottom_series _) as [Xb|]; [|discriminate]. cbn [bind] in E. exists Xb. destruct (p_has_exogenous (ft_prepared f)).
  - destruct (forallb _ _); [|discriminate]. destruct (run_transform _ ob Xb) as [Xt|] eqn:RT; [|discriminate]. cbn [bind] in E. destruct (p_expander (ft_prepared f)) as [ex|]; [|discriminate]. cbn [attr bind] in E.
    destruct (expand_transform _ _ _ _) as [[Xe ex']|] eqn:EX; [|discriminate]. cbn [bind] in E. destruct (trend_transform _ _ _ _) as [td|] eqn:TT; [|discriminate]. cbn [bind] in E.
    destruct (transform_effects _ _ _) as [data|] eqn:TE; [|discriminate]. cbn [bind] in E. injection E as <- <-. exists Xt, Xe, td, data. repeat split; auto. eauto.
  - cbn [bind] in E. destruct (trend_transform _ _ _ _) as [td|] eqn:TT; [|discriminate]. cbn [bind] in E.
    destruct (transform_effects _ _ _) as [data|] eqn:TE; [|discriminate]. cbn [bind] in E. injection E as <- <-. exists Xb, Xb, td, data. auto.
Qed.

(** what the model is given *)
Lemma given_trained d s0 y ys X B : scale_y d s0 y = Ok ys -> given_training X y B ->
  loc_bottom_series (match X with
                   | None => empty_frame (f_levels (aggregate keep ys)) (index_of (aggregate keep ys))
                   | Some X => if no_columns X then empty_frame (f_levels (aggregate keep ys)) (index_of (aggregate keep ys)) else X
                   end) = Ok B.
Proof.
  intros HS [(Z & -> & NZ & HB)|(HN & (L & N & W & NT) & ls & PL & SL & ->)].
  - unfold no_columns. destruct (f_cols Z); [congruence|exact HB].
  - destruct (scale_y_index _ _ _ _ HS) as [IX LX]. pose proof (scale_y_wf _ _ _ _ W HS) as WS.
    assert (NS : f_rows ys <> []). { intros E. apply N. unfold index_of in IX. rewrite E in IX. destruct (f_rows y); [reflexivity|discriminate]. }
    assert (NTS : forall r, In r (f_rows ys) -> ~ In total_name (r_path r)).
    { intros r Hr. assert (I : In (r_path r, r_time r) (index_of ys)) by (unfold index_of; apply in_map_iff; now exists r).
      rewrite IX in I. unfold index_of in I. apply in_map_iff in I as (r' & E & Hr'). injection E as <- _. now apply NT. }
    assert (EX : match X with None => empty_frame (f_levels (aggregate keep ys)) (index_of (aggregate keep ys)) | Some X => if no_columns X then empty_frame (f_levels (aggregate keep ys)) (index_of (aggregate keep ys)) else X end
      = InsampleFacts.strip (aggregate keep ys)).
    { destruct X as [X|]; [|reflexivity]. unfold no_columns. rewrite (HN X eq_refl). reflexivity. }
    rewrite EX, InsampleFacts.strip_bottom, bottom_of_aggregate_all by (auto; congruence). cbn [bind]. f_equal. unfold InsampleFacts.strip, empty_frame, blank. change (f_levels (sort_index ys)) with (f_levels ys). rewrite LX. f_equal. f_equal.
    apply (key_sorted_unique (fun x : path * Z => x)); auto.
    + rewrite PL. change (labels y) with (index_of y). rewrite <- IX. unfold index_of. apply Permutation_map. symmetry. apply ShapeFacts.sort_index_perm_rows.
    + apply FrameProps.strong_key_sorted. rewrite map_id. apply PredictFacts.sort_index_sorted.
    + apply FrameProps.strong_key_sorted. rewrite map_id. exact SL.
Qed.

Lemma given_predicted y2 X ts B : ts <> [] -> in_order ts -> given_forecast X y2 ts B ->
  loc_bottom_series (let none := aggregate keep (empty_frame (f_levels y2) (map fst (reindex_time_series y2 ts))) in match X with None => none | Some X => if no_columns X then none else X end) = Ok B.
Proof.
  intros NE O [(Z & -> & NZ & HB)|(HN & (L2 & R2 & W2 & NT2) & ids & (ND & SI & MI) & ->)]; cbv zeta.
  - unfold no_columns. destruct (f_cols Z); [congruence|exact HB].
  - set (ps := product (index_levels y2)) in *.
    assert (NI : NoDup ps) by (apply product_NoDup, index_levels_NoDup).
    assert (IP : forall p, In p ps <-> In p ids) by (intros p; rewrite MI; apply product_levels_In).
    assert (PL : forall p, In p ps -> List.length p = f_levels y2) by (intros p Hp; apply IP, MI in Hp; tauto).
    assert (PN : forall p, In p ps -> ~ In "__total" p).
    { intros p Hp I. apply IP, MI in Hp as [Hl Hp]. apply (In_nth _ _ "") in I as (i & Hi & Ei). destruct (Hp i ltac:(lia)) as (r & Hr & Er). apply (NT2 r Hr). rewrite <- Ei, <- Er. apply nth_In. destruct (W2 r Hr) as [_ ->]. lia. }
    assert (EX : match X with None => aggregate keep (empty_frame (f_levels y2) (map fst (reindex_time_series y2 ts))) | Some X => if no_columns X then aggregate keep (empty_frame (f_levels y2) (map fst (reindex_time_series y2 ts))) else X end
      = aggregate keep (empty_frame (f_levels y2) (map fst (reindex_time_series y2 ts)))).
    { destruct X as [X|]; [|reflexivity]. unfold no_columns. rewrite (HN X eq_refl). reflexivity. }
    rewrite EX. clear EX. assert (ER : map fst (reindex_time_series y2 ts) = cells ps ts).
    { unfold reindex_time_series. rewrite map_map. cbn [fst]. destruct (f_levels y2) eqn:EL; [congruence|]. fold ps. rewrite <- (map_id (cells ps ts)). unfold cells. apply map_ext. now intros []. }
    rewrite ER, bottom_of_aggregate_all.
    + rewrite sort_cells by assumption. f_equal. unfold blank, empty_frame. do 2 f_equal. unfold cells. f_equal. apply (key_sorted_unique pkey).
      * intros p q _ _ E. now injection E.
      * rewrite <- key_sort_perm. apply NoDup_Permutation; auto.
      * apply key_sort_sorted.
      * apply FrameProps.strong_key_sorted. clear -SI. induction SI as [|p l S IH F]; cbn [map]; constructor; [exact IH|]. apply Forall_forall. intros x Hx. apply in_map_iff in Hx as (q & <- & Hq). rewrite Forall_forall in F. now apply F.
    + now apply cells_wf.
    + exact L2.
    + destruct ts as [|t ts]; [congruence|]. unfold empty_frame, cells. cbn [f_rows]. destruct (f_rows y2) as [|r l] eqn:ERR; [congruence|]. assert (I : In (r_path r) ps) by (apply (series_in_product _ W2); unfold series_ids; rewrite paths_unique_In, ERR; simpl; auto). clear -I. destruct ps; [contradiction|]. discriminate.
    + intros r Hr. unfold empty_frame in Hr. cbn [f_rows] in Hr. apply in_map_iff in Hr as ([p t] & <- & Hr). cbn [fst snd r_path]. unfold cells in Hr. apply in_flat_map in Hr as (q & Hq & Hr). apply in_map_iff in Hr as (u & E & _). injection E as <- <-. now apply PN.
Qed.

Theorem c104_transformed c ob y X0 ob' (f : fitted (P := P)) : fit_forecaster c ob y X0 = (ob', Ok f) -> c_hier c = true -> f_levels y <> 0 -> frame_wf y -> (forall r, In r (f_rows y) -> ~ In "__total" (r_path r)) ->
  clean_config c -> scalar_piecewise (o_trend ob') ->
  forall B0 ob1 Zt, given_training X0 y B0 -> run_fit_transform tr_fit_transform ob B0 = (ob1, Ok Zt) -> frame_wf Zt -> f_levels Zt <> 0 -> f_rows Zt <> [] -> f_cols Zt <> [] ->
  forall shared, (match c_shared c with None => [] | Some l => l end) = shared -> copyable shared (f_cols Zt) (series_ids Zt) ->
  forall y2 X2 fh m cutoff ts B Xt, predict_model c ob' f y2 X2 fh = Ok m -> max_time (map snd (p_index (ft_prepared f))) = Ok cutoff -> to_absolute cutoff fh = ts ->
  given_forecast X2 y2 ts B -> run_transform tr_transform ob' B = Ok Xt -> frame_wf Xt -> f_levels Xt <> 0 -> f_cols Xt = f_cols Zt -> series_ids Xt = series_ids Zt -> covers Xt ts -> ts <> [] -> in_order ts ->
  forall e o tr, run e [] m = Ok (o, tr) ->
  exists tv, dict_get tr "trend" = Some (SDet tv) /\
  forall name ef, In (name, ef) (p_effects (ft_prepared f)) ->
    exists ef0 cols w, configured c name ef0 /\ In (name, ef, cols) (p_fitted (ft_prepared f)) /\ dict_get tr name = Some (SDet w) /\ numbering ef0 (wave_numbers ef) /\
    (forall i j t r t0, nth_error (series_ids Xt) i = Some (r_path r) -> nth_error ts j = Some t -> In r (f_rows Xt) -> r_time r = t -> first_date (dates Zt (r_path r)) t0 ->
       exists x trend v, Forall2 (seen shared (series_ids Xt) Xt r) cols x /\ nth_error (a_flat tv) (i * List.length ts + j) = Some trend /\ nth_error (a_flat w) (i * List.length ts + j) = Some v /\
         answers e name (fun k => wave_numbers ef k * List.length (series_ids Xt) + i) ef0 x (t - t0) trend v) /\
    priors e name (List.length (series_ids Xt)) ef0 tr (List.length cols).
Proof.
  intros HF Hc L Wy NT HC SP B0' ob1' Zt HB0' HRF' WZ LZ NRZ NZt shared SH CP y2 X2 fh m cutoff ts B Xt Hm Hcut Hts HB' HXt WX LX CX BX CV N O e o tr RU.
  pose proof HF as HF'. apply fit_forecaster_inv in HF'. destruct HF' as (s & ys & p & m0 & post & _ & HSY & HD & _ & EFt). unfold fit_data in HD. rewrite Hc in HD. apply hierarchical_fit_inv in HD.
  destruct HD as (yb & tensor & B0 & B1 & Ut & ob1 & t00 & t & td0 & data0 & _ & _ & HB0 & HRF & HEX & HIF & _ & _ & EOB & _ & HFE & _ & HNS & _). assert (EP : ft_prepared f = p) by (rewrite EFt; reflexivity).
  rewrite (given_trained _ _ _ _ _ _ HSY HB0') in HB0. injection HB0 as <-. rewrite HRF' in HRF. injection HRF as <- <-.
  assert (NCB : no_columns Zt = false) by (unfold no_columns; destruct (f_cols Zt); [congruence|reflexivity]). rewrite HEX, NCB in HIF. cbn [negb] in HIF. destruct HIF as (ex & EXB & EPX). rewrite SH in EXB.
  destruct (expand_bottom_state order Order shared Zt Ut ex (series_ids Zt) EXB LZ CP) as (SK & NDM & MIN).
  destruct (predict_transformed _ _ _ _ _ _ _ _ _ Hm Hc Hcut Hts) as (Xb & Xt' & Xe & td & data & HB & HU & TD & TE & ->).
  rewrite (given_predicted _ _ _ _ N O HB') in HB. injection HB as <-.
  rewrite EP, HEX, NCB in HU. cbn [negb] in HU. destruct HU as (RT & ex0 & ex' & EX0 & EXT). rewrite HXt in RT. injection RT as <-. rewrite EPX in EX0. injection EX0 as <-.
  pose proof (expand_transform_wf _ _ _ _ _ _ WX EXT) as WU. pose proof (expand_transform_labels _ _ _ _ _ _ EXT) as [LBU LVU].
  pose proof EXB as EXB'. unfold expand_bottom in EXB'. destruct (expand_fit _ _ Zt) as [eb|]; [|discriminate]. cbn [bind] in EXB'.
  pose proof (expand_transform_wf _ _ _ _ _ _ WZ EXB') as WUt. pose proof (expand_transform_labels _ _ _ _ _ _ EXB') as [LBT LVT].
  assert (SUt : series_ids Ut = series_ids Zt) by (apply series_ids_labels; exact LBT). assert (SU : series_ids Xe = series_ids Xt) by (apply series_ids_labels; exact LBU).
  assert (NDJ : NoDup (map (String.concat "-") (series_ids Ut))) by (rewrite SUt; eapply joins_distinct; [exact NZt|apply paths_unique_NoDup|exact CP]).
  assert (NRU : f_rows Ut <> []) by (intros Q; unfold labels in LBT; rewrite Q in LBT; destruct (f_rows Zt); [congruence|discriminate]).
  rewrite <- EP in HFE, HNS.
  destruct (panel_components _ _ _ _ _ _ Ut (scale_number s) HF Hc L Wy NT HC SP WUt ltac:(congruence) NRU NDJ HFE HNS Xe ts td data WU ltac:(congruence) ltac:(apply (covers_same Xt); auto) ltac:(congruence) N O TD TE e o tr RU) as (tv & TV & PC).
  exists tv. split; [exact TV|]. intros name ef I. destruct (PC name ef I) as (ef0 & cols & w & H1 & H2 & H3 & H4 & H5 & H6). exists ef0, cols, w. do 4 (split; [assumption|]). rewrite SUt, <- BX in H5, H6. split; [|exact H6].
  intros i j t1 r t0 Hi Hj Hr Ht FD.
  pose proof (expanded_seen shared Xt Xe ex ex' WX LX ltac:(rewrite CX, BX; exact CP) SK NDM ltac:(rewrite CX; exact MIN) EXT) as ES. apply Forall2_In_both in ES. destruct (proj1 ES _ Hr) as (r' & Hr' & P' & T' & V').
  assert (FD' : first_date (dates_of Ut (r_path r')) t0) by (rewrite P', (dates_labels _ _ _ LBT), dates_same; exact FD).
  destruct (H5 i j t1 r' t0 ltac:(rewrite P'; exact Hi) Hj Hr' ltac:(congruence) FD') as (x & trend & v & VX & R1 & R2 & R3). exists x, trend, v. split; [|auto]. clear -VX V'.
  unfold values_at in VX. revert x VX. induction cols as [|col cols IH]; intros [|u x] VX; try discriminate; constructor; [|apply IH; now injection VX]. injection VX as VX _. now apply V' in VX.
Qed.

Theorem c104_bare c ob y X0 ob' (f : fitted (P := P)) : fit_forecaster c ob y X0 = (ob', Ok f) -> c_hier c = true -> f_levels y <> 0 -> frame_wf y -> (forall r, In r (f_rows y) -> ~ In "__total" (r_path r)) ->
  clean_config c -> scalar_piecewise (o_trend ob') ->
  forall B0 ob1 Zt, given_training X0 y B0 -> run_fit_transform tr_fit_transform ob B0 = (ob1, Ok Zt) -> frame_wf Zt -> f_levels Zt <> 0 -> f_rows Zt <> [] -> f_cols Zt = [] -> NoDup (map (String.concat "-") (series_ids Zt)) ->
  forall y2 X2 fh m cutoff ts B, predict_model c ob' f y2 X2 fh = Ok m -> max_time (map snd (p_index (ft_prepared f))) = Ok cutoff -> to_absolute cutoff fh = ts ->
  given_forecast X2 y2 ts B -> frame_wf B -> f_levels B <> 0 -> series_ids B = series_ids Zt -> covers B ts -> ts <> [] -> in_order ts ->
  forall e o tr, run e [] m = Ok (o, tr) ->
  exists tv, dict_get tr "trend" = Some (SDet tv) /\
  forall name ef, In (name, ef) (p_effects (ft_prepared f)) ->
    exists ef0 w, configured c name ef0 /\ In (name, ef, []) (p_fitted (ft_prepared f)) /\ dict_get tr name = Some (SDet w) /\ numbering ef0 (wave_numbers ef) /\
    (forall i j p t t0, nth_error (series_ids Zt) i = Some p -> nth_error ts j = Some t -> first_date (dates Zt p) t0 ->
       exists trend v, nth_error (a_flat tv) (i * List.length ts + j) = Some trend /\ nth_error (a_flat w) (i * List.length ts + j) = Some v /\
         answers e name (fun k => wave_numbers ef k * List.length (series_ids Zt) + i) ef0 [] (t - t0) trend v) /\
    priors e name (List.length (series_ids Zt)) ef0 tr 0.
Proof.
  intros HF Hc L Wy NT HC SP B0' ob1' Zt HB0' HRF' WZ LZ NRZ NZt NDJ y2 X2 fh m cutoff ts B Hm Hcut Hts HB' WX LX BX CV N O e o tr RU.
  pose proof HF as HF'. apply fit_forecaster_inv in HF'. destruct HF' as (s & ys & p & m0 & post & _ & HSY & HD & _ & EFt). unfold fit_data in HD. rewrite Hc in HD. apply hierarchical_fit_inv in HD.
  destruct HD as (yb & tensor & B0 & B1 & Ut & ob1 & t00 & t & td0 & data0 & _ & _ & HB0 & HRF & HEX & HIF & _ & _ & EOB & _ & HFE & _ & HNS & _). assert (EP : ft_prepared f = p) by (rewrite EFt; reflexivity).
  rewrite (given_trained _ _ _ _ _ _ HSY HB0') in HB0. injection HB0 as <-. rewrite HRF' in HRF. injection HRF as <- <-.
  assert (NCB : no_columns Zt = true) by (unfold no_columns; now rewrite NZt). rewrite HEX, NCB in HIF. cbn [negb] in HIF. destruct HIF as [-> EPX].
  destruct (predict_transformed _ _ _ _ _ _ _ _ _ Hm Hc Hcut Hts) as (Xb & Xt' & Xe & td & data & HB & HU & TD & TE & ->).
  rewrite (given_predicted _ _ _ _ N O HB') in HB. injection HB as <-. rewrite EP, HEX, NCB in HU. cbn [negb] in HU. subst Xe. rewrite <- EP in HFE, HNS.
  destruct (panel_components _ _ _ _ _ _ Zt (scale_number s) HF Hc L Wy NT HC SP WZ LZ NRZ NDJ HFE HNS B ts td data WX LX CV BX N O TD TE e o tr RU) as (tv & TV & PC).
  exists tv. split; [exact TV|]. intros name ef I. destruct (PC name ef I) as (ef0 & cols & w & H1 & H2 & H3 & H4 & H5 & H6).
  assert (EC : cols = []). { destruct cols as [|col cols]; [reflexivity|]. exfalso. assert (IC : In col (f_cols Zt)) by (eapply (fitted_columns _ _ _ _ _ _ (name, ef, col :: cols) col HFE H2); simpl; auto). rewrite NZt in IC. contradiction. }
  subst cols. exists ef0, w. do 4 (split; [assumption|]). split; [|exact H6].
  intros i j q t1 t0 Hi Hj FD. assert (IR : exists r, In r (f_rows B) /\ r_path r = q /\ r_time r = t1).
  { pose proof (covers_labels _ _ CV) as LB. assert (IL : In (q, t1) (labels (filter_fh ts B))).
    { rewrite LB. apply in_flat_map. exists q. split; [|apply in_map; now apply nth_error_In in Hj]. unfold series_of. destruct (f_levels B); [congruence|]. rewrite BX. now apply nth_error_In in Hi. }
    unfold labels in IL. apply in_map_iff in IL as (r & E & Hr). injection E as <- <-. exists r. unfold filter_fh, filter_rows in Hr. cbn [f_rows] in Hr. apply filter_In in Hr as [Hr _]. auto. }
  destruct IR as (r & Hr & <- & <-). destruct (H5 i j (r_time r) r t0 Hi Hj Hr eq_refl ltac:(rewrite dates_same; exact FD)) as (x & trend & v & VX & R1 & R2 & R3).
  exists trend, v. do 2 (split; [assumption|]). unfold values_at in VX. destruct x; [exact R3|discriminate].
Qed.

Theorem c104_hierarchical c ob y Z0 ob' (f : fitted (P := P)) : fit_forecaster c ob y (Some Z0) = (ob', Ok f) -> c_hier c = true -> f_levels y <> 0 -> frame_wf y -> (forall r, In r (f_rows y) -> ~ In "__total" (r_path r)) ->
  clean_config c -> scalar_piecewise (o_trend ob') -> o_transformer ob = None -> frame_wf Z0 -> f_levels Z0 <> 0 -> f_cols Z0 <> [] ->
  forall shared, (match c_shared c with None => [] | Some l => l end) = shared -> copyable shared (f_cols Z0) (bottom_series Z0) ->
  forall y2 X2 fh m cutoff ts, predict_model c ob' f y2 (Some X2) fh = Ok m -> max_time (map snd (p_index (ft_prepared f))) = Ok cutoff -> to_absolute cutoff fh = ts ->
  frame_wf X2 -> f_levels X2 <> 0 -> f_cols X2 = f_cols Z0 -> bottom_series X2 = bottom_series Z0 -> covers X2 ts -> ts <> [] -> in_order ts ->
  forall e o tr, run e [] m = Ok (o, tr) ->
  exists tv, dict_get tr "trend" = Some (SDet tv) /\
  forall name ef, In (name, ef) (p_effects (ft_prepared f)) ->
    exists ef0 cols w, configured c name ef0 /\ In (name, ef, cols) (p_fitted (ft_prepared f)) /\ dict_get tr name = Some (SDet w) /\ numbering ef0 (wave_numbers ef) /\
    (forall i j t r t0, nth_error (bottom_series X2) i = Some (r_path r) -> nth_error ts j = Some t -> In r (f_rows X2) -> r_time r = t -> first_date (dates Z0 (r_path r)) t0 ->
       exists x trend v, Forall2 (seen shared (bottom_series X2) X2 r) cols x /\ nth_error (a_flat tv) (i * List.length ts + j) = Some trend /\ nth_error (a_flat w) (i * List.length ts + j) = Some v /\
         answers e name (fun k => wave_numbers ef k * List.length (bottom_series X2) + i) ef0 x (t - t0) trend v) /\
    priors e name (List.length (bottom_series X2)) ef0 tr (List.length cols).
Proof.
  intros HF Hc L Wy NT HC SP OT WZ LZ NZ shared SH CP y2 X2 fh m cutoff ts Hm Hcut Hts WX LX CX BX CV N O e o tr RU.
  pose proof HF as HF'. apply fit_forecaster_inv in HF'. destruct HF' as (s & ys & p & m0 & post & _ & _ & HD & _ & EFt). unfold fit_data in HD. rewrite Hc in HD. apply hierarchical_fit_inv in HD.
  destruct HD as (yb & tensor & B0 & B1 & Ut & ob1 & t00 & t & td0 & data0 & _ & _ & HB0 & HRF & _ & _ & _ & _ & EOB & _).
  assert (NCZ : no_columns Z0 = false) by (unfold no_columns; destruct (f_cols Z0); [congruence|reflexivity]). rewrite NCZ in HB0. pose proof HRF as HRF0.
  apply run_fit_transform_inv in HRF as [_ HRF]. rewrite OT in HRF. destruct HRF as [OT1 EB]. subst B1 ob1.
  destruct (bottom_series_ids _ _ WZ LZ HB0) as (S0 & C0 & L0 & NR0 & _).
  assert (OTP : o_transformer ob' = None) by (rewrite EOB; cbn [o_transformer]; exact OT).
  destruct (predict_transformed _ _ _ _ _ _ _ _ _ Hm Hc Hcut Hts) as (Xb & _ & _ & _ & _ & HB & _). cbv zeta in HB.
  assert (NCX : no_columns X2 = false) by (unfold no_columns; rewrite CX; destruct (f_cols Z0); [congruence|reflexivity]). rewrite NCX in HB.
  destruct (bottom_series_ids _ _ WX LX HB) as (S2 & C2 & L2 & NR2 & IR2). pose proof (covers_bottom _ _ _ WX N CV HB) as CVB. pose proof (loc_bottom_wf _ _ WX HB) as WB. pose proof (loc_bottom_wf _ _ WZ HB0) as WB0.
  destruct (c104_transformed _ _ _ _ _ _ HF Hc L Wy NT HC SP B0 ob B0 ltac:(left; exists Z0; auto) HRF0 WB0 ltac:(congruence) NR0 ltac:(congruence) shared SH ltac:(rewrite C0, S0; exact CP) _ _ _ _ _ _ Xb Xb Hm Hcut Hts ltac:(left; exists X2; repeat split; [congruence|exact HB])
    ltac:(unfold run_transform; rewrite OTP; reflexivity) WB ltac:(congruence) ltac:(congruence) ltac:(congruence) CVB N O _ _ _ RU) as (tv & TV & PC).
  exists tv. split; [exact TV|]. intros name ef I. destruct (PC name ef I) as (ef0 & cols & w & H1 & H2 & H3 & H4 & H5 & H6). exists ef0, cols, w. do 4 (split; [assumption|]). rewrite S2 in H5, H6. split; [|exact H6].
  intros i j t1 r t0 Hi Hj Hr Ht FD. assert (IB : In (r_path r) (bottom_series X2)) by (now apply nth_error_In in Hi). assert (HrB : In r (f_rows Xb)) by (now apply (IR2 _ IB)).
  destruct (H5 i j t1 r t0 Hi Hj HrB Ht) as (x & trend & v & VX & R1 & R2 & R3).
  { rewrite <- dates_same, (bottom_dates _ _ _ WZ LZ HB0) by (rewrite <- BX; exact IB). exact FD. }
  exists x, trend, v. split; [|auto]. unfold seen in *. rewrite C2 in VX. exact VX.
Qed.
End Any.
