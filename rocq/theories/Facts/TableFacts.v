(** The columns of [predict_all_sites], one by one. *)
From Coq Require Import Reals Lra String Bool ZArith List Permutation Lia Sorted.
From Verif.Model Require Import Base Num XFloat Frame Arr Expand Aggregate Scale Prog Likelihood Effect Trend TrendProg Engine Predict Forecaster.
From Verif.Spec Require Import FrameSpec ScaleSpec ProgSpec PredictSpec EffectSpec TrendSpec ForecasterSpec AlignSpec ShapeSpec SiteSpec ComponentSpec OverlapSpec DocsSpec ResponseSpec DrawSpec TableSpec.
From Verif.Facts Require Import BaseFacts NumFacts OrderFacts FrameFacts FrameProps ArrFacts ProgFacts MeanFacts LikelihoodFacts EffectPredict PredictFacts ForecasterFacts ForecasterInv
  ForecasterProps ModelProps EngineFacts AlignFacts TrendFacts CompleteFacts ShapeFacts SiteFacts ComponentFacts DocsForecaster DocsTrend ResponseForecaster OverlapFrames.
Import ListNotations.
Local Open Scope string_scope.

Lemma relation_list {A B} (Q : A -> B -> Prop) l : (forall a, In a l -> exists b, Q a b) -> exists bs, Forall2 Q l bs.
Proof.
  induction l as [|a l IH]; intros H; [exists []; constructor|]. destruct (H a (or_introl eq_refl)) as (b & Hb).
  destruct IH as (bs & Hbs); [intros; apply H; simpl; auto|]. exists (b :: bs). now constructor.
Qed.

Section Forecaster.
Variable ns_of : Z -> Z.
Variable order : list string -> list string.
Variable keep : path -> bool.
Context {TS P : Type}.
Variable tr_fit_transform : TS -> frame R -> TS * res (frame R).
Variable tr_transform : TS -> frame R -> res (frame R).
Variable svi_run : Z -> nat -> nat -> prog arr -> res (list xr * P).
Variable nuts_run : Z -> nat -> nat -> nat -> prog arr -> res (nat -> nat -> env).
Variable latent_sites : prog arr -> list string.
Variable guide_draw : P -> Z -> nat -> prog arr -> env.
Variable complete_draw : env -> Z -> nat -> prog arr -> env.
Notation fit_forecaster := (fit_forecaster ns_of order keep tr_fit_transform svi_run nuts_run latent_sites).
Notation forecast_all_sites := (forecast_all_sites ns_of keep tr_transform guide_draw complete_draw).
Notation predict_model := (predict_model ns_of keep tr_transform).
Notation draws := (Engine.draws guide_draw complete_draw).
Notation trend_ok := (trend_ok ns_of).
Notation names f := ("trend" :: map fst (p_effects (ft_prepared f))).

Section Fitted.
Variables (c : config) (ob : objects (TS := TS)) (y : frame R) (X : option (frame R)) (ob' : objects (TS := TS)) (f : fitted (P := P)).
Hypothesis HF : fit_forecaster c ob y X = (ob', Ok f).
Hypothesis HC : clean_config c.
Hypothesis HT : trend_ok (o_trend ob').

Lemma site_column y2 X2 fh f' out (u : path -> R) : forecast_all_sites c ob' f y2 X2 fh = (f', Ok out) ->
  index_series (labeller_of c f y2) <> [] ->
  (forall q, In q (index_series (labeller_of c f y2)) -> unit_of (discrete c) (ft_scale f) q (u q)) ->
  (f_levels y2 = 0 -> forall tab, ft_scale f <> STable tab) ->
  exists m times, predict_model c ob' f y2 X2 fh = Ok m /\ fh_to_index y2 fh = Ok times /\
    draws (engine_of c) (ft_posterior f) m <> [] /\
    (forall e, In e (draws (engine_of c) (ft_posterior f) m) -> exists o tr, run e [] m = Ok (o, tr)) /\
    (forall r, In r (f_rows out) -> exists i j, nth_error (index_series (labeller_of c f y2)) i = Some (r_path r) /\ nth_error times j = Some (r_time r) /\
      forall n vs, In n (names f) ->
        Forall2 (fun e v => forall o tr, run e [] m = Ok (o, tr) -> exists w, dict_get tr n = Some (SDet w) /\ nth_error (a_flat w) (i * List.length times + j) = Some v)
          (draws (engine_of c) (ft_posterior f) m) vs ->
        cell out r n = Some (u (r_path r) * Rmean vs)%R) /\
    (forall q t, In q (index_series (labeller_of c f y2)) -> In t times -> exists r, In r (f_rows out) /\ r_path r = q /\ r_time r = t).
Proof.
  intros HO NE HU HS. destruct (forecaster_clean _ _ _ _ _ _ _ _ _ _ _ _ _ HF HC) as (C1 & C2 & HX).
  destruct (c77_core ns_of order keep tr_fit_transform tr_transform svi_run nuts_run latent_sites guide_draw complete_draw c ob y X ob' f HF HC HT y2 X2 fh f' out u HO NE HU HS)
    as (m0 & _ & _ & _ & _ & times0 & HM0 & HI0 & _ & _ & _ & _ & _ & ROWS).
  destruct (forecast_sites_inv _ _ _ _ _ _ _ _ _ _ _ _ _ HO) as (m & times & traces & ds & HM & HI & HR & HK & HA).
  assert (m0 = m) by congruence. assert (times0 = times) by congruence. subst m0 times0. clear HM0 HI0.
  destruct (predict_inv _ _ _ _ _ _ _ _ _ _ HM HX) as (Xe & td & times' & data & _ & HTr & Em).
  exists m, times. split; [exact HM|]. split; [exact HI|].
  set (p := p_effects (ft_prepared f)) in *. set (trend := trend_predict (o_trend ob') td).
  assert (NT : ~ In "trend" (map fst p)).
  { intros I. apply in_map_iff in I as ([n ef] & En & I). destruct (C2 _ _ I) as [[_ FN] _]. apply FN. cbn [fst] in En. subst n. apply in_app_iff. left. unfold reserved. simpl. auto. }
  assert (RUN : forall e, In e (draws (engine_of c) (ft_posterior f) m) -> exists o tr, run e [] m = Ok (o, tr)).
  { intros e He. apply BaseFacts.mapM_ok in HR. apply Forall2_In_both in HR. destruct HR as [HR _]. destruct (HR e He) as ([o tr] & _ & E). eauto. }
  split. { intros E. rewrite E in HR. cbn in HR. injection HR as <-. discriminate. }
  split; [exact RUN|]. split; [|exact ROWS].
  assert (MS : (exists k, m = pbind (compute_mean trend (Some data) (Some (effect_fns p))) k) \/ forall e, run e [] m = Err KeyError).
  { subst m. unfold model_call. destruct (c_hier c) eqn:Hc; [left; eexists; reflexivity|]. rewrite (HX eq_refl).
    destruct (String.eqb (c_likelihood c) "normal"); [left; eexists; reflexivity|]. destruct (String.eqb (c_likelihood c) "gamma"); [left; eexists; reflexivity|].
    destruct (String.eqb (c_likelihood c) "negbinomial"); [left; eexists; reflexivity|]. right. reflexivity. }
  destruct MS as [(k & Ek)|MS].
  2:{ exfalso. destruct (draws (engine_of c) (ft_posterior f) m) as [|e l].
      - cbn in HR. injection HR as <-. discriminate.
      - destruct (RUN e (or_introl eq_refl)) as (o & tr & E). rewrite MS in E. discriminate. }
  destruct (all_sites_inv _ _ _ _ HA) as [NI HD].
  destruct (all_sites_rows (labeller_of c f y2) times ds u NI NE HD HU HS) as (out' & HO' & _ & HCo & _ & HRW). rewrite HA in HO'. injection HO' as <-.
  intros r Hr. rewrite HRW in Hr. apply key_sort_In in Hr. unfold draw_rows in Hr. apply in_flat_map in Hr as (i & Hi & Hr).
  apply in_map_iff in Hr as (j & <- & Hj). apply in_seq in Hi, Hj. exists i, j. cbn [r_path r_time].
  split; [apply nth_error_nth'; lia|]. split; [apply nth_error_nth'; lia|]. intros n vs Hn HV.
  set (q := i * List.length times + j) in *. set (uu := u (nth i (index_series (labeller_of c f y2)) [])).
  assert (Hq : q < List.length (index_series (labeller_of c f y2)) * List.length times) by (unfold q; nia).
  apply BaseFacts.mapM_ok in HR.
  assert (W : exists ws, Forall2 (fun d w => dict_get d n = Some w) (map (fun at_ : arr * trace => predictive_values (latent_of (ft_posterior f)) (snd at_)) traces) ws /\
     Forall arr_wf ws /\ Forall2 (fun w v => nth_error (a_flat w) q = Some v) ws vs).
  { clear HK RUN. revert vs HV. induction HR as [|e [o tr] envs traces H F IH]; intros vs HV; inversion HV as [|? v ? vs' Hv HV']; subst vs; [exists []; repeat constructor|].
    destruct (IH _ HV') as (ws & W1 & W2 & W3). destruct (Hv o tr H) as (w & Gw & Ew).
    assert (Y : yields e m o) by (apply run_eval in H as (lx & E & _); apply eval_yields; eauto).
    assert (NA : NoDup (actions e m)) by (rewrite Em; eapply model_sites; eauto; rewrite <- Em; exact Y).
    pose proof H as H'. rewrite Ek in H', NA.
    destruct (run_components e trend data p k C1 NT (fun t Yt => HT _ _ _ e t HTr Yt) (latent_of (ft_posterior f)) o tr H' NA) as (t & cs & mu & _ & _ & FF & _).
    destruct (run_nodup_trace _ _ _ _ H' NA) as (lx & _ & El & NL). subst lx.
    apply Forall2_In_both in FF. destruct FF as [FF _]. destruct (FF n Hn) as (v1 & _ & G1 & _ & Wv1).
    pose proof (predictive_det (latent_of (ft_posterior f)) tr n w Gw NL) as G2. assert (v1 = w) by congruence. subst v1.
    exists (w :: ws). cbn [map snd]. repeat split; constructor; auto. }
  destruct W as (ws & W1 & W2 & W3). destruct (stack_get _ _ _ _ HK W1) as (a & sh & Ga & Sa & Fa & Sh).
  unfold cell. cbn [r_vals]. rewrite HCo, map_map, combine_map_same. rewrite (dict_get_map (fun a => site_mean a q * uu)%R), Ga. cbn [option_map].
  pose proof (Forall2_len _ _ _ W1) as L1.
  rewrite (site_mean_stacked a (List.length ws) sh ws q); [|congruence|exact Fa|reflexivity| |].
  - f_equal. rewrite Rmult_comm. f_equal. f_equal. clear -W3. induction W3 as [|w v ws vs H F IH]; [reflexivity|]. cbn [map]. rewrite IH. f_equal.
    unfold entry. now apply nth_error_nth.
  - intros v Hv. split; [now apply Sh|]. rewrite Forall_forall in W2. now apply W2.
  - apply dict_get_In in Ga. destruct (HD _ Ga) as [_ Hp]. cbn [snd] in Hp. rewrite Sa in Hp. cbn [tl] in Hp. lia.
Qed.
End Fitted.

(** * Which effect has which name *)
Lemma fitted_names c ob y X ob' (f : fitted (P := P)) : fit_forecaster c ob y X = (ob', Ok f) -> c_hier c = false -> distinct_names c -> NoDup (map fe_name (p_fitted (ft_prepared f))).
Proof.
  intros H Hc DN. apply fit_forecaster_inv in H. destruct H as (s & ys & p & m & post & _ & HY & HF & _ & ->). cbn [ft_prepared].
  unfold fit_data in HF. rewrite Hc in HF. apply univariate_fit_inv in HF. destruct HF as (tr0 & t & yt & X1 & Xe & td & data & _ & _ & _ & _ & _ & _ & _ & HE & _).
  apply fit_effects_inv in HE as (main & dflt & EF & F & D). rewrite EF, map_app.
  assert (NM : map fe_name main = map l_name (effects_of c)) by (clear -F; induction F as [|l fe ls fs (Hn & _) F IH]; [reflexivity|]; cbn [map]; rewrite IH; f_equal; congruence).
  unfold distinct_names in DN. change (NoDup (default_name :: map l_name (effects_of c))) in DN. rewrite <- NM in DN. inversion DN as [|? ? D1 D2]. subst.
  destruct D as [[-> _]|(g & -> & GN & _)]; [cbn [map]; now rewrite app_nil_r|]. cbn [map]. rewrite GN.
  apply (Permutation_NoDup (l := default_name :: map fe_name main)); [apply Permutation_cons_append|now constructor].
Qed.

Lemma configured_unique c name e1 e2 : distinct_names c -> configured c name e1 -> configured c name e2 -> e1 = e2.
Proof.
  unfold distinct_names. intros DN [(l1 & r1 & E1 & I1)|[-> D1]] [(l2 & r2 & E2 & I2)|[N2 D2]].
  - rewrite E1 in *. injection E2 as <-. inversion DN as [|? ? _ ND]. subst. pose proof (OverlapFrames.nodup_map_inj (fun l : listed => fst (fst l)) l1 (name, e1, r1) (name, e2, r2) ND I1 I2 eq_refl) as Q. congruence.
  - subst name. rewrite E1 in DN. inversion DN as [|? ? D _]. subst. destruct D. apply in_map_iff. eexists (_, _, _). split; [|exact I1]. reflexivity.
  - rewrite E2 in DN. inversion DN as [|? ? D _]. subst. destruct D. apply in_map_iff. eexists (_, _, _). split; [|exact I2]. reflexivity.
  - destruct D1 as [D1|[D1 ->]], D2 as [D2|[D2 ->]]; congruence.
Qed.

(** * One series *)
Notation day := (fun t => day (ns_of t)).
Theorem c112_univariate c ob y X ob' (f : fitted (P := P)) iv rg lg K s u : fit_forecaster c ob y X = (ob', Ok f) -> c_hier c = false -> f_levels y = 0 -> frame_wf y -> clean_config c -> distinct_names c ->
  piecewise_options (o_trend ob') iv rg lg -> (0 < iv)%R -> ft_scale f = SFloat s -> factor c f u ->
  (forall Z, X = Some Z -> frame_wf Z) -> (forall s Z s' Z', frame_wf Z -> tr_fit_transform s Z = (s', Ok Z') -> frame_wf Z') ->
  forall ds t0, map r_time (f_rows y) = ds -> increasing (map day ds) -> changepoint_count (List.length ds) iv rg K -> first_date ds t0 ->
  forall y2 X2 fh f2 out cutoff ts Xt, forecast_all_sites c ob' f y2 X2 fh = (f2, Ok out) -> f_levels y2 = 0 -> max_time (map r_time (f_rows y2)) = Ok cutoff -> to_absolute cutoff fh = ts ->
  run_transform tr_transform ob' (supplied X2 ts) = Ok Xt -> covers Xt ts -> frame_wf Xt -> f_levels Xt = 0 -> ts <> [] -> in_order ts ->
  exists m es, predict_model c ob' f y2 X2 fh = Ok m /\ es = draws (engine_of c) (ft_posterior f) m /\ es <> [] /\
    (forall t, In t ts <-> exists row, In row (f_rows out) /\ r_time row = t) /\
    forall row, In row (f_rows out) -> let trend e := trend_at e lg K iv 0 (steps (map day ds) (day (r_time row))) in
      cell out row "trend" = Some (u * Rmean (map trend es))%R /\
      forall name ef cols, In (name, ef, cols) (p_fitted (ft_prepared f)) -> In (name, ef) (p_effects (ft_prepared f)) ->
      exists ef0, configured c name ef0 /\
      forall r, In r (f_rows Xt) -> r_time r = r_time row ->
      exists x vs, values_at Xt r cols x /\ Forall2 (fun e v => answers e name (fun k => k) ef0 x (r_time row - t0) (trend e) v) es vs /\ cell out row name = Some (u * Rmean vs)%R.
Proof.
  intros HF Hc L Wy HC DN PO HI SC FU WX WT ds t0 Hds Inc HK FD y2 X2 fh f2 out cutoff ts Xt HO L2 Hcut Hts RX CV WV LV N O.
  assert (SP : scalar_piecewise (o_trend ob')) by (destruct (o_trend ob'); try contradiction; destruct PO as (P1 & P2 & _); split; eauto).
  pose proof (univariate_trend_ok ns_of order keep tr_fit_transform svi_run nuts_run latent_sites _ _ _ _ _ _ HF Hc L (or_introl SP)) as TOK.
  assert (IS : index_series (labeller_of c f y2) = [[]]) by (unfold index_series, labeller_of; cbn [lb_levels]; now rewrite L2).
  destruct (site_column c ob y X ob' f HF HC TOK y2 X2 fh f2 out (fun _ => u) HO) as (m & times & HM & HT & NE & RUN & COL & ROWS).
  { rewrite IS. discriminate. }
  { intros q _. unfold unit_of. destruct FU as [[D ->]|[D E]]; rewrite D; [reflexivity|]. rewrite E. reflexivity. }
  { intros _ tab E. congruence. }
  assert (times = ts) by (unfold fh_to_index in HT; rewrite Hcut in HT; cbn [bind] in HT; congruence). subst times. rewrite IS in *.
  exists m, (draws (engine_of c) (ft_posterior f) m). split; [exact HM|]. split; [reflexivity|]. split; [exact NE|]. split.
  { intros t. split.
    - intros Ht. destruct (ROWS [] t (or_introl eq_refl) Ht) as (r & Hr & _ & Et). eauto.
    - intros (row & Hr & <-). destruct (COL row Hr) as (i & j & _ & Hj & _). now apply nth_error_In in Hj. }
  intros row Hrow trend. destruct (COL row Hrow) as (i & j & Hi & Hj & CELL). destruct i as [|[|i]]; try discriminate. cbn [Nat.mul Nat.add] in CELL.
  assert (TR : forall e o tr, run e [] m = Ok (o, tr) -> exists tv, dict_get tr "trend" = Some (SDet tv) /\ nth_error (a_flat tv) j = Some (trend e)).
  { intros e o tr RU. destruct (c103_univariate ns_of order keep tr_fit_transform tr_transform svi_run nuts_run latent_sites c ob y X ob' f iv rg lg K HF Hc L HC PO HI ds Hds Inc HK y2 X2 fh m cutoff ts HM Hcut Hts e o tr RU) as (tv & G & V & _).
    exists tv. split; [exact G|]. now apply V. }
  split.
  { apply CELL; [now left|]. clear -TR. generalize (draws (engine_of c) (ft_posterior f) m). intros es. induction es as [|e es IH]; constructor; auto. intros o tr RU. eauto. }
  intros name ef cols IF IE. subst ds.
  destruct (univariate_state ns_of order keep tr_fit_transform svi_run nuts_run latent_sites _ _ _ _ _ _ _ HF Hc L FD WX WT Wy _ _ _ IF) as [_ (ef0 & CF & _)].
  exists ef0. split; [exact CF|]. intros r Hr Et.
  assert (EACH : forall e, In e (draws (engine_of c) (ft_posterior f) m) -> exists v, (exists x, values_at Xt r cols x /\ answers e name (fun k => k) ef0 x (r_time row - t0) (trend e) v) /\
     forall o tr, run e [] m = Ok (o, tr) -> exists w, dict_get tr name = Some (SDet w) /\ nth_error (a_flat w) j = Some v).
  { intros e He. destruct (RUN e He) as (o & tr & RU). destruct (TR e o tr RU) as (tv & G & V).
    destruct (c104_univariate ns_of order keep tr_fit_transform tr_transform svi_run nuts_run latent_sites c ob y X ob' f t0 HF Hc L Wy HC (or_introl SP) WX WT FD y2 X2 fh m cutoff ts Xt HM Hcut Hts RX CV WV LV N O e o tr RU) as (tv' & G' & EF).
    assert (tv' = tv) by congruence. subst tv'. destruct (EF name ef IE) as (ef1 & cols1 & w & CF1 & IF1 & GW & VAL & _).
    assert (ef1 = ef0) by (eapply configured_unique; eauto). subst ef1.
    assert (Q : (name, ef, cols1) = (name, ef, cols)) by (apply (OverlapFrames.nodup_map_inj fe_name (p_fitted (ft_prepared f))); auto; eapply fitted_names; eauto). injection Q as ->.
    destruct (VAL j (r_time row) r Hj Hr Et) as (x & trd & v & VX & HTR & HV & AN). assert (trd = trend e) by congruence. subst trd.
    exists v. split; [eauto|]. intros o' tr' RU'. assert (tr' = tr) by congruence. subst tr'. eauto. }
  destruct (relation_list _ _ EACH) as (vs & FV).
  assert (XX : exists x, values_at Xt r cols x). { destruct (draws (engine_of c) (ft_posterior f) m) as [|e es]; [congruence|]. destruct (EACH e (or_introl eq_refl)) as (v & (x & VX & _) & _). eauto. }
  destruct XX as (x & VX). exists x, vs. split; [exact VX|]. split.
  - clear -FV VX. induction FV as [|e v es vs ((x' & VX' & A) & _) F IH]; constructor; auto.
    assert (x' = x); [|now subst]. unfold values_at in *. rewrite VX in VX'. clear -VX'. revert x' VX'. induction x as [|a x IH]; intros [|b x'] E; try discriminate; [reflexivity|]. cbn [map] in E. injection E as -> E. f_equal. now apply IH.
  - apply CELL; [right; apply in_map_iff; now exists (name, ef)|]. clear -FV. induction FV as [|e v es vs (_ & H) F IH]; constructor; auto.
Qed.
End Forecaster.
