(** Limits of components: forecasts. *)
From Coq Require Import Reals Lra ZArith String Ascii Bool List Lia Permutation Sorted.
From Verif.Model Require Import Base Num XFloat Frame Arr Prog Effect Expand Trend TrendProg Aggregate Scale Engine Forecaster.
From Verif.Spec Require Import RegexSpec FrameSpec ProgSpec EffectSpec ForecasterSpec SiteSpec ShapeSpec AlignSpec OverlapSpec ResponseSpec ObservedSpec ComponentSpec TrendSpec DocsSpec UpwardSpec SeasonSpec LimitSpec.
From Verif.Facts Require Import BaseFacts FrameFacts ForecasterFacts ForecasterInv ModelProps OrderFacts DensityFacts DocsForecaster ResponseFacts ResponseEffects ResponseForecaster ResponsePanel ResponseRead ResponseHierarchical ObservedForecaster UpwardFacts UpwardForecaster UpwardPanel LimitFacts.
Import ListNotations.
Local Open Scope string_scope.

Lemma choose_all {A B} (Q : A -> B -> Prop) l : (forall a, In a l -> exists b, Q a b) -> exists bs, Forall2 Q l bs.
Proof.
  induction l as [|a l IH]; intros H; [exists []; constructor|]. destruct (H a) as (b & Hb); [now left|]. destruct IH as (bs & F); [intros a' I; apply H; now right|]. exists (b :: bs). now constructor.
Qed.
Lemma level_has_trend tr names k s : level tr names k s -> exists trend, component_at tr "trend" k trend.
Proof. intros (vs & F & _). inversion F; subst. eauto. Qed.

Section Any.
Variable ns_of : Z -> Z.
Variable order : list string -> list string.
Variable keep : path -> bool.
Context {TS : Type}.
Variable tr_fit_transform : TS -> frame R -> TS * res (frame R).
Variable tr_transform : TS -> frame R -> res (frame R).
Context {P : Type}.
Variable svi_run : Z -> nat -> nat -> prog arr -> res (list xr * P).
Variable nuts_run : Z -> nat -> nat -> nat -> prog arr -> res (nat -> nat -> env).
Variable latent_sites : prog arr -> list string.
Notation fit_forecaster := (fit_forecaster ns_of order keep tr_fit_transform svi_run nuts_run latent_sites).
Notation predict_model := (predict_model ns_of keep tr_transform).

Lemma c121_forecast : forall c ob y X ob' (f : fitted (P := P)), fit_forecaster c ob y X = (ob', Ok f) -> c_hier c = false -> f_levels y = 0 -> frame_wf y -> clean_config c ->
  scalar_piecewise (o_trend ob') \/ flat_trend (o_trend ob') -> (forall Z, X = Some Z -> frame_wf Z) -> (forall s Z s' Z', frame_wf Z -> tr_fit_transform s Z = (s', Ok Z') -> frame_wf Z') -> f_rows y <> [] ->
  forall y2 X2 fh m cutoff ts Xt, predict_model c ob' f y2 X2 fh = Ok m -> max_time (map r_time (f_rows y2)) = Ok cutoff -> to_absolute cutoff fh = ts ->
  run_transform tr_transform ob' (supplied X2 ts) = Ok Xt -> covers Xt ts -> frame_wf Xt -> f_levels Xt = 0 -> in_order ts ->
  forall e o tr, run e [] m = Ok (o, tr) ->
  forall j t r, nth_error ts j = Some t -> In r (f_rows Xt) -> r_time r = t ->
  (forall name ef ef0 cols x, In (name, ef, cols) (p_fitted (ft_prepared f)) -> configured c name ef0 -> values_at Xt r cols x -> tame e name ef0 x) ->
  exists trend bs s, component_at tr "trend" j trend /\
    Forall2 (fun name b => limited c (p_fitted (ft_prepared f)) e (fun _ k => k) (values_at Xt r) trend name b /\ exists v, component_at tr name j v /\ (Rabs v <= b)%R) (map fst (p_effects (ft_prepared f))) bs /\
    level tr (map fst (p_effects (ft_prepared f))) j s /\ (Rabs (s - trend) <= Rsum bs)%R /\ (c_likelihood c = "normal" -> expected tr j s).
Proof.
  intros c ob y X ob' f HF Hc L Wy HC TT WX WT NY y2 X2 fh m cutoff ts Xt M K H T C W LX O e o tr RU j t r J IR D TM. assert (N : ts <> []) by (intros E; rewrite E in J; destruct j; discriminate).
  destruct (first_exists (map r_time (f_rows y))) as (t0 & FD); [destruct (f_rows y); [congruence|discriminate]|].
  destruct (c104_univariate ns_of order keep tr_fit_transform tr_transform svi_run nuts_run latent_sites _ _ _ _ _ _ _ HF Hc L Wy HC TT WX WT FD _ _ _ _ _ _ _ M K H T C W LX N O _ _ _ RU) as (tv & TV & A).
  destruct (c105_forecast _ _ _ _ _ _ _ _ _ _ _ _ _ _ HF HC Hc L TT _ _ _ _ _ _ _ M K H T C LX _ _ _ RU) as (_ & d & G & Q). destruct (Q j) as (s & LV & LW); [apply nth_error_Some; congruence|]. destruct (level_has_trend _ _ _ _ LV) as (trend & TA).
  destruct (choose_all (fun name b => limited c (p_fitted (ft_prepared f)) e (fun _ k => k) (values_at Xt r) trend name b /\ exists v, component_at tr name j v /\ (Rabs v <= b)%R) (map fst (p_effects (ft_prepared f)))) as (bs & FB).
  { intros name I. apply in_map_iff in I as ((nm & ef) & <- & I). cbn [fst]. destruct (A _ _ I) as (ef0 & cols & w & CF & IF & DG & B & _). destruct (B _ _ _ J IR D) as (x & trend' & v & VA & NT & NV & AN).
    assert (E : trend' = trend) by (eapply component_unique; [exists tv; eauto|exact TA]). subst trend'. destruct (answers_limit _ _ _ _ _ _ _ _ AN (TM _ _ _ _ _ IF CF VA)) as (mo & b & MO & LI & LE).
    eexists. split; [exists ef, ef0, cols, x, mo, b; do 5 (split; [eassumption|]); reflexivity|]. exists v. split; [exists w; auto|exact LE]. }
  exists trend, bs, s. split; [exact TA|]. split; [exact FB|]. split; [exact LV|]. split.
  - eapply level_limit; [exact LV|exact TA|]. clear -FB. induction FB as [|n b names bs (_ & v & CV & LE) FB IH]; constructor; [|exact IH]. intros v' CV'. now rewrite (component_unique _ _ _ _ _ CV' CV).
  - intros LN. pose proof (law_expected _ _ _ _ _ _ _ _ _ G LW ltac:(congruence)) as X1. rewrite LN in X1. exact X1.
Qed.

(** a logistic trend *)
Lemma c121_saturated : forall c ob y X ob' (f : fitted (P := P)) iv rg (K : nat), fit_forecaster c ob y X = (ob', Ok f) -> c_hier c = false -> f_levels y = 0 -> clean_config c ->
  piecewise_options (o_trend ob') iv rg true -> (0 < iv)%R ->
  forall ds, map r_time (f_rows y) = ds -> increasing (map (fun t => day (ns_of t)) ds) -> changepoint_count (List.length ds) iv rg K ->
  forall y2 X2 fh m cutoff ts, predict_model c ob' f y2 X2 fh = Ok m -> max_time (map r_time (f_rows y2)) = Ok cutoff -> to_absolute cutoff fh = ts ->
  forall e o tr, run e [] m = Ok (o, tr) -> (0 < e "capacity" 0%nat)%R ->
  forall j t, nth_error ts j = Some t -> exists trend, component_at tr "trend" j trend /\ (0 < trend < e "capacity" 0%nat)%R.
Proof.
  intros c ob y X ob' f iv rg K HF Hc L HC PO IV ds HD INC CC y2 X2 fh m cutoff ts M KC H e o tr RU CP j t J.
  destruct (c103_univariate ns_of order keep tr_fit_transform tr_transform svi_run nuts_run latent_sites _ _ _ _ _ _ _ _ _ _ HF Hc L HC PO IV _ HD INC CC _ _ _ _ _ _ M KC H _ _ _ RU) as (tv & TV & A & _).
  eexists. split; [exists tv; split; [exact TV|apply (A _ _ J)]|]. apply saturated. exact CP.
Qed.

Variable Order : forall l, Permutation (order l) l.
Lemma c121_panel : forall c ob y Z0 ob' (f : fitted (P := P)), fit_forecaster c ob y (Some Z0) = (ob', Ok f) -> c_hier c = true -> f_levels y <> 0 -> frame_wf y ->
  (forall r, In r (f_rows y) -> ~ In "__total" (r_path r)) -> clean_config c -> scalar_piecewise (o_trend ob') -> o_transformer ob = None -> frame_wf Z0 -> f_levels Z0 <> 0 -> f_cols Z0 <> [] ->
  forall shared, (match c_shared c with None => [] | Some l => l end) = shared -> copyable shared (f_cols Z0) (bottom_series Z0) ->
  forall y2 X2 fh m cutoff ts, predict_model c ob' f y2 (Some X2) fh = Ok m -> max_time (map snd (p_index (ft_prepared f))) = Ok cutoff -> to_absolute cutoff fh = ts ->
  frame_wf X2 -> f_levels X2 <> 0 -> f_cols X2 = f_cols Z0 -> bottom_series X2 = bottom_series Z0 -> covers X2 ts -> in_order ts ->
  forall e o tr, run e [] m = Ok (o, tr) ->
  forall i j k t r t0, i < List.length (series_ids y) -> nth_error (bottom_series X2) i = Some (r_path r) -> nth_error ts j = Some t -> In r (f_rows X2) -> r_time r = t -> first_date (dates Z0 (r_path r)) t0 -> i * List.length ts + j = k ->
  (forall name ef ef0 cols x, In (name, ef, cols) (p_fitted (ft_prepared f)) -> configured c name ef0 -> Forall2 (seen shared (bottom_series X2) X2 r) cols x -> tame e name ef0 x) ->
  exists trend bs s, component_at tr "trend" k trend /\
    Forall2 (fun name b => limited c (p_fitted (ft_prepared f)) e (fun ef w => wave_numbers ef w * List.length (bottom_series X2) + i) (Forall2 (seen shared (bottom_series X2) X2 r)) trend name b /\ exists v, component_at tr name k v /\ (Rabs v <= b)%R) (map fst (p_effects (ft_prepared f))) bs /\
    level tr (map fst (p_effects (ft_prepared f))) k s /\ (Rabs (s - trend) <= Rsum bs)%R /\ (List.length (series_ids y) = 1 -> expected tr j s) /\ (List.length (series_ids y) <> 1 -> expected_at tr i j s).
Proof.
  intros c ob y Z0 ob' f HF Hc L Wy NTO HC SP OT WZ LZ NZ shared SH CP y2 X2 fh m cutoff ts M KC H W LX QC B C O e o tr RU i j k t r t0 Hi PI J IR D FD <- TM. assert (N : ts <> []) by (intros E; rewrite E in J; destruct j; discriminate).
  destruct (c104_hierarchical ns_of order Order keep tr_fit_transform tr_transform svi_run nuts_run latent_sites _ _ _ _ _ _ HF Hc L Wy NTO HC SP OT WZ LZ NZ _ SH CP _ _ _ _ _ _ M KC H W LX QC B C N O _ _ _ RU) as (tv & TV & A).
  assert (LS : exists s, level tr (map fst (p_effects (ft_prepared f))) (i * List.length ts + j) s /\ (List.length (series_ids y) = 1 -> expected tr j s) /\ (List.length (series_ids y) <> 1 -> expected_at tr i j s)).
  { destruct (c105_panel_forecast _ _ _ _ _ _ _ _ _ _ _ _ _ _ HF HC Hc L Wy NTO SP _ _ _ _ _ _ M KC H O _ _ _ _ RU eq_refl) as (S1 & S2). assert (JL : (j < List.length ts)%nat) by (apply nth_error_Some; congruence).
    destruct (Nat.eq_dec (List.length (series_ids y)) 1) as [E|E].
    - destruct (S1 E) as (_ & d & G & Q). destruct (Q j JL) as (s & LV & LW). assert (i = 0) by lia. subst i. cbn [Nat.mul Nat.add]. exists s. split; [exact LV|]. split; [|congruence]. intros _. exact (law_expected _ _ _ _ _ _ _ _ _ G LW ltac:(discriminate)).
    - destruct (S2 E) as (_ & d & sum & G & Q & JW). exists (sum i j). split; [now apply Q|]. split; [congruence|]. intros _. exact (joint_expected _ _ _ _ _ _ _ _ _ _ G JW Hi JL). }
  destruct LS as (s & LV & EX). destruct (level_has_trend _ _ _ _ LV) as (trend & TA).
  destruct (choose_all (fun name b => limited c (p_fitted (ft_prepared f)) e (fun ef w => wave_numbers ef w * List.length (bottom_series X2) + i) (Forall2 (seen shared (bottom_series X2) X2 r)) trend name b /\ exists v, component_at tr name (i * List.length ts + j) v /\ (Rabs v <= b)%R) (map fst (p_effects (ft_prepared f)))) as (bs & FB).
  { intros name I. apply in_map_iff in I as ((nm & ef) & <- & I). cbn [fst]. destruct (A _ _ I) as (ef0 & cols & w & CF & IF & DG & _ & BB & _). destruct (BB _ _ _ _ _ PI J IR D FD) as (x & trend' & v & VA & NT & NV & AN).
    assert (E : trend' = trend) by (eapply component_unique; [exists tv; eauto|exact TA]). subst trend'. destruct (answers_limit _ _ _ _ _ _ _ _ AN (TM _ _ _ _ _ IF CF VA)) as (mo & b & MO & LI & LE).
    eexists. split; [exists ef, ef0, cols, x, mo, b; do 5 (split; [eassumption|]); reflexivity|]. exists v. split; [exists w; auto|exact LE]. }
  exists trend, bs, s. split; [exact TA|]. split; [exact FB|]. split; [exact LV|]. split; [|exact EX].
  eapply level_limit; [exact LV|exact TA|]. clear -FB. induction FB as [|n b names bs (_ & v & CV & LE) FB IH]; constructor; [|exact IH]. intros v' CV'. now rewrite (component_unique _ _ _ _ _ CV' CV).
Qed.
End Any.
