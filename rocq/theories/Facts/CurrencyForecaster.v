(** Fits and forecasts of a panel whose series are converted to other units. *)
From Coq Require Import Reals Lra String Bool ZArith List Lia.
From Verif.Model Require Import Base Num XFloat Frame Arr Expand Aggregate Scale Predict Prog Effect TrendProg Engine Forecaster History.
From Verif.Spec Require Import FrameSpec ScaleSpec PredictSpec UnitsSpec CurrencySpec.
From Verif.Facts Require Import BaseFacts NumFacts OrderFacts FrameFacts ScaleFacts PredictFacts ForecasterFacts ForecasterInv UnitsFacts CurrencyFacts.
Import ListNotations.
Local Open Scope R_scope.

Section Any.
Variable ns_of : Z -> Z.
Variable order : list string -> list string.
Variable keep : path -> bool.
Context {TS : Type}.
Variable tr_fit_transform : TS -> frame R -> TS * res (frame R).
Variable tr_transform : TS -> frame R -> res (frame R).
Context {P : Type}.
Variable svi_run : Z -> nat -> nat -> prog arr -> res (list xr * P).
Variable nuts_run : Z -> nat -> nat -> nat -> prog arr -> res (nat -> nat -> env).
Variable latent_sites : prog arr -> list string.
Variable guide_draw : P -> Z -> nat -> prog arr -> env.
Variable complete_draw : env -> Z -> nat -> prog arr -> env.
Notation fit_forecaster := (fit_forecaster ns_of order keep tr_fit_transform svi_run nuts_run latent_sites).
Notation call_method := (call_method ns_of keep tr_transform guide_draw complete_draw).
Notation forecast_samples := (forecast_samples ns_of keep tr_transform guide_draw complete_draw).
Variable k : path -> R.
Hypothesis kpos : forall p, 0 < k p.
Notation ou := (own_units k).

Lemma hier_discrete c : c_hier c = true -> discrete c = false.
Proof. intros H. unfold discrete. now rewrite H. Qed.
Lemma hier_fit_data c (ob : objects) tab tab' y X : c_hier c = true -> fit_data ns_of order keep tr_fit_transform c ob (STable tab') y X = fit_data ns_of order keep tr_fit_transform c ob (STable tab) y X.
Proof. intros H. unfold fit_data. rewrite H. unfold hierarchical_fit_data, model_call. rewrite H. reflexivity. Qed.

Definition in_currency (f : fitted (P := P)) : fitted := mkFitted (match ft_scale f with STable tab => STable (otab k tab) | s => s end) (ft_prepared f) (ft_posterior f).

Lemma currency_fit c (ob : objects) y X : c_hier c = true -> c_scale c = None -> f_levels y <> 0%nat -> no_zero_series y ->
  fit_forecaster c ob (ou y) X = (fst (fit_forecaster c ob y X), rmap in_currency (snd (fit_forecaster c ob y X))).
Proof.
  intros H C L Z. unfold Forecaster.fit_forecaster. rewrite C, (hier_discrete c H). destruct (set_y_scales None y) as [s|e] eqn:S.
  - destruct (ou_scales k kpos y L Z s S) as (tab & -> & S'). rewrite S'. cbn [bind]. rewrite (ou_divided k kpos). destruct (scale_y false (STable tab) y) as [ys|e]; [|reflexivity]. cbn [bind].
    rewrite (hier_fit_data c ob tab (otab k tab) ys X H). destruct (fit_data _ _ _ _ _ _ _ _ _) as [ob' [[p m]|e]]; [|reflexivity]. cbn [fst snd bind]. destruct (infer _ _ _ _ _); reflexivity.
  - rewrite (ou_scales_err k kpos y e L S). reflexivity.
Qed.

Lemma ou_reindex y ts : map fst (reindex_time_series (ou y) ts) = map fst (reindex_time_series y ts).
Proof.
  unfold reindex_time_series. rewrite !map_map. simpl. f_equal. cbn [f_levels own_units]. destruct (f_levels y) as [|n] eqn:L; [reflexivity|].
  f_equal. f_equal. unfold index_levels. cbn [f_levels own_units f_rows]. apply map_ext. intros i. do 2 f_equal. rewrite map_map. reflexivity.
Qed.

Lemma currency_dict c (ob : objects) f y X fh : c_hier c = true ->
  predictive_samples_dict ns_of keep tr_transform guide_draw complete_draw c ob (in_currency f) (ou y) X fh =
  (in_currency (fst (predictive_samples_dict ns_of keep tr_transform guide_draw complete_draw c ob f y X fh)), snd (predictive_samples_dict ns_of keep tr_transform guide_draw complete_draw c ob f y X fh)).
Proof.
  intros H. unfold predictive_samples_dict. rewrite H.
  assert (Eq : hierarchical_predict_model ns_of keep tr_transform c ob (in_currency f) (ou y) X fh = hierarchical_predict_model ns_of keep tr_transform c ob f y X fh).
  { unfold hierarchical_predict_model. cbn [in_currency ft_prepared ft_scale own_units f_levels]. apply bind_ext. intros cutoff. fold (own_units k y). rewrite ou_reindex.
    apply bind_ext. intros Xb. apply bind_ext. intros [Xb' ex]. apply bind_ext. intros td. apply bind_ext. intros data. unfold model_call. rewrite H. reflexivity. }
  rewrite Eq. destruct (hierarchical_predict_model _ _ _ c ob f y X fh) as [[m ex]|e]; reflexivity.
Qed.

Lemma fh_currency y fh : fh_to_index (ou y) fh = fh_to_index y fh.
Proof. unfold fh_to_index. rewrite ou_times. reflexivity. Qed.

Lemma currency_samples c (ob : objects) f y X fh tab : c_hier c = true -> f_levels y <> 0%nat -> ft_scale f = STable tab ->
  match snd (forecast_samples c ob f y X fh), snd (forecast_samples c ob (in_currency f) (ou y) X fh) with
  | Ok F, Ok F' => converted k F F' | Err e, Err e' => e' = e | _, _ => False end.
Proof.
  intros H L S. unfold Forecaster.forecast_samples. rewrite fh_currency. destruct (fh_to_index y fh) as [times|e]; [|reflexivity]. rewrite (currency_dict c ob f y X fh H).
  destruct (predictive_samples_dict _ _ _ _ _ c ob f y X fh) as [g [d|e]] eqn:E; cbn [fst snd bind]; [|reflexivity].
  unfold predict_samples, predict_samples_base, labeller_of. cbn [lb_levels lb_index lb_hier lb_scale lb_discrete in_currency ft_scale ft_prepared own_units f_levels].
  rewrite H, S, (hier_discrete c H).
  destruct (dict_item d "obs") as [obs|e]; cbn [bind]; [|reflexivity]. destruct (a_shape obs) as [|n sh]; [reflexivity|]. destruct (rows_of_width _ _) as [data|e]; cbn [bind]; [|reflexivity].
  unfold periodindex_to_multiindex. cbn [lb_levels lb_index lb_hier]. destruct (f_levels y) as [|lv] eqn:LV; [congruence|].
  destruct (match paths_unique _ with [] => _ | _ => _ end) as [ix|e]; cbn [bind]; [|reflexivity]. destruct (frame_of _ _ _ _) as [preds|e] eqn:FO; cbn [bind]; [|reflexivity].
  rewrite (ou_multiplied k). destruct (inv_scale_y false (STable tab) (sort_index preds)) as [F|e] eqn:IV; cbn [bind rmap]; [|reflexivity].
  apply ou_aggregate. assert (LF : f_levels F = f_levels preds) by (unfold inv_scale_y, apply_scale in IV; destruct (scale_for_each_obs _ _); [|discriminate]; cbn [bind] in IV; injection IV as <-; reflexivity). rewrite LF. unfold frame_of in FO. destruct (Nat.eqb _ _); [|discriminate]. injection FO as <-. discriminate.
Qed.

Theorem currency_forecast c (ob ob' : objects) y X f : c_hier c = true -> c_scale c = None -> f_levels y <> 0%nat -> no_zero_series y ->
  fit_forecaster c ob y X = (ob', Ok f) ->
  exists f', fit_forecaster c ob (ou y) X = (ob', Ok f') /\ ft_prepared f' = ft_prepared f /\ ft_posterior f' = ft_posterior f /\
    forall m X2 fh, converted_result k (snd (call_method c ob' f y m X2 fh)) (snd (call_method c ob' f' (ou y) m X2 fh)).
Proof.
  intros H C L Z E. exists (in_currency f). pose proof (currency_fit c ob y X H C L Z) as EF. rewrite E in EF. split; [exact EF|]. split; [reflexivity|]. split; [reflexivity|].
  assert (SC : exists tab, ft_scale f = STable tab).
  { unfold Forecaster.fit_forecaster in E. rewrite C in E. destruct (set_y_scales None y) as [s|e] eqn:S; [|discriminate]. destruct (ou_scales k kpos y L Z s S) as (tab & -> & _). cbn [bind] in E. exists tab.
    destruct (scale_y _ _ _) as [ys|]; [|discriminate]. cbn [bind] in E. destruct (fit_data _ _ _ _ _ _ _ _ _) as [o [[p mm]|]]; [|discriminate]. cbn [bind] in E. destruct (infer _ _ _ _ _); [|discriminate]. cbn [bind] in E. injection E as _ <-. reflexivity. }
  destruct SC as (tab & SC). intros m X2 fh. pose proof (currency_samples c ob' f y X2 fh tab H L SC) as S. pose proof (currency_dict c ob' f y X2 fh H) as DD.
  unfold History.call_method. destruct m as [| |alpha| |].
  - destruct (Forecaster.forecast_samples _ _ _ _ _ c ob' f y X2 fh) as [g r], (Forecaster.forecast_samples _ _ _ _ _ c ob' (in_currency f) (ou y) X2 fh) as [g' r']. cbn [fst snd] in *. destruct r, r'; try contradiction; exact S.
  - unfold forecast_point. destruct (Forecaster.forecast_samples _ _ _ _ _ c ob' f y X2 fh) as [g r], (Forecaster.forecast_samples _ _ _ _ _ c ob' (in_currency f) (ou y) X2 fh) as [g' r']. cbn [fst snd] in *.
    destruct r as [F|], r' as [F'|]; try contradiction; cbn [bind]; [|exact S]. now apply converted_point.
  - unfold forecast_quantiles. destruct (Forecaster.forecast_samples _ _ _ _ _ c ob' f y X2 fh) as [g r], (Forecaster.forecast_samples _ _ _ _ _ c ob' (in_currency f) (ou y) X2 fh) as [g' r']. cbn [fst snd] in *.
    destruct r as [F|], r' as [F'|]; try contradiction; cbn [bind]; [|exact S]. pose proof (converted_quantiles k kpos alpha F F' S) as Q. destruct (predict_quantiles alpha F), (predict_quantiles alpha F'); try contradiction; exact Q.
  - unfold forecast_all_sites. rewrite fh_currency. destruct (fh_to_index y fh) as [times|e]; [|reflexivity]. rewrite DD.
    destruct (predictive_samples_dict _ _ _ _ _ c ob' f y X2 fh) as [g [d|e]]; cbn [fst snd bind]; [|reflexivity].
    unfold predict_all_sites, labeller_of. cbn [lb_levels lb_index lb_hier lb_scale lb_discrete in_currency ft_scale ft_prepared own_units f_levels]. rewrite SC, (hier_discrete c H).
    destruct (mapM _ d) as [sites|]; cbn [bind]; [|reflexivity]. unfold periodindex_to_multiindex. cbn [lb_levels lb_index lb_hier].
    destruct (match f_levels y with 0%nat => _ | _ => _ end) as [ix|]; cbn [bind]; [|reflexivity]. destruct (forallb _ sites); [|reflexivity].
    rewrite (ou_multiplied k). destruct (inv_scale_y _ _ _); cbn [rmap bind]; [|reflexivity]. apply ou_converted.
  - unfold forecast_all_sites_samples. rewrite fh_currency, DD. destruct (predictive_samples_dict _ _ _ _ _ c ob' f y X2 fh) as [g [d|e]]; cbn [fst snd bind]; [|reflexivity].
    destruct (fh_to_index y fh) as [times|]; cbn [bind]; [|reflexivity].
    change (predict_all_sites_samples (labeller_of c (in_currency f) (ou y)) times d) with (predict_all_sites_samples (labeller_of c f y) times d).
    destruct (predict_all_sites_samples (labeller_of c f y) times d); reflexivity.
Qed.
End Any.
