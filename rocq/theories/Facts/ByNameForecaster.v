(** Forecasts find the columns of the exogenous data by name. *)
From Coq Require Import Reals ZArith String Bool List Lia Permutation.
From Verif.Model Require Import Base Num XFloat Regex Frame Expand Arr Aggregate Scale Prog Likelihood Effect Trend TrendProg Engine Forecaster Predict.
From Verif.Spec Require Import FrameSpec ForecasterSpec ByNameSpec.
From Verif.Facts Require Import BaseFacts FrameFacts ExpandFacts OrderFacts ForecasterInv ByNameFacts.
Import ListNotations.
Local Open Scope string_scope.

Section Any.
Variable ns_of : Z -> Z.
Variable order : list string -> list string.
Variable keep : path -> bool.
Context {TS : Type}.
Variable tr_fit_transform : TS -> frame R -> TS * res (frame R).
Variable tr_transform : TS -> frame R -> res (frame R).
Context {P : Type}.
Variable svi_run : Z -> nat -> nat -> prog arr -> res (list xr * P).
Variable nuts_run : Z -> nat -> nat -> nat -> prog arr -> res (nat -> nat -> env).
Variable latent_sites : prog arr -> list string.
Variable guide_draw : P -> Z -> nat -> prog arr -> env.
Variable complete_draw : env -> Z -> nat -> prog arr -> env.
Notation predictive_samples_dict := (predictive_samples_dict ns_of keep tr_transform guide_draw complete_draw).
Notation run_transform := (run_transform tr_transform).

Definition finds_by_name (ob : objects (TS := TS)) (M N : string -> Prop) : Prop := forall tr, o_transformer ob = Some tr -> by_name tr_transform M N tr.

Lemma ag_same N X1 X2 : ag N X1 X2 -> same_columns N X1 X2.
Proof. intros (L & C & F). split; [exact L|]. split; [exact C|]. eapply Forall2_impl; [|exact F]. intros r1 r2 _ (A & B & _ & _ & V). auto. Qed.
Lemma ag_transform (M N : string -> Prop) ob X1 X2 : (forall n, N n -> M n) -> finds_by_name ob M N -> frame_wf X1 -> frame_wf X2 -> ag M X1 X2 -> ag_res N (run_transform ob X1) (run_transform ob X2).
Proof.
  intros I T W1 W2 A. unfold Forecaster.run_transform. destruct (o_transformer ob) as [tr|] eqn:E; [|eapply ag_weaken; [exact I|exact A]].
  pose proof (T tr E X1 X2 W1 W2 (ag_same _ _ _ A)) as Q. destruct (tr_transform tr X1) as [U|], (tr_transform tr X2) as [V|]; try contradiction Q; [|exact Q]. destruct Q as (W & W' & Q). now apply same_ag.
Qed.
Lemma bottom_wf (X Xb : frame R) : frame_wf X -> loc_bottom_series X = Ok Xb -> frame_wf Xb.
Proof.
  intros W. unfold loc_bottom_series, get_bottom_series_idx. assert (G : forall q Z, get_multiindex_loc X q = Ok Z -> frame_wf Z).
  { intros q Z. unfold get_multiindex_loc. destruct q as [|]; [discriminate|]. intros [= <-]. unfold filter_rows. intros r Hr. cbn [f_rows] in Hr. apply filter_In in Hr as [Hr _]. destruct (W r Hr). now split. }
  destruct (f_levels X) as [|[|k]]; cbn [bind]; [intros [= <-]; exact W| |]; apply G.
Qed.

Theorem by_name_samples : forall c ob (f : fitted (P := P)) y X1 X2 fh (M : string -> Prop),
  (forall n, known_column ob f n -> M n) -> finds_by_name ob M (known_column ob f) -> frame_wf X1 -> frame_wf X2 -> same_columns M X1 X2 ->
  (c_hier c = true -> no_columns X1 = no_columns X2) ->
  predictive_samples_dict c ob f y (Some X1) fh = predictive_samples_dict c ob f y (Some X2) fh.
Proof.
  intros c ob f y X1 X2 fh M I T W1 W2 S H. unfold Forecaster.predictive_samples_dict. pose proof (same_ag M X1 X2 W1 W2 S) as A. set (N := known_column ob f) in *.
  assert (KT : forall n, trend_column (o_trend ob) n -> N n) by (intros n Hn; left; exact Hn).
  assert (KE : forall x n, In x (p_fitted (ft_prepared f)) -> In n (snd x) -> N n) by (intros x n Hx Hn; right; left; eauto).
  destruct (c_hier c).
  - assert (E : hierarchical_predict_model ns_of keep tr_transform c ob f y (Some X1) fh = hierarchical_predict_model ns_of keep tr_transform c ob f y (Some X2) fh); [|now rewrite E].
    unfold hierarchical_predict_model. rewrite <- (H eq_refl). destruct (max_time (map snd (p_index (ft_prepared f)))) as [cutoff|]; [|reflexivity]. cbn [bind]. destruct (no_columns X1); [reflexivity|].
    pose proof (ag_bottom M X1 X2 A) as B. destruct (loc_bottom_series X1) as [B1|] eqn:E1, (loc_bottom_series X2) as [B2|] eqn:E2; try contradiction B; cbn [bind]; [|now rewrite B]. pose proof (bottom_wf _ _ W1 E1) as V1. pose proof (bottom_wf _ _ W2 E2) as V2. cbn in B.
    assert (FIN : forall Z1 Z2 ex, ag N Z1 Z2 ->
      (td <- trend_transform ns_of (o_trend ob) Z1 (to_absolute cutoff fh) ;; data <- transform_effects (p_fitted (ft_prepared f)) Z1 (to_absolute cutoff fh) ;; Ok (model_call c (ft_scale f) (ft_prepared f) (o_trend ob) td None (Some data), ex)) =
      (td <- trend_transform ns_of (o_trend ob) Z2 (to_absolute cutoff fh) ;; data <- transform_effects (p_fitted (ft_prepared f)) Z2 (to_absolute cutoff fh) ;; Ok (model_call c (ft_scale f) (ft_prepared f) (o_trend ob) td None (Some data), (ex : option expander)))).
    { intros Z1 Z2 ex Q. now rewrite (trend_same ns_of N _ _ _ _ KT Q), (effects_same N _ _ _ _ KE Q). }
    destruct (p_has_exogenous (ft_prepared f)).
    + rewrite <- (ag_times _ _ _ B). destruct (forallb _ _); [|reflexivity]. pose proof (ag_transform M N ob B1 B2 I T V1 V2 B) as U. destruct (run_transform ob B1) as [U1|], (run_transform ob B2) as [U2|]; try contradiction U; cbn [bind]; [|now rewrite U]. cbn in U.
      destruct (p_expander (ft_prepared f)) as [ex|] eqn:EX; [|reflexivity]. cbn [attr bind].
      assert (KX : forall n, In n (ex_matched ex) -> N n) by (intros n Hn; right; right; eauto).
      pose proof (ag_expand N ex U1 U2 KX U) as Q. destruct (expand_transform 0%R (fun _ => false) ex U1) as [[Z1 e1]|], (expand_transform 0%R (fun _ => false) ex U2) as [[Z2 e2]|]; try contradiction Q; cbn [bind]; [|now rewrite Q]. destruct Q as [Q <-]. now apply FIN.
    + cbn [bind]. apply FIN. eapply ag_weaken; [exact I|exact B].
  - assert (E : univariate_predict_model ns_of tr_transform c ob f y (Some X1) fh = univariate_predict_model ns_of tr_transform c ob f y (Some X2) fh); [|now rewrite E].
    unfold univariate_predict_model. destruct (max_time (map r_time (f_rows y))) as [cutoff|]; [|reflexivity]. cbn [bind]. pose proof (ag_transform M N ob X1 X2 I T W1 W2 A) as U. destruct (run_transform ob X1) as [U1|], (run_transform ob X2) as [U2|]; try contradiction U; cbn [bind]; [|now rewrite U]. cbn in U.
    now rewrite (trend_same ns_of N _ _ _ _ KT U), (effects_same N _ _ _ _ KE U).
Qed.

Theorem by_name_forecasts : forall c ob (f : fitted (P := P)) y X1 X2 fh (M : string -> Prop),
  (forall n, known_column ob f n -> M n) -> finds_by_name ob M (known_column ob f) -> frame_wf X1 -> frame_wf X2 -> same_columns M X1 X2 ->
  (c_hier c = true -> no_columns X1 = no_columns X2) ->
  forecast_samples ns_of keep tr_transform guide_draw complete_draw c ob f y (Some X1) fh = forecast_samples ns_of keep tr_transform guide_draw complete_draw c ob f y (Some X2) fh /\
  forecast_point ns_of keep tr_transform guide_draw complete_draw c ob f y (Some X1) fh = forecast_point ns_of keep tr_transform guide_draw complete_draw c ob f y (Some X2) fh /\
  (forall alpha, forecast_quantiles ns_of keep tr_transform guide_draw complete_draw c ob f y (Some X1) fh alpha = forecast_quantiles ns_of keep tr_transform guide_draw complete_draw c ob f y (Some X2) fh alpha) /\
  forecast_all_sites ns_of keep tr_transform guide_draw complete_draw c ob f y (Some X1) fh = forecast_all_sites ns_of keep tr_transform guide_draw complete_draw c ob f y (Some X2) fh /\
  forecast_all_sites_samples ns_of keep tr_transform guide_draw complete_draw c ob f y (Some X1) fh = forecast_all_sites_samples ns_of keep tr_transform guide_draw complete_draw c ob f y (Some X2) fh.
Proof.
  intros c ob f y X1 X2 fh M I T W1 W2 S H. pose proof (by_name_samples c ob f y X1 X2 fh M I T W1 W2 S H) as E.
  unfold forecast_quantiles, forecast_point, forecast_samples, forecast_all_sites, forecast_all_sites_samples. rewrite E. repeat split; reflexivity.
Qed.
End Any.
