(** A feature transformer that raises while forecasting. *)
From Coq Require Import Reals String Bool ZArith List.
From Verif.Model Require Import Base Num XFloat Frame Arr Expand Aggregate Scale Predict Prog Likelihood Trend Effect
  TrendProg Engine Forecaster.
From Verif.Spec Require Import TotalSpec TransformerSpec.
From Verif.Facts Require Import BaseFacts FrameFacts ForecasterFacts ForecasterInv ForecasterTransformer EffectExamples ForecasterExamples EngineExamples HistoryExamples ComponentExamples TotalExamples
  TransformerFacts TransformerTotal.
Import ListNotations.
Local Open Scope string_scope.

Section Forecaster.
Variable ns_of : Z -> Z.
Variable keep : path -> bool.
Context {TS : Type}.
Variable tr_transform : TS -> frame R -> res (frame R).
Context {P : Type}.
Variable guide_draw : P -> Z -> nat -> prog arr -> env.
Variable complete_draw : env -> Z -> nat -> prog arr -> env.
Notation objects := (objects (TS := TS)).
Notation predictive_samples_dict := (predictive_samples_dict ns_of keep tr_transform guide_draw complete_draw).
Notation forecast_samples := (forecast_samples ns_of keep tr_transform guide_draw complete_draw).
Notation forecast_point := (forecast_point ns_of keep tr_transform guide_draw complete_draw).
Notation forecast_quantiles := (forecast_quantiles ns_of keep tr_transform guide_draw complete_draw).
Notation forecast_all_sites := (forecast_all_sites ns_of keep tr_transform guide_draw complete_draw).
Notation forecast_all_sites_samples := (forecast_all_sites_samples ns_of keep tr_transform guide_draw complete_draw).

Lemma raises_dict c (ob : objects) (f : fitted (P := P)) y X2 fh tr times X20 e : o_transformer ob = Some tr ->
  (c_hier c = true -> p_has_exogenous (ft_prepared f) = true /\ forall t, In t times -> In t (map r_time (f_rows X20))) ->
  asked c f y fh = Ok times -> transformer_input c (given_future keep c y times X2) = Ok X20 -> tr_transform tr X20 = Err e ->
  predictive_samples_dict c ob f y X2 fh = (f, Err e).
Proof.
  intros HT HH HA HI HX. unfold Forecaster.predictive_samples_dict. unfold asked in HA. unfold transformer_input in HI. destruct (c_hier c) eqn:Hc.
  - destruct (HH eq_refl) as [HE HC]. unfold hierarchical_predict_model. cbv zeta. inv_bind HA. injection HA as HA. cbn [bind]. rewrite HA.
    assert (E0 : match X2 with
       | None => aggregate keep (empty_frame (f_levels y) (map fst (reindex_time_series y times)))
       | Some X => if no_columns X then aggregate keep (empty_frame (f_levels y) (map fst (reindex_time_series y times))) else X end
       = given_future keep c y times X2).
    { unfold given_future. rewrite Hc. destruct X2; reflexivity. }
    rewrite E0, HI. cbn [bind]. rewrite HE.
    assert (CV : forallb (fun t => existsb (Z.eqb t) (map r_time (f_rows X20))) times = true).
    { apply forallb_forall. intros t Ht. apply existsb_exists. exists t. split; [exact (HC t Ht)|apply Z.eqb_refl]. }
    rewrite CV. unfold run_transform. rewrite HT, HX. reflexivity.
  - injection HI as HI. f_equal. unfold univariate_predict_model. cbv zeta. inv_bind HA. injection HA as HA. cbn [bind]. rewrite HA.
    assert (E0 : match X2 with None => empty_frame 0 (map (fun t => ([], t)) times) | Some X => X end = X20).
    { rewrite <- HI. unfold given_future. rewrite Hc. destruct X2; reflexivity. }
    rewrite E0. unfold run_transform. rewrite HT, HX. reflexivity.
Qed.

Theorem transformer_raises_forecast c (ob : objects) (f : fitted (P := P)) y X2 fh tr times X20 e : o_transformer ob = Some tr -> f_rows y <> [] ->
  (c_hier c = true -> p_has_exogenous (ft_prepared f) = true /\ forall t, In t times -> In t (map r_time (f_rows X20))) ->
  asked c f y fh = Ok times -> transformer_input c (given_future keep c y times X2) = Ok X20 -> tr_transform tr X20 = Err e ->
  forecast_samples c ob f y X2 fh = (f, Err e) /\ forecast_point c ob f y X2 fh = (f, Err e) /\
  (forall alphas, forecast_quantiles c ob f y X2 fh alphas = (f, Err e)) /\
  forecast_all_sites c ob f y X2 fh = (f, Err e) /\ forecast_all_sites_samples c ob f y X2 fh = (f, Err e).
Proof.
  intros HT HY HH HA HI HX. pose proof (raises_dict c ob f y X2 fh tr times X20 e HT HH HA HI HX) as D.
  assert (T : exists ts, fh_to_index y fh = Ok ts).
  { unfold fh_to_index. destruct (f_rows y) as [|r l]; [congruence|]. cbn [map max_time bind]. eexists. reflexivity. }
  destruct T as [ts T].
  assert (S : forecast_samples c ob f y X2 fh = (f, Err e)) by (unfold Forecaster.forecast_samples; rewrite T, D; reflexivity).
  split; [exact S|]. unfold Forecaster.forecast_point, Forecaster.forecast_quantiles, Forecaster.forecast_all_sites, Forecaster.forecast_all_sites_samples.
  rewrite S, T, D. repeat split.
Qed.
End Forecaster.

(** a transformer that rejects tables without columns *)
Definition picky_apply (s : bool * bool) (X : frame R) : res (frame R) := if no_columns X then Err ValueError else Ok X.
Lemma picky_example trend likelihood : In trend ["linear"; "linear_raw"; "flat"; "logistic"] -> In likelihood ["normal"; "gamma"; "negbinomial"] ->
  exists ob f, doubled_fit trend likelihood = (ob, Ok f) /\ o_transformer ob = Some (true, true) /\
    asked (total_config trend likelihood "mcmc") f ex_y (Relative [1; 2]%Z) = Ok [8; 9]%Z /\
    transformer_input (total_config trend likelihood "mcmc") (given_future keep_all (total_config trend likelihood "mcmc") ex_y [8; 9]%Z None) = Ok (mkFrame 0 [] [mkRow [] 8 []; mkRow [] 9 []]%Z) /\
    forecast_point ex_ns keep_all picky_apply ex_guide ex_complete (total_config trend likelihood "mcmc") ob f ex_y None (Relative [1; 2]%Z) = (f, Err ValueError).
Proof.
  intros HT HL. destruct (doubled_example trend likelihood HT HL) as (ob & f & F & E & _). exists ob, f. split; [exact E|].
  destruct (transformer_same_fit ex_ns sorted_sets keep_all tool_fit ex_svi ex_nuts comp_latent _ _ _ _ _ _ (doubled_transformed trend likelihood)) as [_ B].
  unfold doubled_fit in E. destruct (B f) as [B1 _]; [now rewrite E|]. rewrite E in B1. cbn [fst] in B1. split; [exact B1|].
  assert (A : asked (total_config trend likelihood "mcmc") f ex_y (Relative [1; 2]%Z) = Ok [8; 9]%Z) by reflexivity.
  assert (I : transformer_input (total_config trend likelihood "mcmc") (given_future keep_all (total_config trend likelihood "mcmc") ex_y [8; 9]%Z None) = Ok (mkFrame 0 [] [mkRow [] 8 []; mkRow [] 9 []]%Z)) by reflexivity.
  split; [exact A|]. split; [exact I|].
  apply (transformer_raises_forecast ex_ns keep_all picky_apply ex_guide ex_complete (total_config trend likelihood "mcmc") ob f ex_y None (Relative [1; 2]%Z) (true, true) [8; 9]%Z _ ValueError B1 ltac:(discriminate) ltac:(discriminate) A I eq_refl).
Qed.
