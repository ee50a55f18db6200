(** What a successful fit or prediction went through. *)
From Coq Require Import Reals String Bool ZArith List Permutation Lia.
From Verif.Model Require Import Base Num XFloat Regex Frame Arr Expand Aggregate Scale Predict Prog Likelihood Trend Effect
  TrendProg Engine Forecaster.
From Verif.Spec Require Import RegexSpec FrameSpec ProgSpec EffectSpec ForecasterSpec.
From Verif.Facts Require Import BaseFacts RegexFacts FrameFacts ProgFacts MeanFacts EffectFacts ForecasterFacts.
Import ListNotations.
Local Open Scope string_scope.

Lemma truthy_invert b : truthy (invert b) = true.
Proof. now destruct b. Qed.

(** reading a chain of binds backwards *)
Ltac inv_bind H :=
  match type of H with
  | bind ?m _ = Ok _ => let x := fresh "x" in let E := fresh "E" in destruct m as [x|] eqn:E; [|discriminate H]; cbn [bind] in H
  end.

Lemma mapM_nil {A B} (f : A -> res B) l : mapM f l = Ok [] -> l = [].
Proof. intros H. apply mapM_length in H. now destruct l. Qed.

Lemma loc_index_inv (X X' : frame R) index : loc_index X index = Ok X' ->
  f_levels X' = f_levels X /\ f_cols X' = f_cols X /\ (index <> [] -> f_rows X' <> []) /\
  (forall r, In r (f_rows X') <-> In r (f_rows X) /\ In (r_path r, r_time r) index).
Proof.
  unfold loc_index. intros H. inv_bind H. injection H as <-. cbn [f_levels f_cols f_rows].
  apply mapM_ok in E. split; [reflexivity|]. split; [reflexivity|].
  assert (G : forall pt rs, (match filter (fun r => path_eqb (r_path r) (fst pt) && Z.eqb (r_time r) (snd pt)) (f_rows X) with
      | [] => Err KeyError
      | rs => Ok rs
      end) = Ok rs -> rs <> [] /\ forall r, In r rs <-> In r (f_rows X) /\ (r_path r, r_time r) = pt).
  { intros [p t] rs Hrs. set (l := filter _ _) in Hrs. assert (rs = l /\ l <> []) as [-> Hl].
    { destruct l; [discriminate|]. injection Hrs as <-. split; [reflexivity|discriminate]. }
    split; [exact Hl|]. intros r. unfold l. rewrite filter_In, andb_true_iff, path_eqb_eq, Z.eqb_eq. simpl.
    split; [intros (? & -> & ->); auto|]. intros (? & [= -> ->]). auto. }
  split.
  - destruct E as [|pt rs index x Hp F]; intros N; [exfalso; apply N; reflexivity|]. destruct (G _ _ Hp) as [Hn _]. simpl. destruct rs; [congruence|discriminate].
  - intros r. rewrite in_concat. apply Forall2_In_both in E. destruct E as [F1 F2]. split.
    + intros (rs & Hrs & Hr). destruct (F2 _ Hrs) as (pt & Hpt & E). apply G in E. apply E in Hr. destruct Hr as [Hr <-]. auto.
    + intros (Hr & Hi). destruct (F1 _ Hi) as (rs & Hrs & E). apply G in E. exists rs. split; [exact Hrs|]. apply E. auto.
Qed.

Section Forecaster.
Variable ns_of : Z -> Z.
Variable order : list string -> list string.
Variable keep : path -> bool.
Context {TS : Type}.
Variable tr_fit_transform : TS -> frame R -> TS * res (frame R).
Variable tr_transform : TS -> frame R -> res (frame R).
Context {P : Type}.

Lemma run_fit_transform_inv ob (X : frame R) ob' X' : run_fit_transform tr_fit_transform ob X = (ob', Ok X') ->
  o_trend ob' = o_trend ob /\
  match o_transformer ob with
  | None => ob' = ob /\ X' = X
  | Some tr => exists tr', o_transformer ob' = Some tr' /\ tr_fit_transform tr X = (tr', Ok X')
  end.
Proof.
  unfold run_fit_transform. destruct (o_transformer ob) as [tr|] eqn:E.
  - destruct (tr_fit_transform tr X) as [tr' r]. intros [= <- ->]. simpl. eauto.
  - intros [= <- <-]. auto.
Qed.

Lemma univariate_fit_inv c ob s y X ob' p m :
  univariate_fit_data ns_of order tr_fit_transform c ob s y X = (ob', Ok (p, m)) ->
  exists t0 t yt X1 Xe td data,
    get_trend_model c ob = Ok t0 /\ (if discrete c then divide_target s y else Ok y) = Ok yt /\
    trend_fit ns_of order t0 X yt 1 = (t, None) /\
    run_fit_transform tr_fit_transform (mkObjects t (o_transformer ob))
      (match X with None => empty_frame (f_levels y) (index_of y) | Some X => X end) = (ob', Ok X1) /\
    loc_index X1 (index_of y) = Ok Xe /\ o_trend ob' = t /\
    trend_transform ns_of t Xe (time_ids y) = Ok td /\
    fit_effects order (c_default c) (effects_of c) (Some Xe) (scale_number s) = Ok (p_fitted p) /\
    transform_effects (p_fitted p) Xe (time_ids y) = Ok data /\
    non_skipped (p_fitted p) = Ok (p_effects p) /\
    p = mkPrepared (index_of y) (p_fitted p) (p_effects p) true None false /\
    m = model_call c s p t td (Some (reshape_col (mkArr [] (flat_map r_vals (f_rows y))))) (Some data).
Proof.
  unfold univariate_fit_data. intros H.
  destruct (get_trend_model c ob) as [t0|] eqn:G; [|discriminate].
  destruct (if discrete c then divide_target s y else Ok y) as [yt|] eqn:D; [|discriminate].
  destruct (trend_fit ns_of order t0 X yt 1) as [t [er|]] eqn:F; [discriminate|].
  destruct (run_fit_transform _ _ _) as [ob1 [X1|]] eqn:Q; [|discriminate]. cbn [bind] in H.
  injection H as <- H. rewrite truthy_invert in H. repeat inv_bind H. injection H as <- <-.
  pose proof (run_fit_transform_inv _ _ _ _ Q) as [QT _].
  exists t0, t, yt, X1, x, x0, x2. cbn [p_fitted p_effects p_index]. simpl in QT. repeat split; auto.
Qed.

(** what the effects of the hierarchical forecaster see *)
Lemma hierarchical_fit_inv c ob s y X ob' p m :
  hierarchical_fit_data ns_of order keep tr_fit_transform c ob s y X = (ob', Ok (p, m)) ->
  exists yb tensor X0 X1 X2 ob1 t0 t td data,
    loc_bottom_series (aggregate keep y) = Ok yb /\ series_to_tensor yb = Ok tensor /\
    loc_bottom_series (match X with
                   | None => empty_frame (f_levels (aggregate keep y)) (index_of (aggregate keep y))
                   | Some X => if no_columns X then empty_frame (f_levels (aggregate keep y)) (index_of (aggregate keep y)) else X
                   end) = Ok X0 /\
    run_fit_transform tr_fit_transform ob X0 = (ob1, Ok X1) /\
    p_has_exogenous p = negb (no_columns X1) /\
    (if p_has_exogenous p
     then exists ex, expand_bottom 0%R (fun _ => false) order (match c_shared c with None => [] | Some l => l end) X1 = Ok (X2, ex) /\ p_expander p = Some ex
     else X2 = X1 /\ p_expander p = None) /\
    get_trend_model c ob1 = Ok t0 /\ trend_fit ns_of order t0 (Some X2) yb (scale_number s) = (t, None) /\
    ob' = mkObjects t (o_transformer ob1) /\
    trend_transform ns_of t X2 (time_ids y) = Ok td /\
    fit_effects order (c_default c) (effects_of c) (Some X2) (scale_number s) = Ok (p_fitted p) /\
    transform_effects (p_fitted p) X2 (time_ids y) = Ok data /\
    non_skipped (p_fitted p) = Ok (p_effects p) /\
    p_index p = index_of (aggregate keep y) /\
    p_single p = Nat.eqb (n_series (f_levels (aggregate keep y)) (index_of (aggregate keep y))) 1 /\
    m = model_call c s p t td (Some (arr_of_data 1 (D3 tensor))) (Some data).
Proof.
  unfold hierarchical_fit_data. intros H.
  destruct (loc_bottom_series (aggregate keep y)) as [yb|] eqn:B; [|discriminate].
  destruct (series_to_tensor yb) as [tensor|] eqn:T; [|discriminate].
  destruct (loc_bottom_series _) as [X0|] eqn:B0 in H; [|discriminate].
  destruct (run_fit_transform _ ob X0) as [ob1 [X1|]] eqn:Q; [|discriminate].
  destruct (negb (no_columns X1)) eqn:N.
  - destruct (expand_bottom _ _ _ _ X1) as [[X2 ex]|] eqn:EX; [|destruct (get_trend_model c ob1); discriminate].
    cbn [bind] in H. destruct (get_trend_model c ob1) as [t0|] eqn:G; [|discriminate].
    destruct (trend_fit _ _ t0 _ _ _) as [t [er|]] eqn:F; [discriminate|]. injection H as <- H. repeat inv_bind H. injection H as <- <-.
    exists yb, tensor, X0, X1, X2, ob1, t0, t, x, x1. cbn [p_fitted p_effects p_index p_has_exogenous p_expander p_single].
    repeat split; auto. exists ex. auto.
  - cbn [bind] in H. destruct (get_trend_model c ob1) as [t0|] eqn:G; [|discriminate].
    destruct (trend_fit _ _ t0 _ _ _) as [t [er|]] eqn:F; [discriminate|]. injection H as <- H. repeat inv_bind H. injection H as <- <-.
    exists yb, tensor, X0, X1, X1, ob1, t0, t, x, x1. cbn [p_fitted p_effects p_index p_has_exogenous p_expander p_single].
    repeat split; auto.
Qed.

(** common part *)
Lemma fit_data_inv c ob s y X ob' p m :
  fit_data ns_of order keep tr_fit_transform c ob s y X = (ob', Ok (p, m)) ->
  exists Xe td ya data,
    fit_effects order (c_default c) (effects_of c) (Some Xe) (scale_number s) = Ok (p_fitted p) /\
    transform_effects (p_fitted p) Xe (time_ids y) = Ok data /\
    non_skipped (p_fitted p) = Ok (p_effects p) /\
    trend_transform ns_of (o_trend ob') Xe (time_ids y) = Ok td /\
    (c_hier c = false -> p_has_exogenous p = true) /\
    m = model_call c s p (o_trend ob') td (Some ya) (Some data).
Proof.
  unfold fit_data. destruct (c_hier c) eqn:Hc; intros H.
  - apply hierarchical_fit_inv in H.
    destruct H as (yb & tensor & X0 & X1 & X2 & ob1 & t0 & t & td & data & H). exists X2, td, (arr_of_data 1 (D3 tensor)), data.
    destruct H as (_ & _ & _ & _ & _ & _ & _ & _ & -> & H1 & H2 & H3 & H4 & _ & _ & ->). cbn [o_trend].
    repeat split; auto. discriminate.
  - apply univariate_fit_inv in H. destruct H as (t0 & t & yt & X1 & Xe & td & data & H).
    destruct H as (_ & _ & _ & _ & _ & <- & H1 & H2 & H3 & H4 & H5 & ->).
    exists Xe, td, (reshape_col (mkArr [] (flat_map r_vals (f_rows y)))), data. repeat split; auto. rewrite H5. reflexivity.
Qed.

Lemma predict_inv c ob (f : fitted (P := P)) y X fh m :
  predict_model ns_of keep tr_transform c ob f y X fh = Ok m ->
  (c_hier c = false -> p_has_exogenous (ft_prepared f) = true) ->
  exists Xe td times data,
    transform_effects (p_fitted (ft_prepared f)) Xe times = Ok data /\
    trend_transform ns_of (o_trend ob) Xe times = Ok td /\
    m = model_call c (ft_scale f) (ft_prepared f) (o_trend ob) td None (Some data).
Proof.
  unfold predict_model. destruct (c_hier c) eqn:Hc; intros H HE.
  - inv_bind H. injection H as <-. unfold hierarchical_predict_model in E. do 3 inv_bind E. destruct x2 as [Xb ex]. repeat inv_bind E.
    injection E as <-. cbn [fst]. eexists _, _, _, _. eauto.
  - unfold univariate_predict_model in H. do 3 inv_bind H. rewrite (HE eq_refl) in H. inv_bind H. inv_bind E2. injection E2 as <-.
    injection H as <-. eexists _, _, _, _. eauto.
Qed.

(** every model function computes the location first *)
Lemma model_call_shape c s p t td y data e tr o tr' :
  (c_hier c = false -> p_has_exogenous p = true) ->
  run e tr (model_call c s p t td y (Some data)) = Ok (o, tr') ->
  model_of (trend_predict t td) data (effect_fns (p_effects p)) (model_call c s p t td y (Some data)).
Proof.
  unfold model_call, model_of. intros HE H. destruct (c_hier c).
  - unfold multivariate_model. eexists. reflexivity.
  - rewrite (HE eq_refl) in *. destruct (String.eqb (c_likelihood c) "normal"); [unfold univariate_model; eexists; reflexivity|].
    destruct (String.eqb (c_likelihood c) "gamma"); [unfold univariate_gamma_model; eexists; reflexivity|].
    destruct (String.eqb (c_likelihood c) "negbinomial"); [unfold univariate_negbinomial_model; eexists; reflexivity|]. discriminate.
Qed.
End Forecaster.
