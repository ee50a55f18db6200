(** A feature transformer that returns the data it is given. *)
From Coq Require Import Reals String Bool ZArith List.
From Verif.Model Require Import Base Num XFloat Frame Arr Expand Aggregate Scale Predict Prog Likelihood Trend Effect
  TrendProg Engine Forecaster.
From Verif.Spec Require Import TransformerSpec.
From Verif.Facts Require Import BaseFacts ForecasterFacts.
Import ListNotations.

Section Forecaster.
Variable ns_of : Z -> Z.
Variable order : list string -> list string.
Variable keep : path -> bool.
Context {TS : Type}.
Variable tr_fit_transform : TS -> frame R -> TS * res (frame R).
Variable tr_transform : TS -> frame R -> res (frame R).
Context {P : Type}.
Variable svi_run : Z -> nat -> nat -> prog arr -> res (list xr * P).
Variable nuts_run : Z -> nat -> nat -> nat -> prog arr -> res (nat -> nat -> env).
Variable latent_sites : prog arr -> list string.
Variable guide_draw : P -> Z -> nat -> prog arr -> env.
Variable complete_draw : env -> Z -> nat -> prog arr -> env.
Notation fit_forecaster := (fit_forecaster ns_of order keep tr_fit_transform svi_run nuts_run latent_sites).
Notation fit_data := (fit_data ns_of order keep tr_fit_transform).
Notation objects := (objects (TS := TS)).

Lemma identity_data c (ob : objects) s y X tr : o_transformer ob = Some tr ->
  (forall X0, exists tr', tr_fit_transform tr X0 = (tr', Ok X0) /\ forall X', tr_transform tr' X' = Ok X') ->
  snd (fit_data c ob s y X) = snd (fit_data c (without_transformer ob) s y X) /\
  o_trend (fst (fit_data c ob s y X)) = o_trend (fst (fit_data c (without_transformer ob) s y X)) /\
  o_transformer (fst (fit_data c (without_transformer ob) s y X)) = None /\
  forall r, snd (fit_data c ob s y X) = Ok r ->
    exists tr', o_transformer (fst (fit_data c ob s y X)) = Some tr' /\ forall X', tr_transform tr' X' = Ok X'.
Proof.
  intros HT HI. unfold Forecaster.fit_data. destruct (c_hier c).
  - unfold Forecaster.hierarchical_fit_data. cbv zeta.
    destruct (loc_bottom_series (aggregate keep y)) as [yb|]; [|repeat split; discriminate].
    destruct (series_to_tensor yb) as [tensor|]; [|repeat split; discriminate].
    destruct (loc_bottom_series _) as [Xb|]; [|repeat split; discriminate].
    unfold run_fit_transform, without_transformer, get_trend_model. cbn [o_transformer o_trend]. rewrite HT.
    destruct (HI Xb) as (tr' & E & A). rewrite E. cbn [o_trend o_transformer].
    destruct (if negb (no_columns Xb) then _ else _) as [[Xe ex]|]; [|repeat split; discriminate].
    destruct (match c_trend c with TrendName _ => _ | TrendObject => _ end) as [t0|]; [|repeat split; discriminate].
    destruct (trend_fit ns_of order t0 (Some Xe) yb (scale_number s)) as [t er]. cbn [fst snd o_trend o_transformer].
    repeat split. intros r _. exists tr'. auto.
  - unfold Forecaster.univariate_fit_data. cbv zeta. unfold get_trend_model, without_transformer. cbn [o_transformer o_trend].
    destruct (match c_trend c with TrendName _ => _ | TrendObject => _ end) as [t0|]; [|repeat split; discriminate].
    destruct (if discrete c then _ else _) as [yt|]; [|repeat split; discriminate].
    destruct (trend_fit ns_of order t0 X yt 1) as [t er]. destruct er; [repeat split; discriminate|].
    unfold run_fit_transform. cbn [o_transformer o_trend]. rewrite HT.
    destruct (HI (match X with None => empty_frame (f_levels y) (index_of y) | Some X => X end)) as (tr' & E & A). rewrite E. cbn [fst snd o_trend o_transformer].
    repeat split. intros r _. exists tr'. auto.
Qed.

Notation predictive_samples_dict := (predictive_samples_dict ns_of keep tr_transform guide_draw complete_draw).
Notation forecast_samples := (forecast_samples ns_of keep tr_transform guide_draw complete_draw).
Notation forecast_point := (forecast_point ns_of keep tr_transform guide_draw complete_draw).
Notation forecast_quantiles := (forecast_quantiles ns_of keep tr_transform guide_draw complete_draw).
Notation forecast_all_sites := (forecast_all_sites ns_of keep tr_transform guide_draw complete_draw).
Notation forecast_all_sites_samples := (forecast_all_sites_samples ns_of keep tr_transform guide_draw complete_draw).

Lemma identity_dict c (ob ob' : objects) (f : fitted (P := P)) y X fh tr : o_transformer ob = Some tr -> o_transformer ob' = None ->
  o_trend ob = o_trend ob' -> (forall X', tr_transform tr X' = Ok X') ->
  predictive_samples_dict c ob f y X fh = predictive_samples_dict c ob' f y X fh.
Proof.
  intros HT HN HE HI. unfold Forecaster.predictive_samples_dict.
  assert (R : forall X', run_transform tr_transform ob X' = run_transform tr_transform ob' X') by (intros X'; unfold run_transform; rewrite HT, HN; apply HI).
  destruct (c_hier c).
  - unfold hierarchical_predict_model. cbv zeta. rewrite HE. destruct (max_time _) as [cutoff|]; [|reflexivity]. cbn [bind].
    destruct (loc_bottom_series _) as [Xb|]; [|reflexivity]. cbn [bind]. rewrite R. reflexivity.
  - unfold univariate_predict_model. cbv zeta. rewrite HE. destruct (max_time _) as [cutoff|]; [|reflexivity]. cbn [bind]. rewrite R. reflexivity.
Qed.

Theorem identity_transformer c (ob : objects) y X tr : o_transformer ob = Some tr ->
  (forall X0, exists tr', tr_fit_transform tr X0 = (tr', Ok X0) /\ forall X', tr_transform tr' X' = Ok X') ->
  snd (fit_forecaster c ob y X) = snd (fit_forecaster c (without_transformer ob) y X) /\
  o_trend (fst (fit_forecaster c ob y X)) = o_trend (fst (fit_forecaster c (without_transformer ob) y X)) /\
  forall ob1 ob2 f, fit_forecaster c ob y X = (ob1, Ok f) -> fst (fit_forecaster c (without_transformer ob) y X) = ob2 ->
    forall X2 fh,
      forecast_samples c ob1 f y X2 fh = forecast_samples c ob2 f y X2 fh /\
      forecast_point c ob1 f y X2 fh = forecast_point c ob2 f y X2 fh /\
      (forall alphas, forecast_quantiles c ob1 f y X2 fh alphas = forecast_quantiles c ob2 f y X2 fh alphas) /\
      forecast_all_sites c ob1 f y X2 fh = forecast_all_sites c ob2 f y X2 fh /\
      forecast_all_sites_samples c ob1 f y X2 fh = forecast_all_sites_samples c ob2 f y X2 fh.
Proof.
  intros HT HI. unfold Forecaster.fit_forecaster.
  destruct (set_y_scales (c_scale c) y) as [s|]; [|repeat split; discriminate]. cbn [bind].
  destruct (scale_y (discrete c) s y) as [ys|]; [|repeat split; discriminate]. cbn [bind].
  destruct (identity_data c ob s ys X tr HT HI) as (A & B & C & D).
  destruct (fit_data c ob s ys X) as [ob1 d1], (fit_data c (without_transformer ob) s ys X) as [ob2 d2].
  cbn [fst snd] in *. subst d2. split; [reflexivity|]. split; [exact B|].
  intros ob1' ob2' f E <- X2 fh. injection E as <- E. destruct d1 as [r|]; [|discriminate]. destruct (D r eq_refl) as (tr' & D1 & D2).
  pose proof (identity_dict c ob1 ob2 f y X2 fh tr' D1 C B D2) as Q.
  repeat split; intros; unfold Forecaster.forecast_quantiles, Forecaster.forecast_point, Forecaster.forecast_samples, Forecaster.forecast_all_sites, Forecaster.forecast_all_sites_samples; rewrite ?Q; reflexivity.
Qed.
End Forecaster.
