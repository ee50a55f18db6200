(** The hyperparameters in fits and forecasts. *)
From Coq Require Import Reals Lra ZArith String Bool List Lia.
From Verif.Model Require Import Base Num XFloat Frame Arr Prog Likelihood Effect Trend TrendProg Aggregate Scale Expand Engine Predict Forecaster.
From Verif.Spec Require Import ForecasterSpec OptionSpec.
From Verif.Facts Require Import BaseFacts ForecasterInv ForecasterProps OptionFacts.
Import ListNotations.
Local Open Scope string_scope.

Section Any.
Variable ns_of : Z -> Z.
Variable order : list string -> list string.
Variable keep : path -> bool.
Context {TS P : Type}.
Variable tr_fit_transform : TS -> frame R -> TS * res (frame R).
Variable tr_transform : TS -> frame R -> res (frame R).
Variable svi_run : Z -> nat -> nat -> prog arr -> res (list xr * P).
Variable nuts_run : Z -> nat -> nat -> nat -> prog arr -> res (nat -> nat -> env).
Variable latent_sites : prog arr -> list string.
Variable guide_draw : P -> Z -> nat -> prog arr -> env.
Variable complete_draw : env -> Z -> nat -> prog arr -> env.
Notation fit_data := (fit_data ns_of order keep tr_fit_transform).
Notation fit_forecaster := (fit_forecaster ns_of order keep tr_fit_transform svi_run nuts_run latent_sites).
Notation predict_model := (predict_model ns_of keep tr_transform).

Section Two.
Variables c c' : config.
Hypothesis HS : same_structure c c'.
Notation S := (touched c c').

Lemma discrete_same : discrete c = discrete c'.
Proof. pose proof HS as (Hh & _ & _ & _ & _ & _ & Hl & _). unfold discrete. now rewrite Hh, Hl. Qed.

Lemma trend_twin (ob : objects (TS := TS)) :
  match get_trend_model c ob, get_trend_model c' ob with
  | Ok t, Ok t' => twin_trend S t t' /\ forall p k b f, t = TPiecewise p k b (Some f) -> t = t'
  | Err x, Err x' => x = x'
  | _, _ => False
  end.
Proof.
  unfold get_trend_model. pose proof HS as (_ & Ht & _). rewrite <- Ht. destruct (c_trend c) as [name|] eqn:HT.
  - pose proof (named_twin c c' HS name HT) as Q. destruct (named_trend c name), (named_trend c' name); try contradiction; [|exact Q]. destruct Q as [Q1 Q2]. split; [exact Q1|]. intros p k b f E. destruct (Q2 p k b f E).
  - split; [now left|auto].
Qed.

Definition like_fits (r r' : objects (TS := TS) * res (prepared * prog arr)) : Prop :=
  o_transformer (fst r) = o_transformer (fst r') /\
  match snd r, snd r' with
  | Ok (p, m), Ok (p', m') => p = p' /\ twin S m m' /\ twin_trend S (o_trend (fst r)) (o_trend (fst r'))
  | Err x, Err x' => x = x'
  | _, _ => False
  end.

Lemma fit_data_twin ob s y X : like_fits (fit_data c ob s y X) (fit_data c' ob s y X).
Proof.
  pose proof HS as (Hh & _ & _ & _ & He & Hd & Hl & _ & Hsh). unfold Forecaster.fit_data. rewrite <- Hh. destruct (c_hier c) eqn:Hc.
  - unfold hierarchical_fit_data. rewrite <- Hsh, <- Hd. replace (effects_of c') with (effects_of c) by (unfold effects_of; now rewrite He).
    set (ya := aggregate keep y). destruct (loc_bottom_series ya) as [yb|]; [|split; reflexivity]. destruct (series_to_tensor yb) as [tensor|]; [|split; reflexivity].
    set (X1 := match X with None => _ | Some _ => _ end). destruct (loc_bottom_series X1) as [Xb|]; [|split; reflexivity].
    destruct (run_fit_transform tr_fit_transform ob Xb) as [ob1 [Xt|]]; [|split; reflexivity].
    set (expanded := if negb (no_columns Xt) then _ else _). pose proof (trend_twin ob1) as T. destruct expanded as [[Xe ex]|]; [|split; reflexivity].
    destruct (get_trend_model c ob1) as [t|], (get_trend_model c' ob1) as [t'|]; try contradiction; [|split; [reflexivity|exact T]].
    destruct T as [T1 T2]. pose proof (trend_fit_twin ns_of order S t t' (Some Xe) yb (scale_number s) T1 T2) as Q. cbv zeta in Q.
    destruct (trend_fit ns_of order t (Some Xe) yb (scale_number s)) as [u err], (trend_fit ns_of order t' (Some Xe) yb (scale_number s)) as [u' err']. cbn [fst snd] in Q. destruct Q as [<- Q].
    split; [reflexivity|]. cbn [fst snd o_trend]. destruct err as [e|]; [reflexivity|]. specialize (Q eq_refl). rewrite <- (trend_transform_twin ns_of S u u' Xe _ Q).
    destruct (trend_transform ns_of u Xe (time_ids y)) as [td|]; cbn [bind]; [|reflexivity]. destruct (fit_effects _ _ _ _ _) as [fe|]; cbn [bind]; [|reflexivity].
    destruct (transform_effects fe Xe _) as [data|]; cbn [bind]; [|reflexivity]. destruct (non_skipped fe) as [effs|]; cbn [bind]; [|reflexivity].
    split; [reflexivity|]. split; [|exact Q]. now apply model_twin.
  - unfold univariate_fit_data. replace (discrete c') with (discrete c) by exact discrete_same. rewrite <- Hd. replace (effects_of c') with (effects_of c) by (unfold effects_of; now rewrite He).
    pose proof (trend_twin ob) as T. destruct (get_trend_model c ob) as [t|], (get_trend_model c' ob) as [t'|]; try contradiction; [|split; [reflexivity|exact T]].
    destruct (if discrete c then divide_target s y else Ok y) as [yt|]; [|split; reflexivity].
    destruct T as [T1 T2]. pose proof (trend_fit_twin ns_of order S t t' X yt 1 T1 T2) as Q. cbv zeta in Q.
    destruct (trend_fit ns_of order t X yt 1) as [u err], (trend_fit ns_of order t' X yt 1) as [u' err']. cbn [fst snd] in Q. destruct Q as [<- Q].
    destruct err as [e|]; [split; reflexivity|]. specialize (Q eq_refl). cbv zeta. set (X1 := match X with None => _ | Some _ => _ end). unfold run_fit_transform. cbn [o_transformer].
    destruct (o_transformer ob) as [tr|].
    + destruct (tr_fit_transform tr X1) as [tr' [Xt|]]; [|split; reflexivity]. split; [reflexivity|]. cbn [fst snd o_trend bind]. destruct (loc_index Xt _) as [Xl|]; cbn [bind]; [|reflexivity].
      rewrite <- (trend_transform_twin ns_of S u u' Xl _ Q). destruct (trend_transform ns_of u Xl _) as [td|]; cbn [bind]; [|reflexivity].
      destruct (fit_effects _ _ _ _ _) as [fe|]; cbn [bind]; [|reflexivity]. destruct (transform_effects fe Xl _) as [data|]; cbn [bind]; [|reflexivity].
      destruct (non_skipped fe) as [effs|]; cbn [bind]; [|reflexivity]. split; [reflexivity|]. split; [|exact Q]. now apply model_twin.
    + split; [reflexivity|]. cbn [fst snd o_trend bind]. destruct (loc_index X1 _) as [Xl|]; cbn [bind]; [|reflexivity].
      rewrite <- (trend_transform_twin ns_of S u u' Xl _ Q). destruct (trend_transform ns_of u Xl _) as [td|]; cbn [bind]; [|reflexivity].
      destruct (fit_effects _ _ _ _ _) as [fe|]; cbn [bind]; [|reflexivity]. destruct (transform_effects fe Xl _) as [data|]; cbn [bind]; [|reflexivity].
      destruct (non_skipped fe) as [effs|]; cbn [bind]; [|reflexivity]. split; [reflexivity|]. split; [|exact Q]. now apply model_twin.
Qed.

Lemma c109_fit ob s y X :
  match snd (fit_data c ob s y X), snd (fit_data c' ob s y X) with
  | Ok (p, m), Ok (p', m') => p = p' /\ like_runs S m m'
  | Err x, Err x' => x = x'
  | _, _ => False
  end.
Proof.
  destruct (fit_data_twin ob s y X) as [_ H]. destruct (snd (fit_data c ob s y X)) as [[p m]|], (snd (fit_data c' ob s y X)) as [[p' m']|]; try contradiction; [|exact H].
  destruct H as (H1 & H2 & _). split; [exact H1|now apply twin_like].
Qed.

Lemma forecaster_twin ob y X ob1 f ob1' f' : fit_forecaster c ob y X = (ob1, Ok f) -> fit_forecaster c' ob y X = (ob1', Ok f') ->
  ft_scale f = ft_scale f' /\ ft_prepared f = ft_prepared f' /\ o_transformer ob1 = o_transformer ob1' /\ twin_trend S (o_trend ob1) (o_trend ob1').
Proof.
  intros H H'. apply fit_forecaster_inv in H, H'. destruct H as (s & ys & p & m & post & E1 & E2 & E3 & _ & ->). destruct H' as (s' & ys' & p' & m' & post' & E1' & E2' & E3' & _ & ->).
  pose proof HS as (_ & _ & _ & _ & _ & _ & Hl & Hs & _). rewrite <- Hs in E1'. rewrite E1 in E1'. injection E1' as <-. replace (discrete c') with (discrete c) in E2' by exact discrete_same.
  rewrite E2 in E2'. injection E2' as <-. pose proof (fit_data_twin ob s ys X) as Q. rewrite E3, E3' in Q. destruct Q as [Q1 Q2]. cbn [fst snd] in *. destruct Q2 as (-> & _ & Q2). auto.
Qed.

Lemma model_twins (ob ob' : objects (TS := TS)) (f f' : fitted (P := P)) y X fh : ft_scale f = ft_scale f' -> ft_prepared f = ft_prepared f' -> o_transformer ob = o_transformer ob' -> twin_trend S (o_trend ob) (o_trend ob') ->
  match univariate_predict_model ns_of tr_transform c ob f y X fh, univariate_predict_model ns_of tr_transform c' ob' f' y X fh with
  | Ok m, Ok m' => twin S m m' | Err x, Err x' => x = x' | _, _ => False end /\
  match hierarchical_predict_model ns_of keep tr_transform c ob f y X fh, hierarchical_predict_model ns_of keep tr_transform c' ob' f' y X fh with
  | Ok (m, ex), Ok (m', ex') => twin S m m' /\ ex = ex' | Err x, Err x' => x = x' | _, _ => False end.
Proof.
  intros E1 E2 E3 T. split.
  - unfold univariate_predict_model, run_transform. rewrite <- E1, <- E2, <- E3. destruct (max_time _) as [cut|]; cbn [bind]; [|reflexivity].
    set (X1 := match X with None => _ | Some _ => _ end). destruct (match o_transformer ob with None => Ok X1 | Some tr => tr_transform tr X1 end) as [Xt|]; cbn [bind]; [|reflexivity].
    rewrite <- (trend_transform_twin ns_of S _ _ Xt _ T). destruct (trend_transform ns_of _ _ _) as [td|]; cbn [bind]; [|reflexivity].
    destruct (p_has_exogenous (ft_prepared f)); cbn [bind]; [|now apply model_twin]. destruct (transform_effects _ _ _) as [d|]; cbn [bind]; [|reflexivity]. now apply model_twin.
  - unfold hierarchical_predict_model, run_transform. rewrite <- E1, <- E2, <- E3. destruct (max_time _) as [cut|]; cbn [bind]; [|reflexivity].
    set (X1 := match X with None => _ | Some _ => _ end). destruct (loc_bottom_series X1) as [Xb|]; cbn [bind]; [|reflexivity].
    set (both := if p_has_exogenous (ft_prepared f) then _ else _). destruct both as [[Xe ex]|]; cbn [bind]; [|reflexivity].
    rewrite <- (trend_transform_twin ns_of S _ _ Xe _ T). destruct (trend_transform ns_of _ _ _) as [td|]; cbn [bind]; [|reflexivity].
    destruct (transform_effects _ _ _) as [d|]; cbn [bind]; [|reflexivity]. split; [now apply model_twin|reflexivity].
Qed.

Lemma c109_forecast ob y X ob1 f ob1' f' : fit_forecaster c ob y X = (ob1, Ok f) -> fit_forecaster c' ob y X = (ob1', Ok f') ->
  ft_scale f = ft_scale f' /\ ft_prepared f = ft_prepared f' /\
  forall y2 X2 fh, match predict_model c ob1 f y2 X2 fh, predict_model c' ob1' f' y2 X2 fh with
                   | Ok m, Ok m' => like_runs S m m' | Err x, Err x' => x = x' | _, _ => False end.
Proof.
  intros H H'. destruct (forecaster_twin _ _ _ _ _ _ _ H H') as (E1 & E2 & E3 & T). split; [exact E1|]. split; [exact E2|]. intros y2 X2 fh.
  destruct (model_twins ob1 ob1' f f' y2 X2 fh E1 E2 E3 T) as [M1 M2]. unfold ForecasterSpec.predict_model. pose proof HS as (Hh & _). rewrite <- Hh. destruct (c_hier c).
  - destruct (hierarchical_predict_model _ _ _ c _ _ _ _ _) as [[m ex]|], (hierarchical_predict_model _ _ _ c' _ _ _ _ _) as [[m' ex']|]; try contradiction; cbn [bind fst]; [now apply twin_like|exact M2].
  - destruct (univariate_predict_model _ _ c _ _ _ _ _) as [m|], (univariate_predict_model _ _ c' _ _ _ _ _) as [m'|]; try contradiction; [now apply twin_like|exact M1].
Qed.

(** * Options that are not in use *)
Hypothesis HN : forall n, ~ S n.

Lemma c109_programs ob s y X : snd (fit_data c ob s y X) = snd (fit_data c' ob s y X).
Proof.
  destruct (fit_data_twin ob s y X) as [_ H]. destruct (snd (fit_data c ob s y X)) as [[p m]|], (snd (fit_data c' ob s y X)) as [[p' m']|]; try contradiction; [|now rewrite H].
  destruct H as (-> & H2 & _). now rewrite (twin_none _ _ _ H2 HN).
Qed.

Hypothesis HI : same_inference c c'.

Lemma infer_same m : infer svi_run nuts_run latent_sites (engine_of c) m = infer svi_run nuts_run latent_sites (engine_of c') m.
Proof.
  destruct HI as (H1 & H2 & H3 & H4). unfold infer. rewrite <- H2. cbn [engine_of en_method en_warmup en_samples en_chains en_optimizer en_steps]. rewrite <- H1.
  destruct (String.eqb_spec (c_method c) "mcmc") as [E|_]; [destruct (H3 E) as (-> & -> & ->); reflexivity|]. destruct (String.eqb_spec (c_method c) "map") as [E|_]; [destruct (H4 E) as (-> & ->)|]; reflexivity.
Qed.

Lemma fitted_same ob y X : snd (fit_forecaster c ob y X) = snd (fit_forecaster c' ob y X).
Proof.
  pose proof HS as (_ & _ & _ & _ & _ & _ & Hl & Hs & _). unfold Forecaster.fit_forecaster. rewrite <- Hs. replace (discrete c') with (discrete c) by exact discrete_same.
  destruct (set_y_scales _ y) as [s|]; cbn [bind]; [|reflexivity]. destruct (scale_y _ s y) as [ys|]; cbn [bind]; [|reflexivity].
  pose proof (c109_programs ob s ys X) as Q. destruct (fit_data c ob s ys X) as [o1 d1], (fit_data c' ob s ys X) as [o2 d2]. cbn [snd] in *. subst d2. destruct d1 as [[p m]|]; cbn [bind]; [|reflexivity]. now rewrite infer_same.
Qed.

Lemma draws_same ob y X ob1 ob1' f : fit_forecaster c ob y X = (ob1, Ok f) -> fit_forecaster c' ob y X = (ob1', Ok f) -> forall y2 X2 fh,
  predictive_samples_dict ns_of keep tr_transform guide_draw complete_draw c ob1 f y2 X2 fh = predictive_samples_dict ns_of keep tr_transform guide_draw complete_draw c' ob1' f y2 X2 fh.
Proof.
  intros H H' y2 X2 fh. destruct (forecaster_twin _ _ _ _ _ _ _ H H') as (E1 & E2 & E3 & T). destruct (model_twins ob1 ob1' f f y2 X2 fh E1 E2 E3 T) as [M1 M2].
  destruct HI as (_ & Hk & _). pose proof HS as (Hh & _). unfold predictive_samples_dict. rewrite <- Hh. unfold engine_predict, draws. rewrite <- Hk. destruct (c_hier c).
  - destruct (hierarchical_predict_model _ _ _ c _ _ _ _ _) as [[m ex]|], (hierarchical_predict_model _ _ _ c' _ _ _ _ _) as [[m' ex']|]; try contradiction; [|now rewrite M2].
    destruct M2 as [M2 ->]. now rewrite (twin_none _ _ _ M2 HN).
  - f_equal. destruct (univariate_predict_model _ _ c _ _ _ _ _) as [m|], (univariate_predict_model _ _ c' _ _ _ _ _) as [m'|]; try contradiction; cbn [bind]; [|now rewrite M1].
    now rewrite (twin_none _ _ _ M1 HN).
Qed.

Notation samples := (forecast_samples ns_of keep tr_transform guide_draw complete_draw).
Notation point := (forecast_point ns_of keep tr_transform guide_draw complete_draw).
Notation quantiles_ := (forecast_quantiles ns_of keep tr_transform guide_draw complete_draw).
Notation sites := (forecast_all_sites ns_of keep tr_transform guide_draw complete_draw).
Notation sites_samples := (forecast_all_sites_samples ns_of keep tr_transform guide_draw complete_draw).

Lemma c109_unused ob y X : let r := fit_forecaster c ob y X in let r' := fit_forecaster c' ob y X in
  snd r = snd r' /\
  forall f, snd r = Ok f -> forall y2 X2 fh,
    samples c (fst r) f y2 X2 fh = samples c' (fst r') f y2 X2 fh /\ point c (fst r) f y2 X2 fh = point c' (fst r') f y2 X2 fh /\
    (forall alpha, quantiles_ c (fst r) f y2 X2 fh alpha = quantiles_ c' (fst r') f y2 X2 fh alpha) /\
    sites c (fst r) f y2 X2 fh = sites c' (fst r') f y2 X2 fh /\ sites_samples c (fst r) f y2 X2 fh = sites_samples c' (fst r') f y2 X2 fh.
Proof.
  cbv zeta. pose proof (fitted_same ob y X) as Q. split; [exact Q|]. intros f H y2 X2 fh. destruct (fit_forecaster c ob y X) as [o1 d1] eqn:E1, (fit_forecaster c' ob y X) as [o2 d2] eqn:E2.
  cbn [fst snd] in *. subst d1 d2. pose proof (draws_same _ _ _ _ _ _ E1 E2 y2 X2 fh) as D.
  assert (L : labeller_of c f y2 = labeller_of c' f y2). { unfold labeller_of. rewrite discrete_same. pose proof HS as (Hh & _). now rewrite Hh. }
  unfold forecast_point, forecast_quantiles, forecast_all_sites, forecast_all_sites_samples, forecast_samples. rewrite D, L. auto.
Qed.
End Two.
End Any.
