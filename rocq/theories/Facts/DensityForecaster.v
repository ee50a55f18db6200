(** The joint density of fitted forecasters. *)
From Coq Require Import Reals Lra ZArith String Ascii Bool List Lia.
From Verif.Model Require Import Base Num XFloat Frame Arr Prog Likelihood Effect Trend TrendProg Aggregate Scale Expand Engine Forecaster.
From Verif.Spec Require Import FrameSpec ProgSpec EffectSpec ForecasterSpec SiteSpec ComponentSpec CounterSpec DensitySpec.
From Verif.Facts Require Import BaseFacts FrameFacts NumFacts ProgFacts MeanFacts LikelihoodFacts ModelProps EffectPredict ForecasterInv SiteFacts PosteriorFacts ComponentFacts CounterFacts ExpandFacts ForecasterFacts DensityFacts DensitySilent.
Import ListNotations.
Local Open Scope string_scope.

Section Any.
Variable ns_of : Z -> Z.
Variable order : list string -> list string.
Variable keep : path -> bool.
Context {TS : Type}.
Variable tr_fit_transform : TS -> frame R -> TS * res (frame R).
Variable tr_transform : TS -> frame R -> res (frame R).
Context {P : Type}.
Variable svi_run : Z -> nat -> nat -> prog arr -> res (list xr * P).
Variable nuts_run : Z -> nat -> nat -> nat -> prog arr -> res (nat -> nat -> env).
Variable latent_sites : prog arr -> list string.
Notation fit_data := (fit_data ns_of order keep tr_fit_transform).
Notation fit_forecaster := (fit_forecaster ns_of order keep tr_fit_transform svi_run nuts_run latent_sites).
Notation predict_model := (predict_model ns_of keep tr_transform).
Variable logpdf : distr -> arr -> R.
Notation log_joint := (log_joint logpdf).
Notation has_density := (has_density logpdf).

Lemma c100_fit c ob s y X ob' p m : fit_data c ob s y X = (ob', Ok (p, m)) -> clean_config c ->
  exists Xe td data, transform_effects (p_fitted p) Xe (time_ids y) = Ok data /\ trend_transform ns_of (o_trend ob') Xe (time_ids y) = Ok td /\
    forall e o tr, run e [] m = Ok (o, tr) -> decomposes logpdf c p (o_trend ob') td data e tr.
Proof.
  intros H C. destruct (fit_effects_clean _ _ _ _ _ _ _ _ _ _ _ _ H C) as (C1 & C2 & HX). apply fit_data_inv in H as (Xe & td & ya & data & _ & D & _ & T & _ & ->).
  exists Xe, td, data. split; [exact D|]. split; [exact T|]. intros e o tr R. eapply run_decomposes; eauto.
Qed.

Lemma c100_predict c ob y X ob' f : fit_forecaster c ob y X = (ob', Ok f) -> clean_config c ->
  forall ob2 y2 X2 fh m, predict_model c ob2 f y2 X2 fh = Ok m ->
  exists Xe td times data, transform_effects (p_fitted (ft_prepared f)) Xe times = Ok data /\ trend_transform ns_of (o_trend ob2) Xe times = Ok td /\
    forall e o tr, run e [] m = Ok (o, tr) -> decomposes logpdf c (ft_prepared f) (o_trend ob2) td data e tr.
Proof.
  intros H C ob2 y2 X2 fh m Hm. destruct (forecaster_clean _ _ _ _ _ _ _ _ _ _ _ _ _ H C) as (C1 & C2 & HX).
  destruct (predict_inv _ _ _ _ _ _ _ _ _ _ Hm HX) as (Xe & td & times & data & D & T & ->).
  exists Xe, td, times, data. split; [exact D|]. split; [exact T|]. intros e o tr R. eapply run_decomposes; eauto.
Qed.

Lemma c100_parameters c ob s y X ob' p m : fit_data c ob s y X = (ob', Ok (p, m)) -> clean_config c ->
  exists Xe data, transform_effects (p_fitted p) Xe (time_ids y) = Ok data /\
  forall name ef e e' o tr o' tr', In (name, ef) (p_effects p) -> agree_outside name e e' ->
  run e [] m = Ok (o, tr) -> run e' [] m = Ok (o', tr') -> dict_get tr name = dict_get tr' name ->
  exists x tv w r r', dict_get data name = Some x /\ dict_get tr "trend" = Some (SDet tv) /\ dict_get tr name = Some (SDet w) /\
    has_density (own_env e name) (predict ef x [("trend", tv)]) w r /\ has_density (own_env e' name) (predict ef x [("trend", tv)]) w r' /\
    (log_joint tr - log_joint tr' = r - r')%R.
Proof.
  intros H C. destruct (fit_effects_clean _ _ _ _ _ _ _ _ _ _ _ _ H C) as (C1 & C2 & HX). apply fit_data_inv in H as (Xe & td & ya & data & _ & D & _ & T & _ & ->).
  exists Xe, data. split; [exact D|]. intros name ef e e' o tr o' tr' I A R R' V.
  exact (runs_two logpdf _ _ _ _ _ _ _ HX C1 C2 _ _ _ _ _ _ _ _ R R' A I V).
Qed.

(** both runs have the same trend *)
Lemma same_trend c s p t td y data : (c_hier c = false -> p_has_exogenous p = true) -> NoDup (map fst (p_effects p)) ->
  (forall n ef, In (n, ef) (p_effects p) -> free_name n /\ unnested ef) ->
  forall name e e' o tr o' tr', agree_outside name e e' -> run e [] (model_call c s p t td y (Some data)) = Ok (o, tr) -> run e' [] (model_call c s p t td y (Some data)) = Ok (o', tr') ->
  forall ef, In (name, ef) (p_effects p) -> exists tv w w' x l l', dict_get tr name = Some (SDet w) /\ dict_get tr' name = Some (SDet w') /\ dict_get data name = Some x /\
    eval (own_env e name) (predict ef x [("trend", tv)]) = Ok (w, l) /\ eval (own_env e' name) (predict ef x [("trend", tv)]) = Ok (w', l').
Proof.
  intros HX C1 C2 name e e' o tr o' tr' A R R' ef I.
  destruct (run_decomposes logpdf _ _ _ _ _ _ _ HX C1 C2 _ _ _ R) as (tv & rt & rs & _ & _ & _ & _ & _ & T & F & _).
  destruct (run_decomposes logpdf _ _ _ _ _ _ _ HX C1 C2 _ _ _ R') as (tv' & rt' & rs' & _ & _ & _ & _ & _ & T' & F' & _).
  assert (ET : tv' = tv).
  { assert (Y : yields e (trend_predict t td) tv) by (destruct T as (q & Q & _); apply run_eval in Q as (q' & Q & _); apply eval_yields; eauto).
    destruct (trend_clean _ _ _ _ Y) as [N1 N2]. destruct (density_inv logpdf _ _ _ _ T N1) as (lt & E & _).
    assert (E' : eval e' (trend_predict t td) = Ok (tv, lt)).
    { eapply eval_agree; [exact E|]. intros n d v In_ j. apply (agree_plain _ _ _ _ A).
      assert (S : In n trend_sites) by (apply N2; rewrite (actions_eval _ _ _ _ E); now apply (in_map fst) in In_). simpl in S. intuition (subst; reflexivity). }
    assert (Y' : yields e' (trend_predict t td) tv) by (apply eval_yields; eauto).
    destruct (trend_clean _ _ _ _ Y') as [N1' _]. destruct (density_inv logpdf _ _ _ _ T' N1') as (lt' & E'' & _). congruence. }
  subst tv'. apply Forall2_In_both in F. destruct F as [F _]. apply Forall2_In_both in F'. destruct F' as [F' _].
  destruct (F _ I) as (r & _ & x & w & D & V & H). destruct (F' _ I) as (r' & _ & x' & w' & D' & V' & H'). cbn [fst snd] in *. rewrite D in D'. injection D' as <-.
  pose proof (proj2 (C2 _ _ I)) as U.
  destruct (density_inv logpdf _ _ _ _ H (predict_nodup _ _ _ _ U)) as (l & E & _). destruct (density_inv logpdf _ _ _ _ H' (predict_nodup _ _ _ _ U)) as (l' & E' & _).
  exists tv, w, w', x, l, l'. auto.
Qed.

Lemma quiet_runs c s p t td y data : (c_hier c = false -> p_has_exogenous p = true) -> NoDup (map fst (p_effects p)) ->
  (forall n ef, In (n, ef) (p_effects p) -> free_name n /\ unnested ef) ->
  forall name ef k x e e' o tr o' tr', agree_outside name e e' -> run e [] (model_call c s p t td y (Some data)) = Ok (o, tr) -> run e' [] (model_call c s p t td y (Some data)) = Ok (o', tr') ->
  In (name, ef) (p_effects p) -> plain_effect ef -> dict_get data name = Some x -> all_zero k x ->
  (log_joint tr - log_joint tr' = own_prior logpdf ef k (own_env e name) - own_prior logpdf ef k (own_env e' name))%R.
Proof.
  intros HX C1 C2 name ef k x e e' o tr o' tr' A R R' I PE D Z.
  destruct (same_trend _ _ _ _ _ _ _ HX C1 C2 _ _ _ _ _ _ _ A R R' _ I) as (tv & w & w' & x1 & l & l' & V & V' & D1 & E & E'). rewrite D in D1. injection D1 as <-.
  destruct (quiet_predict logpdf _ _ _ _ _ _ _ _ _ _ PE Z E E') as [<- _].
  destruct (runs_two logpdf _ _ _ _ _ _ _ HX C1 C2 _ _ _ _ _ _ _ _ R R' A I (eq_trans V (eq_sym V'))) as (x2 & tv2 & w2 & r & r' & D2 & _ & _ & H & H' & ->). rewrite D in D2. injection D2 as <-.
  pose proof (proj2 (C2 _ _ I)) as U.
  destruct (density_inv logpdf _ _ _ _ H (predict_nodup _ _ _ _ U)) as (l2 & E2 & ->). destruct (density_inv logpdf _ _ _ _ H' (predict_nodup _ _ _ _ U)) as (l2' & E2' & ->).
  destruct (quiet_predict logpdf _ _ _ _ _ _ _ _ _ _ PE Z E2 E2') as [_ ->]. now destruct (quiet_predict logpdf _ _ _ _ _ _ _ _ _ _ PE Z E2' E2) as [_ ->].
Qed.

Lemma c100_silent c ob s y X ob' p m : fit_data c ob s y (Some X) = (ob', Ok (p, m)) -> clean_config c ->
  c_hier c = false -> o_transformer ob = None -> f_levels X = 0 -> rectangular X ->
  forall name ef cols e e' o tr o' tr', In (name, ef) (p_effects p) -> plain_effect ef -> input_feature_column_names ef = Ok cols ->
  (forall ef' cols', In (name, ef', cols') (p_fitted p) -> ef' = ef /\ zero_columns cols' X) -> agree_outside name e e' ->
  run e [] m = Ok (o, tr) -> run e' [] m = Ok (o', tr') ->
  (log_joint tr - log_joint tr' = own_prior logpdf ef (List.length cols) (own_env e name) - own_prior logpdf ef (List.length cols) (own_env e' name))%R.
Proof.
  intros H C Hh HT L RC name ef cols e e' o tr o' tr' I PE IC HZ A R R'.
  destruct (fit_effects_clean _ _ _ _ _ _ _ _ _ _ _ _ H C) as (C1 & C2 & HX). unfold Forecaster.fit_data in H. rewrite Hh in H.
  apply univariate_fit_inv in H as (t0 & t & yt & X1 & Xe & td & data & _ & _ & _ & RT & LI & _ & _ & _ & TE & _ & _ & ->).
  unfold run_fit_transform in RT. cbn [o_transformer] in RT. rewrite HT in RT. injection RT as _ <-.
  apply loc_index_inv in LI as (L1 & L2 & _ & L4).
  assert (RE : rectangular Xe). { apply Forall_forall. intros r Ir. apply L4 in Ir. rewrite L2. eapply Forall_forall in RC; [exact RC|tauto]. }
  assert (HZ' : forall ef' cols', In (name, ef', cols') (p_fitted p) -> ef' = ef /\ zero_columns cols' Xe).
  { intros ef' cols' I'. destruct (HZ _ _ I') as [-> Z]. split; [reflexivity|]. intros r n v Ir In_ V. rewrite L2 in V. apply L4 in Ir. exact (Z r n v (proj1 Ir) In_ V). }
  destruct (same_trend _ _ _ _ _ _ _ HX C1 C2 _ _ _ _ _ _ _ A R R' _ I) as (_ & _ & _ & x & _ & _ & _ & _ & D & _ & _).
  destruct (prepared_zero Xe (time_ids y) name data ef (p_fitted p) (eq_trans L1 L) RE PE HZ' TE x D) as (cols1 & IC1 & Z). rewrite IC in IC1. injection IC1 as <-.
  eapply quiet_runs; eauto.
Qed.
End Any.
