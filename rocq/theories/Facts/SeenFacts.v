(** Effects and columns of a fit, for the table they are given. *)
From Coq Require Import Reals String Bool ZArith List Lia.
From Verif.Model Require Import Base Num XFloat Regex Frame Arr Expand Aggregate Scale Predict Prog Likelihood Trend Effect
  TrendProg Engine Forecaster.
From Verif.Spec Require Import RegexSpec FrameSpec ProgSpec EffectSpec ForecasterSpec TransformerSpec SeenSpec.
From Verif.Facts Require Import BaseFacts ScaleFacts ForecasterFacts ForecasterInv ForecasterProps TransformerFacts.
Import ListNotations.
Local Open Scope string_scope.

Section Any.
Variable ns_of : Z -> Z.
Variable order : list string -> list string.
Variable keep : path -> bool.
Context {TS : Type}.
Variable tr_fit_transform : TS -> frame R -> TS * res (frame R).
Notation fit_data := (fit_data ns_of order keep tr_fit_transform).
Notation effects_table := (effects_table order keep tr_fit_transform).

Lemma table_unique c ob ob' y X Xe Xe' : effects_table c ob ob' y X Xe -> effects_table c ob ob' y X Xe' -> Xe = Xe'.
Proof.
  intros (X0 & X1 & E0 & E1 & E2) (Z0 & Z1 & F0 & F1 & F2). rewrite E0 in F0. injection F0 as <-.
  assert (X1 = Z1).
  { destruct (o_transformer ob); [|destruct E1, F1; congruence]. destruct E1 as (t1 & E1 & _), F1 as (t2 & F1 & _). rewrite E1 in F1. now injection F1. }
  subst Z1. destruct (c_hier c); [|congruence]. destruct (no_columns X1); [congruence|]. destruct E2 as (x & E2), F2 as (x' & F2). congruence.
Qed.

Lemma table_of c ob s y X ob' p m : fit_data c ob s y X = (ob', Ok (p, m)) ->
  exists Xe, effects_table c ob ob' y X Xe /\ fit_effects order (c_default c) (effects_of c) (Some Xe) (scale_number s) = Ok (p_fitted p) /\
    non_skipped (p_fitted p) = Ok (p_effects p).
Proof.
  unfold Forecaster.fit_data, SeenSpec.effects_table, transformer_input, given_table. destruct (c_hier c) eqn:Hc; intros H.
  - apply hierarchical_fit_inv in H. destruct H as (yb & tensor & X0 & X1 & X2 & ob1 & t0 & t & td & data & _ & _ & HX0 & HQ & Hex & HX2 & _ & _ & -> & _ & H2 & _ & H4 & _).
    exists X2. split; [|auto]. exists X0, X1. apply run_fit_transform_inv in HQ as [_ HQ]. cbn [andb o_transformer]. rewrite aggregate_levels in HX0. split; [exact HX0|]. split.
    + destruct (o_transformer ob) eqn:T; [destruct HQ as (tr' & A & B); eauto|]. destruct HQ as [-> ->]. rewrite T. auto.
    + rewrite Hex in HX2. destruct (no_columns X1); cbn [negb] in HX2; [tauto|]. destruct HX2 as (ex & HX2 & _). eauto.
  - apply univariate_fit_inv in H. destruct H as (t0 & t & yt & X1 & Xe & td & data & _ & _ & _ & HQ & HL & _ & _ & H2 & _ & H4 & _).
    exists Xe. split; [|auto]. apply run_fit_transform_inv in HQ as [_ HQ]. cbn [andb o_transformer] in *. eexists _, X1. split; [reflexivity|]. split; [|exact HL].
    destruct (o_transformer ob) eqn:T; [destruct HQ as (tr' & A & B); destruct X; eauto|]. destruct HQ as [-> ->]. cbn [o_transformer]. destruct X; auto.
Qed.

Theorem seen_columns c ob s y X ob' p m Xe : fit_data c ob s y X = (ob', Ok (p, m)) -> effects_table c ob ob' y X Xe ->
  exists main dflt, p_fitted p = (main ++ dflt)%list /\ Forall2 (fitted_from order (scale_number s) Xe) (effects_of c) main /\
    ((dflt = [] /\ forall col, ~ leftover (effects_of c) Xe col) \/
     (exists f, dflt = [f] /\ fe_name f = default_name /\ fe_cols f <> [] /\
        (forall col, In col (fe_cols f) <-> leftover (effects_of c) Xe col) /\
        exists XC, select_columns 0%R Xe (fe_cols f) = Ok XC /\
          fit order (clone (default_of (c_default c))) (Some XC) (scale_number s) = (fe_effect f, None))).
Proof.
  intros H T. destruct (table_of _ _ _ _ _ _ _ _ H) as (Xe' & T' & H1 & _). rewrite <- (table_unique _ _ _ _ _ _ _ T T') in H1. apply fit_effects_inv in H1. exact H1.
Qed.
Theorem seen_names c ob s y X ob' p m Xe : fit_data c ob s y X = (ob', Ok (p, m)) -> effects_table c ob ob' y X Xe -> f_rows Xe <> [] ->
  forall n, In n (dict_keys (p_effects p)) <->
    (exists l, In l (effects_of c) /\ l_name l = n /\ participates Xe l) \/ (n = default_name /\ exists col, leftover (effects_of c) Xe col).
Proof.
  intros H T N n. destruct (table_of _ _ _ _ _ _ _ _ H) as (Xe' & T' & H1 & H2). rewrite <- (table_unique _ _ _ _ _ _ _ T T') in H1. eapply names_part; eauto.
Qed.
Theorem seen_contributes c ob s y X ob' p m Xe : fit_data c ob s y X = (ob', Ok (p, m)) -> effects_table c ob ob' y X Xe -> f_rows Xe <> [] ->
  NoDup (map l_name (effects_of c)) -> ~ In default_name (map l_name (effects_of c)) -> ~ In "trend" (map l_name (effects_of c)) ->
  forall l, In l (effects_of c) -> participates Xe l -> contributes order l Xe (scale_number s) m.
Proof.
  intros H T N ND NN NT l Hl K. destruct (table_of _ _ _ _ _ _ _ _ H) as (Xe' & T' & H1 & H2). rewrite <- (table_unique _ _ _ _ _ _ _ T T') in H1.
  apply fit_data_inv in H as (Xe2 & td & ya & data & _ & _ & _ & _ & HE & ->). apply contributes_from; auto.
Qed.
Variable tr_transform : TS -> frame R -> res (frame R).
Context {P : Type}.
Variable svi_run : Z -> nat -> nat -> prog arr -> res (list xr * P).
Variable nuts_run : Z -> nat -> nat -> nat -> prog arr -> res (nat -> nat -> env).
Variable latent_sites : prog arr -> list string.
Notation fit_forecaster := (fit_forecaster ns_of order keep tr_fit_transform svi_run nuts_run latent_sites).
Notation predict_model := (predict_model ns_of keep tr_transform).
Theorem seen_forecast c ob y X ob' f Xe : fit_forecaster c ob y X = (ob', Ok f) -> effects_table c ob ob' y X Xe -> f_rows Xe <> [] ->
  NoDup (map l_name (effects_of c)) -> ~ In default_name (map l_name (effects_of c)) -> ~ In "trend" (map l_name (effects_of c)) ->
  forall l, In l (effects_of c) -> participates Xe l ->
  forall ob2 y2 X2 fh m, predict_model c ob2 f y2 X2 fh = Ok m -> contributes order l Xe (scale_number (ft_scale f)) m.
Proof.
  intros H T N ND NN NT l Hl K ob2 y2 X2 fh m Hm. pose proof (fit_prepared _ _ _ _ _ _ _ _ _ _ _ _ _ H) as [_ HE]. apply fit_forecaster_inv in H.
  destruct H as (s & ys & p & m0 & post & _ & SY & H & _ & ->). destruct (table_of _ _ _ _ _ _ _ _ H) as (Xe' & T' & H1 & H2).
  assert (T2 : effects_table c ob ob' y X Xe').
  { apply scale_y_index in SY as [S1 S2]. destruct T' as (X0 & X1 & A & B & C). exists X0, X1. rewrite <- (given_index keep c y ys X S2 S1). split; [exact A|]. split; [exact B|].
    destruct (c_hier c); [exact C|]. now rewrite <- S1. }
  rewrite <- (table_unique _ _ _ _ _ _ _ T T2) in H1. apply predict_inv in Hm; [|exact HE]. destruct Hm as (Xp & td & times & data & _ & _ & ->).
  simpl ft_scale. simpl ft_prepared. apply contributes_from; auto.
Qed.
End Any.
