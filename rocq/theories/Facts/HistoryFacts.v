(** Sequences of calls: predictions leave no trace. *)
From Coq Require Import Reals String Bool ZArith List Lia Permutation.
From Verif.Model Require Import Base Num XFloat Frame Arr Expand Aggregate Scale Predict Prog Effect TrendProg Engine Forecaster History.
From Verif.Spec Require Import FrameSpec ForecasterSpec HistorySpec.
From Verif.Facts Require Import BaseFacts FrameFacts PredictFacts ForecasterInv ForecasterProps.
Import ListNotations.
Local Open Scope string_scope.

Section History.
Variable ns_of : Z -> Z.
Variable order : list string -> list string.
Variable keep : path -> bool.
Context {TS : Type}.
Variable tr_fit_transform : TS -> frame R -> TS * res (frame R).
Variable tr_transform : TS -> frame R -> res (frame R).
Context {P : Type}.
Variable svi_run : Z -> nat -> nat -> prog arr -> res (list xr * P).
Variable nuts_run : Z -> nat -> nat -> nat -> prog arr -> res (nat -> nat -> env).
Variable latent_sites : prog arr -> list string.
Variable guide_draw : P -> Z -> nat -> prog arr -> env.
Variable complete_draw : env -> Z -> nat -> prog arr -> env.
Notation fitted := (fitted (P := P)).
Notation step := (step ns_of order keep tr_fit_transform tr_transform svi_run nuts_run latent_sites guide_draw complete_draw).
Notation calls := (calls ns_of order keep tr_fit_transform tr_transform svi_run nuts_run latent_sites guide_draw complete_draw).
Notation call_method := (call_method ns_of keep tr_transform guide_draw complete_draw).

(** expanders that transform alike *)
Definition sim_ex (a b : option expander) : Prop :=
  match a, b with
  | None, None => True
  | Some a, Some b => ex_skip a = ex_skip b /\ ex_matched a = ex_matched b
  | _, _ => False
  end.
Lemma sim_ex_refl a : sim_ex a a.
Proof. destruct a; simpl; auto. Qed.

Lemma expand_sim {V} (zero : V) isna a b X : ex_skip a = ex_skip b -> ex_matched a = ex_matched b ->
  match expand_transform zero isna a X, expand_transform zero isna b X with
  | Ok (X1, a'), Ok (X2, b') => X1 = X2 /\ sim_ex (Some a) (Some a') /\ sim_ex (Some b) (Some b')
  | Err e1, Err e2 => e1 = e2
  | _, _ => False
  end.
Proof.
  intros S M. unfold expand_transform. rewrite S, M. destruct (ex_skip b) eqn:Eb.
  - simpl. auto.
  - destruct (f_levels X); [reflexivity|]. destruct (copy_columns _ _ _ _ _ _); cbn [bind]; [|reflexivity]. simpl. rewrite S, M. auto.
Qed.

Definition sim (f g : fitted) : Prop :=
  ft_scale f = ft_scale g /\ ft_posterior f = ft_posterior g /\
  p_index (ft_prepared f) = p_index (ft_prepared g) /\ p_fitted (ft_prepared f) = p_fitted (ft_prepared g) /\
  p_effects (ft_prepared f) = p_effects (ft_prepared g) /\ p_has_exogenous (ft_prepared f) = p_has_exogenous (ft_prepared g) /\
  p_single (ft_prepared f) = p_single (ft_prepared g) /\ sim_ex (p_expander (ft_prepared f)) (p_expander (ft_prepared g)).

Lemma sim_refl f : sim f f.
Proof. repeat split. apply sim_ex_refl. Qed.
Lemma sim_set f ex : sim_ex (p_expander (ft_prepared f)) ex -> sim f (set_expander f ex).
Proof. intros H. repeat split. exact H. Qed.
Lemma sim_ex_sym a b : sim_ex a b -> sim_ex b a.
Proof. destruct a, b; simpl; intuition. Qed.
Lemma sim_ex_trans a b c : sim_ex a b -> sim_ex b c -> sim_ex a c.
Proof. destruct a, b, c; simpl; intuition congruence. Qed.
Lemma sim_sym f g : sim f g -> sim g f.
Proof. unfold sim. intuition auto using sim_ex_sym. Qed.
Lemma sim_trans f g h : sim f g -> sim g h -> sim f h.
Proof. unfold sim. intros; decompose [and] H; decompose [and] H0. repeat split; try congruence. eauto using sim_ex_trans. Qed.

Lemma model_call_sim c s p q t td y data : p_effects p = p_effects q -> p_has_exogenous p = p_has_exogenous q -> p_single p = p_single q ->
  model_call c s p t td y data = model_call c s q t td y data.
Proof. intros E H S. unfold model_call. now rewrite E, H, S. Qed.

Lemma hier_model_sim c ob f g y X fh : sim f g ->
  match hierarchical_predict_model ns_of keep tr_transform c ob f y X fh, hierarchical_predict_model ns_of keep tr_transform c ob g y X fh with
  | Ok (m1, e1), Ok (m2, e2) => m1 = m2 /\ sim_ex (p_expander (ft_prepared f)) e1 /\ sim_ex (p_expander (ft_prepared g)) e2
  | Err x1, Err x2 => x1 = x2
  | _, _ => False
  end.
Proof.
  intros (S1 & S2 & S3 & S4 & S5 & S6 & S7 & S8). unfold hierarchical_predict_model. rewrite S3.
  destruct (max_time _) as [cutoff|]; cbn [bind]; [|reflexivity].
  set (times := to_absolute cutoff fh). destruct (loc_bottom_series _) as [Xb|]; cbn [bind]; [|reflexivity].
  rewrite S6. destruct (p_has_exogenous (ft_prepared g)) eqn:Hx.
  - destruct (forallb _ _); cbn [bind]; [|reflexivity]. destruct (run_transform tr_transform ob Xb) as [X1|]; cbn [bind]; [|reflexivity].
    destruct (p_expander (ft_prepared f)) as [a|], (p_expander (ft_prepared g)) as [b|]; simpl in S8; try contradiction; [|reflexivity].
    cbn [attr bind]. destruct S8 as [SK SM]. pose proof (expand_sim 0%R (fun _ => false) a b X1 SK SM) as HX.
    destruct (expand_transform _ _ a X1) as [[Xa a']|], (expand_transform _ _ b X1) as [[Xb' b']|]; try contradiction; [|now subst].
    destruct HX as (-> & Ha & Hb). cbn [bind]. destruct (trend_transform _ _ _ _); cbn [bind]; [|reflexivity].
    rewrite S4. destruct (transform_effects _ _ _); cbn [bind]; [|reflexivity]. rewrite S1. split; [|auto].
    apply model_call_sim; auto; congruence.
  - cbn [bind]. destruct (trend_transform _ _ _ _); cbn [bind]; [|reflexivity].
    rewrite S4. destruct (transform_effects _ _ _); cbn [bind]; [|reflexivity]. rewrite S1. split.
    + apply model_call_sim; auto; congruence.
    + split; apply sim_ex_refl.
Qed.

Lemma uni_model_sim c ob f g y X fh : sim f g ->
  univariate_predict_model ns_of tr_transform c ob f y X fh = univariate_predict_model ns_of tr_transform c ob g y X fh.
Proof.
  intros (S1 & S2 & S3 & S4 & S5 & S6 & S7 & S8). unfold univariate_predict_model.
  destruct (max_time _) as [cutoff|]; cbn [bind]; [|reflexivity].
  destruct (run_transform _ _ _); cbn [bind]; [|reflexivity]. destruct (trend_transform _ _ _ _); cbn [bind]; [|reflexivity].
  rewrite S6, S4, S1. destruct (if p_has_exogenous _ then _ else _); cbn [bind]; [|reflexivity].
  f_equal. apply model_call_sim; congruence.
Qed.

Lemma dict_sim c ob f g y X fh : sim f g ->
  snd (predictive_samples_dict ns_of keep tr_transform guide_draw complete_draw c ob f y X fh) =
  snd (predictive_samples_dict ns_of keep tr_transform guide_draw complete_draw c ob g y X fh) /\
  sim f (fst (predictive_samples_dict ns_of keep tr_transform guide_draw complete_draw c ob f y X fh)) /\
  sim g (fst (predictive_samples_dict ns_of keep tr_transform guide_draw complete_draw c ob g y X fh)).
Proof.
  intros HS. unfold predictive_samples_dict. destruct (c_hier c).
  - pose proof (hier_model_sim c ob f g y X fh HS) as HM.
    destruct (hierarchical_predict_model _ _ _ _ _ f _ _ _) as [[m1 e1]|], (hierarchical_predict_model _ _ _ _ _ g _ _ _) as [[m2 e2]|]; try contradiction.
    + destruct HM as (-> & E1 & E2). cbn [fst snd]. destruct HS as (S1 & S2 & _). rewrite S2. split; [reflexivity|].
      split; now apply sim_set.
    + subst. cbn [fst snd]. auto using sim_refl.
  - cbn [fst snd]. rewrite (uni_model_sim c ob f g y X fh HS). destruct HS as (S1 & S2 & _). rewrite S2. auto using sim_refl.
Qed.

Lemma labeller_sim c f g y : sim f g -> labeller_of c f y = labeller_of c g y.
Proof. intros (S1 & S2 & S3 & _). unfold labeller_of. now rewrite S1, S3. Qed.

Lemma samples_sim c ob f g y X fh : sim f g ->
  snd (forecast_samples ns_of keep tr_transform guide_draw complete_draw c ob f y X fh) =
  snd (forecast_samples ns_of keep tr_transform guide_draw complete_draw c ob g y X fh) /\
  sim f (fst (forecast_samples ns_of keep tr_transform guide_draw complete_draw c ob f y X fh)).
Proof.
  intros HS. unfold forecast_samples. destruct (fh_to_index y fh); [|cbn; auto using sim_refl].
  destruct (dict_sim c ob f g y X fh HS) as (E & A & B).
  destruct (predictive_samples_dict _ _ _ _ _ c ob f y X fh) as [f1 r1]. destruct (predictive_samples_dict _ _ _ _ _ c ob g y X fh) as [g1 r2].
  cbn [fst snd] in *. subst r2. rewrite (labeller_sim c f g y HS). auto.
Qed.

Lemma method_sim c ob f g y m X fh : sim f g ->
  snd (call_method c ob f y m X fh) = snd (call_method c ob g y m X fh) /\ sim f (fst (call_method c ob f y m X fh)).
Proof.
  intros HS. destruct (samples_sim c ob f g y X fh HS) as (ES & FS). destruct (dict_sim c ob f g y X fh HS) as (ED & FD & _).
  unfold call_method, History.call_method, forecast_point, forecast_quantiles, forecast_all_sites, forecast_all_sites_samples.
  rewrite (labeller_sim c f g y HS).
  destruct (forecast_samples _ _ _ _ _ c ob f y X fh) as [f1 r1]. destruct (forecast_samples _ _ _ _ _ c ob g y X fh) as [g1 r2].
  destruct (predictive_samples_dict _ _ _ _ _ c ob f y X fh) as [f2 d1]. destruct (predictive_samples_dict _ _ _ _ _ c ob g y X fh) as [g2 d2].
  cbn [fst snd] in *. subst. destruct m; cbn [fst snd]; auto; destruct (fh_to_index y fh); cbn [fst snd bind]; auto using sim_refl.
Qed.

(** ** states *)
Definition sim_state (s t : state (TS := TS) (P := P)) : Prop :=
  st_objects s = st_objects t /\ st_y s = st_y t /\ st_X s = st_X t /\
  match st_fitted s, st_fitted t with None, None => True | Some f, Some g => sim f g | _, _ => False end.
Lemma sim_state_refl s : sim_state s s.
Proof. repeat split. destruct (st_fitted s); auto using sim_refl. Qed.

Lemma step_sim c s t cl : sim_state s t -> snd (step c s cl) = snd (step c t cl) /\ sim_state (fst (step c s cl)) (fst (step c t cl)).
Proof.
  intros HS. pose proof HS as (S1 & S2 & S3 & S4). unfold step, History.step.
  assert (F : forall y X, snd (do_fit ns_of order keep tr_fit_transform svi_run nuts_run latent_sites c s y X) = snd (do_fit ns_of order keep tr_fit_transform svi_run nuts_run latent_sites c t y X) /\
    sim_state (fst (do_fit ns_of order keep tr_fit_transform svi_run nuts_run latent_sites c s y X)) (fst (do_fit ns_of order keep tr_fit_transform svi_run nuts_run latent_sites c t y X))).
  { intros y X. unfold do_fit. rewrite S1. destruct (fit_forecaster _ _ _ _ _ _ _ _ _ _ _) as [ob [f|e]]; split; auto using sim_state_refl. }
  destruct cl as [y X|y X up|m X fh]; [apply F| |].
  - destruct (st_fitted s) as [f|], (st_fitted t) as [g|]; try contradiction; [|cbn; auto].
    rewrite S2, S3. destruct (combine_first y _) as [y'|]; [|cbn; auto].
    destruct (match X with None => _ | Some _ => _ end) as [X'|]; [|cbn; auto].
    destruct up; [apply F|]. cbn. unfold sim_state. cbn. auto.
  - destruct (st_fitted s) as [f|], (st_fitted t) as [g|]; try contradiction; [|cbn; auto].
    rewrite S1, S2, S3. destruct (method_sim c (st_objects t) f g (st_y t) m X fh S4) as (E & A).
    destruct (method_sim c (st_objects t) g f (st_y t) m X fh (sim_sym _ _ S4)) as (_ & B).
    destruct (call_method c (st_objects t) f (st_y t) m X fh) as [f1 r1], (call_method c (st_objects t) g (st_y t) m X fh) as [g1 r2].
    cbn [fst snd] in *. split; [exact E|]. unfold sim_state. cbn. repeat split.
    1-8: now apply (sim_trans _ _ _ (sim_sym _ _ A) (sim_trans _ _ _ S4 B)).
Qed.

Lemma predict_sim c s m X fh : sim_state s (fst (step c s (Predict m X fh))).
Proof.
  unfold step, History.step. destruct (st_fitted s) as [f|] eqn:E; [|apply sim_state_refl].
  destruct (method_sim c (st_objects s) f f (st_y s) m X fh (sim_refl _)) as (_ & A).
  destruct (call_method c (st_objects s) f (st_y s) m X fh) as [f1 r1]. cbn [fst] in *.
  unfold sim_state. cbn. rewrite E. auto.
Qed.

Lemma sim_state_trans s t u : sim_state s t -> sim_state t u -> sim_state s u.
Proof.
  intros (A1 & A2 & A3 & A4) (B1 & B2 & B3 & B4). unfold sim_state.
  repeat split; try congruence. destruct (st_fitted s), (st_fitted t), (st_fitted u); try contradiction; eauto using sim_trans.
Qed.

Lemma predicts_sim c : forall cs s, Forall is_predict cs -> sim_state s (calls c s cs).
Proof.
  intros cs. induction cs as [|cl cs IH]; intros s H; [apply sim_state_refl|].
  inversion H as [|? ? (m & X & fh & ->) H']; subst. unfold calls, History.calls. cbn [fold_left].
  eapply sim_state_trans; [apply (predict_sim c s m X fh)|]. now apply IH.
Qed.

(** C62: calls made after predictions return what they would have returned without them *)
Lemma c62 c s cs cl : Forall is_predict cs -> snd (step c (calls c s cs) cl) = snd (step c s cl).
Proof. intros H. symmetry. apply step_sim. now apply predicts_sim. Qed.

Lemma calls_sim c : forall cs s t, sim_state s t -> sim_state (calls c s cs) (calls c t cs).
Proof.
  intros cs. induction cs as [|cl cs IH]; intros s t H; [exact H|]. unfold calls, History.calls. cbn [fold_left].
  apply IH, step_sim, H.
Qed.

Lemma calls_app c s a b : calls c s (a ++ b) = calls c (calls c s a) b.
Proof. apply fold_left_app. Qed.

(** removing predictions from a history changes no later result *)
Lemma c62_anywhere c s before cs after cl : Forall is_predict cs ->
  snd (step c (calls c s (before ++ cs ++ after)) cl) = snd (step c (calls c s (before ++ after)) cl).
Proof.
  intros H. rewrite !calls_app. symmetry. apply step_sim, calls_sim. now apply predicts_sim.
Qed.

(** and the stored data stay *)
Lemma c62_data c s cs : Forall is_predict cs -> st_y (calls c s cs) = st_y s /\ st_X (calls c s cs) = st_X s /\ st_objects (calls c s cs) = st_objects s.
Proof. intros H. destruct (predicts_sim c cs s H) as (A & B & C & _). auto. Qed.
End History.
