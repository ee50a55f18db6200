(** Listing the effects in another order. *)
From Coq Require Import Reals String Bool ZArith List Permutation Lia FunctionalExtensionality.
From Verif.Model Require Import Base Num XFloat Regex Frame Arr Expand Aggregate Scale Prog Likelihood Effect Trend TrendProg Engine Forecaster.
From Verif.Spec Require Import FrameSpec ProgSpec ForecasterSpec RelistSpec.
From Verif.Facts Require Import BaseFacts MeanFacts ModelProps EffectPredict ForecasterFacts ForecasterInv ForecasterProps.
Import ListNotations.
Local Open Scope string_scope.

(** * Loops *)
Lemma mapM_perm {A B} (f : A -> res B) l l' : Permutation l l' -> forall r, mapM f l = Ok r -> exists r', mapM f l' = Ok r' /\ Permutation r r'.
Proof.
  induction 1 as [|x l l' H IH|x y l|l l' l'' H1 IH1 H2 IH2]; intros r E.
  - exists r. split; [exact E|reflexivity].
  - cbn [mapM] in *. destruct (f x) as [b|]; [|discriminate]. cbn [bind] in *. destruct (mapM f l) as [bs|] eqn:M; [|discriminate]. cbn [bind] in E. injection E as <-.
    destruct (IH _ eq_refl) as (r' & -> & P). cbn [bind]. eauto.
  - cbn [mapM] in *. destruct (f y) as [b|]; [|discriminate]. cbn [bind] in *. destruct (f x) as [a|]; [|discriminate]. cbn [bind] in *. destruct (mapM f l) as [bs|]; [|discriminate]. cbn [bind] in *. injection E as <-. eexists. split; [reflexivity|constructor].
  - destruct (IH1 _ E) as (r1 & E1 & P1). destruct (IH2 _ E1) as (r2 & E2 & P2). exists r2. split; [exact E2|]. now rewrite P1.
Qed.
Lemma concat_perm {A} (l l' : list (list A)) : Permutation l l' -> Permutation (concat l) (concat l').
Proof.
  induction 1; cbn [concat]; auto; [now apply Permutation_app_head| |now rewrite IHPermutation1].
  rewrite !app_assoc. apply Permutation_app_tail, Permutation_app_comm.
Qed.
Lemma loop_entries {A V} (name : A -> string) (g : A -> res (option V)) l : forall acc, NoDup (map name l) -> (forall a, In a l -> ~ In (name a) (map fst acc)) ->
  foldM (fun out a => o <- g a ;; Ok (match o with None => out | Some d => dict_set out (name a) d end)) acc l =
  (os <- mapM (fun a => o <- g a ;; Ok (match o with None => [] | Some d => [(name a, d)] end)) l ;; Ok (acc ++ concat os)%list).
Proof.
  induction l as [|a l IH]; intros acc ND FR; cbn [foldM mapM].
  - cbn. now rewrite app_nil_r.
  - inversion ND as [|? ? N1 N2]; subst. destruct (g a) as [[d|]|]; cbn [bind]; [| |reflexivity].
    + rewrite dict_set_fresh by (apply FR; now left). rewrite IH; [|exact N2|].
      * destruct (mapM _ l); cbn [bind concat]; [|reflexivity]. now rewrite <- app_assoc.
      * intros b Hb I. rewrite map_app, in_app_iff in I. destruct I as [I|[I|[]]]; [apply (FR b); [now right|exact I]|]. cbn in I. apply N1. rewrite I. now apply in_map.
    + rewrite IH; [|exact N2|intros b Hb; apply FR; now right]. destruct (mapM _ l); reflexivity.
Qed.
Lemma entries_keys {A V} (name : A -> string) (g : A -> res (option V)) l : forall os, NoDup (map name l) -> mapM (fun a => o <- g a ;; Ok (match o with None => [] | Some d => [(name a, d)] end)) l = Ok os ->
  NoDup (map fst (concat os)) /\ forall n, In n (map fst (concat os)) -> In n (map name l).
Proof.
  induction l as [|a l IH]; intros os ND E; cbn [mapM] in E.
  - injection E as <-. cbn. split; [constructor|tauto].
  - inversion ND as [|? ? N1 N2]; subst. destruct (g a) as [o|]; [|discriminate]. cbn [bind] in E. destruct (mapM _ l) as [os'|] eqn:M in E; [|discriminate]. cbn [bind] in E. injection E as <-.
    destruct (IH _ N2 M) as [I1 I2]. destruct o as [d|]; cbn [concat app map fst].
    + split; [constructor; [|exact I1]; intros I; apply N1; now apply I2|]. intros n [<-|I]; [now left|right; auto].
    + split; [exact I1|]. intros n I. right. auto.
Qed.
Lemma perm_get {V} (d d' : dict V) : Permutation d d' -> NoDup (map fst d) -> forall n, dict_get d n = dict_get d' n.
Proof.
  intros P N n. assert (N' : NoDup (map fst d')) by (eapply Permutation_NoDup; [apply Permutation_map; exact P|exact N]).
  destruct (dict_get d n) as [v|] eqn:E.
  - symmetry. apply dict_get_iff; [exact N'|]. eapply Permutation_in; [exact P|]. now apply dict_get_iff.
  - destruct (dict_get d' n) as [v|] eqn:E'; [|reflexivity]. apply dict_get_iff in E'; [|exact N']. assert (I : In (n, v) d) by (eapply Permutation_in; [symmetry; exact P|exact E']). apply dict_get_iff in I; [congruence|exact N].
Qed.

(** * Effects *)
Definition transformed (X : frame R) (fh : list Z) (f : fitted_effect) : res (option edata) :=
  skip <- should_skip_predict (fe_effect f) ;; if (skip : bool) then Ok None else XC <- select_columns 0%R X (fe_cols f) ;; d <- transform (fe_effect f) (Some XC) fh ;; Ok (Some d).
Definition kept (f : fitted_effect) : res (option effect) := skip <- should_skip_predict (fe_effect f) ;; Ok (if (skip : bool) then None else Some (fe_effect f)).
Lemma foldM_ext {A S} (f g : S -> A -> res S) : (forall s a, f s a = g s a) -> forall l s, foldM f s l = foldM g s l.
Proof. intros E. induction l as [|a l IH]; intros s; [reflexivity|]. cbn [foldM]. rewrite E. destruct (g s a); cbn; auto. Qed.
Lemma transform_loop fitted X fh : transform_effects fitted X fh = foldM (fun out f => o <- transformed X fh f ;; Ok (match o with None => out | Some d => dict_set out (fe_name f) d end)) [] fitted.
Proof.
  unfold transform_effects. apply foldM_ext. intros out [[name e] cols]. unfold transformed, fe_name, fe_effect, fe_cols. cbn [fst snd].
  destruct (should_skip_predict e) as [[|]|]; cbn [bind]; [reflexivity| |reflexivity]. destruct (select_columns _ _ _); cbn [bind]; [|reflexivity]. destruct (transform _ _ _); reflexivity.
Qed.
Lemma kept_loop fitted : non_skipped fitted = foldM (fun out f => o <- kept f ;; Ok (match o with None => out | Some d => dict_set out (fe_name f) d end)) [] fitted.
Proof.
  unfold non_skipped. apply foldM_ext. intros out [[name e] cols]. unfold kept, fe_name, fe_effect. cbn [fst snd]. destruct (should_skip_predict e) as [[|]|]; reflexivity.
Qed.
Lemma loop_perm {V} (g : fitted_effect -> res (option V)) fitted fitted' d : Permutation fitted fitted' -> NoDup (map fe_name fitted) ->
  foldM (fun out f => o <- g f ;; Ok (match o with None => out | Some d => dict_set out (fe_name f) d end)) [] fitted = Ok d ->
  exists d', foldM (fun out f => o <- g f ;; Ok (match o with None => out | Some d => dict_set out (fe_name f) d end)) [] fitted' = Ok d' /\ Permutation d d' /\ NoDup (map fst d) /\ forall n, In n (map fst d) -> In n (map fe_name fitted).
Proof.
  intros P N H. rewrite loop_entries in H by (auto; intros a _ []). destruct (mapM _ fitted) as [os|] eqn:M in H; [|discriminate]. cbn [bind app] in H. injection H as <-.
  destruct (mapM_perm _ _ _ P _ M) as (os' & M' & PO). exists (concat os'). split.
  - rewrite loop_entries; [|eapply Permutation_NoDup; [apply Permutation_map; exact P|exact N]|intros a _ []]. rewrite M'. reflexivity.
  - split; [now apply concat_perm|]. exact (entries_keys _ _ _ _ N M).
Qed.
Lemma transform_perm fitted fitted' X fh d : Permutation fitted fitted' -> NoDup (map fe_name fitted) -> transform_effects fitted X fh = Ok d ->
  exists d', transform_effects fitted' X fh = Ok d' /\ forall n, dict_get d n = dict_get d' n.
Proof.
  intros P N H. rewrite transform_loop in H. destruct (loop_perm _ _ _ _ P N H) as (d' & E & PD & ND & _). exists d'. split; [now rewrite transform_loop|]. now apply perm_get.
Qed.
Lemma kept_perm fitted fitted' effs : Permutation fitted fitted' -> NoDup (map fe_name fitted) -> non_skipped fitted = Ok effs ->
  exists effs', non_skipped fitted' = Ok effs' /\ Permutation effs effs' /\ NoDup (map fst effs) /\ forall n, In n (map fst effs) -> In n (map fe_name fitted).
Proof. intros P N H. rewrite kept_loop in H. destruct (loop_perm _ _ _ _ P N H) as (d' & E & Q). exists d'. split; [now rewrite kept_loop|exact Q]. Qed.

Lemma existsb_perm {A} (p : A -> bool) l l' : Permutation l l' -> existsb p l = existsb p l'.
Proof. induction 1; cbn; try congruence. rewrite !orb_assoc. now rewrite (orb_comm (p y)). Qed.
Lemma uncovered_perm cols fitted fitted' : Permutation fitted fitted' -> uncovered cols fitted = uncovered cols fitted'.
Proof. intros P. unfold uncovered. do 2 f_equal. apply filter_ext. intros c. f_equal. now apply existsb_perm. Qed.
Lemma fit_effects_perm order default effects effects' X s fitted : Permutation effects effects' -> fit_effects order default effects X s = Ok fitted ->
  exists fitted', fit_effects order default effects' X s = Ok fitted' /\ Permutation fitted fitted'.
Proof.
  intros P H. unfold fit_effects in *. destruct (mapM (fit_one order X s) effects) as [main|] eqn:M; [|discriminate]. cbn [bind] in H.
  destruct (mapM_perm _ _ _ P _ M) as (main' & M' & PM). rewrite M'. cbn [bind]. destruct X as [X|]; [|injection H as <-; eauto].
  rewrite <- (uncovered_perm _ _ _ PM). destruct (uncovered (f_cols X) main) as [|c cs]; [injection H as <-; eauto|].
  destruct (select_columns _ _ _) as [XC|]; [|discriminate]. cbn [bind] in *. destruct (fit _ _ _ _) as [e' [ex|]]; [discriminate|]. injection H as <-. eexists. split; [reflexivity|]. now apply Permutation_app_tail.
Qed.
Lemma fitted_names order default effects X s fitted : fit_effects order default effects (Some X) s = Ok fitted -> NoDup (map l_name effects) -> ~ In default_name (map l_name effects) ->
  NoDup (map fe_name fitted) /\ forall n, In n (map fe_name fitted) -> In n (map l_name effects) \/ n = default_name.
Proof.
  intros H N D. apply fit_effects_inv in H as (main & dflt & -> & F & DF).
  assert (EN : map fe_name main = map l_name effects). { clear -F. induction F as [|l g ls gs (E & _) F IH]; cbn; congruence. }
  rewrite map_app, EN. destruct DF as [[-> _]|(g & -> & G & _)]; cbn [map].
  - rewrite app_nil_r. split; [exact N|auto].
  - split.
    + apply (Permutation_NoDup (Permutation_cons_append _ _)). rewrite G. now constructor.
    + intros n I. apply in_app_iff in I as [I|[<-|[]]]; auto.
Qed.

(** * Programs *)
Lemma apply_same {D} (data data' : dict D) : (forall n, dict_get data n = dict_get data' n) -> forall effs mp, apply_effects data mp effs = apply_effects data' mp effs.
Proof.
  intros E. assert (E1 : forall mp ne, apply_effect data mp ne = apply_effect data' mp ne).
  { intros [mean pr] [name eff]. unfold apply_effect, dict_item. now rewrite E. }
  induction effs as [|ne effs IH]; intros mp; [reflexivity|]. cbn [apply_effects]. rewrite E1. f_equal. extensionality mp'. apply IH.
Qed.
Lemma mean_same {D} (trend : prog arr) (data data' : dict D) effs : (forall n, dict_get data n = dict_get data' n) -> compute_mean trend (Some data) effs = compute_mean trend (Some data') effs.
Proof.
  intros E. unfold compute_mean. f_equal. extensionality t. f_equal. extensionality u. destruct effs as [[|ne effs]|]; try reflexivity. now rewrite (apply_same _ _ E).
Qed.
Lemma call_perm c c' s p p' t td y data data' : c_hier c' = c_hier c -> c_noise c' = c_noise c -> c_concentration c' = c_concentration c -> c_likelihood c' = c_likelihood c ->
  Permutation (p_effects p) (p_effects p') -> p_single p' = p_single p -> p_has_exogenous p' = p_has_exogenous p ->
  NoDup (map fst (p_effects p)) -> (forall n, In n (map fst (p_effects p)) -> no_slash n = true /\ n <> "trend") ->
  match data, data' with Some d, Some d' => forall n, dict_get d n = dict_get d' n | None, None => p_has_exogenous p = false /\ c_hier c = false | _, _ => False end ->
  same_runs (model_call c s p t td y data) (model_call c' s p' t td y data').
Proof.
  intros E1 E2 E3 E4 PE ES EH ND NS DD e o tr H.
  assert (PF : Permutation (effect_fns (p_effects p)) (effect_fns (p_effects p'))) by (now apply Permutation_map).
  assert (EF : map fst (effect_fns (p_effects p)) = map fst (p_effects p)) by (unfold effect_fns; now rewrite map_map).
  assert (TO : forall ne, In ne (effect_fns (p_effects p)) -> trend_only (snd ne)).
  { intros ne I. apply in_map_iff in I as ([n ef] & <- & _). apply predict_trend_only. }
  assert (ND' : NoDup (map fst (effect_fns (p_effects p)))) by (now rewrite EF).
  assert (NS' : forall n, In n (map fst (effect_fns (p_effects p))) -> no_slash n = true /\ n <> "trend") by (now rewrite EF).
  unfold model_call in *. rewrite E1, E2, E3, E4, ES, EH. destruct data as [d|], data' as [d'|]; try contradiction.
  - assert (SAME : forall tp effs, compute_mean tp (Some d') effs = compute_mean tp (Some d) effs) by (intros; apply mean_same; auto).
    unfold multivariate_model, univariate_model, univariate_gamma_model, univariate_negbinomial_model in *. rewrite !SAME.
    assert (NE : exists tr', Ok (o, tr) = Ok (o, tr') /\ Permutation tr tr') by eauto.
    destruct (c_hier c).
    + exact (c37_main e _ _ _ _ _ _ _ PF ND' NS' TO H).
    + destruct (p_has_exogenous p).
      * destruct (String.eqb (c_likelihood c) "normal"); [exact (c37_main e _ _ _ _ _ _ _ PF ND' NS' TO H)|].
        destruct (String.eqb (c_likelihood c) "gamma"); [exact (c37_main e _ _ _ _ _ _ _ PF ND' NS' TO H)|].
        destruct (String.eqb (c_likelihood c) "negbinomial"); [exact (c37_main e _ _ _ _ _ _ _ PF ND' NS' TO H)|discriminate].
      * rewrite H. exact NE.
  - destruct DD as [D1 D2]. rewrite D1, D2 in *. exists tr. split; [exact H|reflexivity].
Qed.

(** what two preparations have in common *)
Definition relisted (p p' : prepared) : Prop :=
  Permutation (p_fitted p) (p_fitted p') /\ Permutation (p_effects p) (p_effects p') /\ p_index p' = p_index p /\ p_has_exogenous p' = p_has_exogenous p /\ p_expander p' = p_expander p /\ p_single p' = p_single p /\
  NoDup (map fe_name (p_fitted p)) /\ NoDup (map fst (p_effects p)) /\ forall n, In n (map fst (p_effects p)) -> no_slash n = true /\ n <> "trend".

Section Any.
Variable ns_of : Z -> Z.
Variable order : list string -> list string.
Variable keep : path -> bool.
Context {TS : Type}.
Variable tr_fit_transform : TS -> frame R -> TS * res (frame R).
Variable tr_transform : TS -> frame R -> res (frame R).
Context {P : Type}.
Variable svi_run : Z -> nat -> nat -> prog arr -> res (list xr * P).
Variable nuts_run : Z -> nat -> nat -> nat -> prog arr -> res (nat -> nat -> env).
Variable latent_sites : prog arr -> list string.
Notation fit_data := (fit_data ns_of order keep tr_fit_transform).
Notation fit_forecaster := (fit_forecaster ns_of order keep tr_fit_transform svi_run nuts_run latent_sites).
Notation predict_model := (predict_model ns_of keep tr_transform).

(** effects, their data and the attributes derived from them *)
Lemma steps_perm default effects effects' X s fh fitted data effs : Permutation effects effects' -> NoDup (map l_name effects) ->
  (forall l, In l effects -> no_slash (l_name l) = true /\ l_name l <> "trend" /\ l_name l <> "exogenous_variables_effect") ->
  fit_effects order default effects (Some X) s = Ok fitted -> transform_effects fitted X fh = Ok data -> non_skipped fitted = Ok effs ->
  exists fitted' data' effs', fit_effects order default effects' (Some X) s = Ok fitted' /\ transform_effects fitted' X fh = Ok data' /\ non_skipped fitted' = Ok effs' /\ (forall n, dict_get data n = dict_get data' n) /\
    forall index has ex single, relisted (mkPrepared index fitted effs has ex single) (mkPrepared index fitted' effs' has ex single).
Proof.
  intros PE N C HF HT HN. destruct (fit_effects_perm _ _ _ _ _ _ _ PE HF) as (fitted' & HF' & PF).
  assert (D : ~ In default_name (map l_name effects)) by (intros I; apply in_map_iff in I as (l & E & I); now apply (C l)).
  destruct (fitted_names _ _ _ _ _ _ HF N D) as [NF NI].
  destruct (transform_perm _ _ _ _ _ PF NF HT) as (data' & HT' & DD). destruct (kept_perm _ _ _ PF NF HN) as (effs' & HN' & PN & NN & NNI).
  exists fitted', data', effs'. split; [exact HF'|]. split; [exact HT'|]. split; [exact HN'|]. split; [exact DD|]. intros index has ex single. unfold relisted. cbn [p_fitted p_effects p_index p_has_exogenous p_expander p_single].
  do 8 (split; [assumption || reflexivity|]). intros n I. apply NNI, NI in I as [I| ->]; [|split; [reflexivity|discriminate]]. apply in_map_iff in I as (l & <- & I). destruct (C l I) as (A & B & _). auto.
Qed.

Theorem c37_fit c effects ob s y X ob' p m : Permutation (effects_of c) effects -> NoDup (map l_name effects) ->
  (forall l, In l effects -> no_slash (l_name l) = true /\ l_name l <> "trend" /\ l_name l <> "exogenous_variables_effect") ->
  fit_data c ob s y X = (ob', Ok (p, m)) -> exists p' m', fit_data (with_effects c effects) ob s y X = (ob', Ok (p', m')) /\ same_runs m m' /\ relisted p p'.
Proof.
  intros PE N' C' H.
  assert (N : NoDup (map l_name (effects_of c))) by (eapply Permutation_NoDup; [apply Permutation_map, Permutation_sym; exact PE|exact N']).
  assert (C : forall l, In l (effects_of c) -> no_slash (l_name l) = true /\ l_name l <> "trend" /\ l_name l <> "exogenous_variables_effect") by (intros l I; apply C'; eapply Permutation_in; eauto).
  unfold Forecaster.fit_data in *. cbn [with_effects c_hier]. destruct (c_hier c) eqn:HH.
  - unfold hierarchical_fit_data in *. destruct (loc_bottom_series (aggregate keep y)) as [yb|]; [|discriminate]. destruct (series_to_tensor yb) as [tensor|]; [|discriminate].
    destruct (loc_bottom_series _) as [X0|] in H |- *; [|discriminate]. destruct (run_fit_transform _ ob X0) as [ob1 [X1|]]; [|discriminate]. cbn [with_effects c_shared].
    change (get_trend_model (with_effects c effects) ob1) with (get_trend_model c ob1). destruct (if negb (no_columns X1) then _ else _) as [[X2 ex]|] in H |- *; [|destruct (get_trend_model c ob1); discriminate].
    destruct (get_trend_model c ob1) as [t0|]; [|discriminate]. destruct (trend_fit _ _ t0 _ _ _) as [t [er|]]; [discriminate|]. injection H as <- H.
    destruct (trend_transform _ _ _ _) as [td|]; [|discriminate]. cbn [bind] in *. destruct (fit_effects _ _ _ _ _) as [fitted|] eqn:HF in H; [|discriminate]. cbn [bind] in H.
    destruct (transform_effects _ _ _) as [data|] eqn:HT in H; [|discriminate]. cbn [bind] in H. destruct (non_skipped fitted) as [effs|] eqn:HN; [|discriminate]. cbn [bind] in H. injection H as <- <-.
    destruct (steps_perm _ _ _ _ _ _ _ _ _ PE N C HF HT HN) as (fitted' & data' & effs' & HF' & HT' & HN' & DD & RL). change (effects_of (with_effects c effects)) with effects. cbn [with_effects c_default]. rewrite HF'. cbn [bind]. rewrite HT'. cbn [bind]. rewrite HN'. cbn [bind].
    eexists _, _. split; [reflexivity|]. split; [|apply RL].
    destruct (RL (index_of (aggregate keep y)) (negb (no_columns X1)) ex (Nat.eqb (n_series (f_levels (aggregate keep y)) (index_of (aggregate keep y))) 1)) as (R1 & R2 & R3 & R4 & R5 & R6 & R7 & R8 & R9).
    apply call_perm; auto.
  - unfold univariate_fit_data in *. change (get_trend_model (with_effects c effects) ob) with (get_trend_model c ob). change (discrete (with_effects c effects)) with (discrete c).
    destruct (get_trend_model c ob) as [t0|]; [|discriminate]. destruct (if discrete c then _ else _) as [yt|] in H |- *; [|discriminate].
    destruct (trend_fit _ _ t0 _ _ _) as [t [er|]]; [discriminate|]. destruct (run_fit_transform _ _ _) as [ob1 [X1|]]; [|discriminate]. cbn [bind] in *. injection H as <- H.
    destruct (loc_index X1 (index_of y)) as [Xe|]; [|discriminate]. cbn [bind] in *. destruct (trend_transform _ _ _ _) as [td|]; [|discriminate]. cbn [bind] in *.
    destruct (fit_effects _ _ _ _ _) as [fitted|] eqn:HF in H; [|discriminate]. cbn [bind] in H.
    destruct (transform_effects _ _ _) as [data|] eqn:HT in H; [|discriminate]. cbn [bind] in H. destruct (non_skipped fitted) as [effs|] eqn:HN; [|discriminate]. cbn [bind] in H. injection H as <- <-.
    destruct (steps_perm _ _ _ _ _ _ _ _ _ PE N C HF HT HN) as (fitted' & data' & effs' & HF' & HT' & HN' & DD & RL). change (effects_of (with_effects c effects)) with effects. cbn [with_effects c_default]. rewrite HF'. cbn [bind]. rewrite HT'. cbn [bind]. rewrite HN'. cbn [bind].
    eexists _, _. split; [reflexivity|]. split; [|apply RL].
    destruct (RL (index_of y) (truthy (invert (no_columns X1))) None false) as (R1 & R2 & R3 & R4 & R5 & R6 & R7 & R8 & R9).
    apply call_perm; auto.
Qed.

Lemma predict_perm c effects ob (f f' : fitted (P := P)) y X fh m : ft_scale f' = ft_scale f -> relisted (ft_prepared f) (ft_prepared f') ->
  predict_model c ob f y X fh = Ok m -> exists m', predict_model (with_effects c effects) ob f' y X fh = Ok m' /\ same_runs m m'.
Proof.
  intros ES RL H. pose proof RL as (R1 & R2 & R3 & R4 & R5 & R6 & R7 & R8 & R9). unfold ForecasterSpec.predict_model in *. cbn [with_effects c_hier]. destruct (c_hier c) eqn:HH.
  - unfold hierarchical_predict_model in *. rewrite R3, R4, R5, ES. destruct (max_time _) as [cut|]; [|discriminate]. cbn [bind] in *. destruct (loc_bottom_series _) as [Xb|] in H |- *; [|discriminate]. cbn [bind] in *.
    destruct (if p_has_exogenous (ft_prepared f) then _ else _) as [[X2 ex]|] in H |- *; [|discriminate]. cbn [bind] in *.
    destruct (trend_transform _ _ _ _) as [td|]; [|discriminate]. cbn [bind] in *. destruct (transform_effects _ _ _) as [data|] eqn:HT in H; [|discriminate]. cbn [bind] in H. injection H as <-.
    destruct (transform_perm _ _ _ _ _ R1 R7 HT) as (data' & HT' & DD). rewrite HT'. cbn [bind fst]. eexists. split; [reflexivity|]. apply call_perm; auto.
  - unfold univariate_predict_model in *. rewrite R4, ES. destruct (max_time _) as [cut|]; [|discriminate]. cbn [bind] in *. destruct (run_transform _ _ _) as [X1|]; [|discriminate]. cbn [bind] in *.
    destruct (trend_transform _ _ _ _) as [td|]; [|discriminate]. cbn [bind] in *. destruct (p_has_exogenous (ft_prepared f)) eqn:HE.
    + destruct (transform_effects _ _ _) as [data|] eqn:HT in H; [|discriminate]. cbn [bind] in H. injection H as <-.
      destruct (transform_perm _ _ _ _ _ R1 R7 HT) as (data' & HT' & DD). rewrite HT'. cbn [bind]. eexists. split; [reflexivity|]. apply call_perm; auto; congruence.
    + cbn [bind] in *. injection H as <-. eexists. split; [reflexivity|]. apply call_perm; auto; congruence.
Qed.
Theorem c37_predict c effects ob y X ob1 ob2 (f f' : fitted (P := P)) : Permutation (effects_of c) effects -> NoDup (map l_name effects) ->
  (forall l, In l effects -> no_slash (l_name l) = true /\ l_name l <> "trend" /\ l_name l <> "exogenous_variables_effect") ->
  fit_forecaster c ob y X = (ob1, Ok f) -> fit_forecaster (with_effects c effects) ob y X = (ob2, Ok f') ->
  ob2 = ob1 /\ ft_scale f' = ft_scale f /\
  forall ob3 y3 X3 fh m, predict_model c ob3 f y3 X3 fh = Ok m -> exists m', predict_model (with_effects c effects) ob3 f' y3 X3 fh = Ok m' /\ same_runs m m'.
Proof.
  intros PE N C H H'. apply fit_forecaster_inv in H as (s & ys & p & m0 & post & S1 & S2 & H & _ & ->). apply fit_forecaster_inv in H' as (s' & ys' & p' & m0' & post' & S1' & S2' & H' & _ & ->).
  change (c_scale (with_effects c effects)) with (c_scale c) in S1'. rewrite S1 in S1'. injection S1' as <-. change (discrete (with_effects c effects)) with (discrete c) in S2'. rewrite S2 in S2'. injection S2' as <-.
  destruct (c37_fit _ _ _ _ _ _ _ _ _ PE N C H) as (p2 & m2 & E & _ & RL). rewrite H' in E. injection E as -> -> ->. split; [reflexivity|]. split; [reflexivity|]. intros ob3 y3 X3 fh m HM. exact (predict_perm c effects ob3 (mkFitted s p post) (mkFitted s p2 post') _ _ _ _ eq_refl RL HM).
Qed.

Lemma same_effects c effects : with_effects (with_effects c effects) (effects_of c) = with_effects c (effects_of c).
Proof. reflexivity. Qed.
Lemma fit_data_listed c ob s y X : fit_data (with_effects c (effects_of c)) ob s y X = fit_data c ob s y X.
Proof.
  unfold Forecaster.fit_data. cbn [with_effects c_hier]. destruct (c_hier c).
  - unfold hierarchical_fit_data. reflexivity.
  - unfold univariate_fit_data. reflexivity.
Qed.
Lemma predict_listed c ob (f : fitted (P := P)) y X fh : predict_model (with_effects c (effects_of c)) ob f y X fh = predict_model c ob f y X fh.
Proof. destruct c. reflexivity. Qed.
Lemma fit_listed_same c ob y X : fit_forecaster (with_effects c (effects_of c)) ob y X = fit_forecaster c ob y X.
Proof.
  unfold Forecaster.fit_forecaster. change (c_scale (with_effects c _)) with (c_scale c). change (discrete (with_effects c _)) with (discrete c).
  change (engine_of (with_effects c _)) with (engine_of c). destruct (_ <- set_y_scales (c_scale c) y ;; _) as [[s ys]|]; [|reflexivity]. now rewrite fit_data_listed.
Qed.

Definition good_names (effects : list listed) : Prop := NoDup (map l_name effects) /\
  (forall l, In l effects -> no_slash (l_name l) = true /\ l_name l <> "trend" /\ l_name l <> "exogenous_variables_effect").
Lemma good_perm l l' : Permutation l l' -> good_names l -> good_names l'.
Proof.
  intros PE [N C]. split; [eapply Permutation_NoDup; [apply Permutation_map; exact PE|exact N]|].
  intros x I. apply C. eapply Permutation_in; [apply Permutation_sym; exact PE|exact I].
Qed.
Theorem c37_fit_both c effects ob s y X ob' p m : Permutation (effects_of c) effects -> NoDup (map l_name effects) ->
  (forall l, In l effects -> no_slash (l_name l) = true /\ l_name l <> "trend" /\ l_name l <> "exogenous_variables_effect") ->
  fit_data c ob s y X = (ob', Ok (p, m)) -> exists p' m', fit_data (with_effects c effects) ob s y X = (ob', Ok (p', m')) /\ same_runs m m' /\ same_runs m' m.
Proof.
  intros PE N C H. destruct (good_perm _ _ (Permutation_sym PE) (conj N C)) as [N' C']. destruct (c37_fit _ _ _ _ _ _ _ _ _ PE N C H) as (p' & m' & H' & S & _). exists p', m'. split; [exact H'|]. split; [exact S|].
  destruct (c37_fit (with_effects c effects) (effects_of c) _ _ _ _ _ _ _ (Permutation_sym PE) N' C' H') as (p2 & m2 & H2 & S2 & _).
  rewrite same_effects, fit_data_listed, H in H2. injection H2 as <- <-. exact S2.
Qed.
Theorem c37_predict_both c effects ob y X ob1 ob2 (f f' : fitted (P := P)) : Permutation (effects_of c) effects -> NoDup (map l_name effects) ->
  (forall l, In l effects -> no_slash (l_name l) = true /\ l_name l <> "trend" /\ l_name l <> "exogenous_variables_effect") ->
  fit_forecaster c ob y X = (ob1, Ok f) -> fit_forecaster (with_effects c effects) ob y X = (ob2, Ok f') ->
  ob2 = ob1 /\ ft_scale f' = ft_scale f /\
  forall ob3 y3 X3 fh m, predict_model c ob3 f y3 X3 fh = Ok m -> exists m', predict_model (with_effects c effects) ob3 f' y3 X3 fh = Ok m' /\ same_runs m m' /\ same_runs m' m.
Proof.
  intros PE N C H H'. destruct (good_perm _ _ (Permutation_sym PE) (conj N C)) as [N' C']. destruct (c37_predict _ _ _ _ _ _ _ _ _ PE N C H H') as (E1 & E2 & S). split; [exact E1|]. split; [exact E2|].
  intros ob3 y3 X3 fh m HM. destruct (S _ _ _ _ _ HM) as (m' & HM' & R1). exists m'. split; [exact HM'|]. split; [exact R1|].
  rewrite <- fit_listed_same in H. destruct (c37_predict (with_effects c effects) (effects_of c) _ _ _ _ _ _ _ (Permutation_sym PE) N' C' H' H) as (_ & _ & S').
  destruct (S' _ _ _ _ _ HM') as (m2 & HM2 & R2). rewrite same_effects, predict_listed, HM in HM2. injection HM2 as <-. exact R2.
Qed.
End Any.
