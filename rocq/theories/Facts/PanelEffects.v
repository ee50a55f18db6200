(** Effects on panels: fitting, transformation and evaluation. *)
From Coq Require Import Reals Lra String Ascii Bool ZArith List Sorted Permutation Lia.
From Verif.Model Require Import Base Num XFloat Regex Frame Arr Expand Aggregate Scale Prog Likelihood Effect Trend TrendProg Engine Predict Forecaster.
From Verif.Spec Require Import FrameSpec ScaleSpec TrendSpec ProgSpec EffectSpec ForecasterSpec AlignSpec SiteSpec ShapeSpec TotalSpec PanelSpec.
From Verif.Facts Require Import BaseFacts NumFacts OrderFacts FrameFacts FrameProps ArrFacts ProgFacts MeanFacts LikelihoodFacts ExpandFacts EffectFacts EffectFourier EffectPredict
  AlignFacts PredictFacts ForecasterFacts ForecasterInv ForecasterProps ForecasterTransformer CompleteFacts ShapeFacts SiteFacts AlignForecaster TotalFacts PanelGrid.
Import ListNotations.
Local Open Scope string_scope.

(** * Evaluation for trends of any shape with two or more axes *)
Definition evaluates_at (env : env) (sh : list nat) (e : effect) (d : edata) : Prop :=
  forall pe t, dict_get pe "trend" = Some t -> a_shape t = sh -> arr_wf t -> exists v, yields env (predict e d pe) v /\ a_shape v = sh.

Lemma mode_total_at env m raw pe t sh x : dict_get pe "trend" = Some t -> a_shape t = sh -> List.length sh <> 1 -> yields env raw x -> List.length (a_flat x) = prod_shape sh ->
  exists v, yields env (predict_mode m raw pe) v /\ a_shape v = sh.
Proof.
  intros G St N Y Lx. assert (TC : trend_column t = t) by (unfold trend_column; rewrite St; destruct (Nat.eqb_spec (List.length sh) 1); [contradiction|reflexivity]).
  eexists. split.
  - apply mode_yields. exists t, x. split; [exact G|]. split; [exact Y|]. rewrite TC, St. split; [exact Lx|reflexivity].
  - destruct m; reflexivity.
Qed.

Lemma linear_raw_total_at env prior a rest k : a_shape a = (rest ++ [k])%list -> arr_wf a -> k <> 0 ->
  exists x, yields env (linear_raw prior (EArr a)) x /\ List.length (a_flat x) = prod_shape rest.
Proof.
  intros Sa Wa K. set (n := prod_shape rest).
  set (x := mkArr (rest ++ [1]) (map (fun i => Rsum (map (fun j => (entry a (i * k + j) * env "coefs" j)%R) (seq 0 k))) (seq 0 n))).
  assert (LX : List.length (a_flat x) = n) by (unfold x; cbn [a_flat]; now rewrite map_length, seq_length).
  exists x. split; [|exact LX]. apply (linear_raw_yields env prior a k rest x Sa Wa). split; [exact K|]. split; [reflexivity|].
  fold n. split; [exact LX|]. intros i Hi. unfold entry at 1. unfold x. cbn [a_flat].
  rewrite nth_indep with (d' := (fun i => Rsum (map (fun j => (entry a (i * k + j) * env "coefs" j)%R) (seq 0 k))) 0) by (rewrite map_length, seq_length; exact Hi).
  rewrite (map_nth (fun i => Rsum (map (fun j => (entry a (i * k + j) * env "coefs" j)%R) (seq 0 k)))). rewrite seq_nth by exact Hi. reflexivity.
Qed.

Lemma mode_linear_at env m prior a N T k pe t : a_shape a = [N; T; k] -> arr_wf a -> k <> 0 -> dict_get pe "trend" = Some t -> a_shape t = [N; T; 1] ->
  exists v, yields env (predict_mode m (linear_raw prior (EArr a)) pe) v /\ a_shape v = [N; T; 1].
Proof.
  intros Sa Wa K G St. destruct (linear_raw_total_at env prior a [N; T] k Sa Wa K) as (x & Y & L). apply (mode_total_at env m _ pe t [N; T; 1] x G St); [discriminate|exact Y|].
  rewrite L. unfold prod_shape. simpl. lia.
Qed.

Section Ids.
Variable order : list string -> list string.
Hypothesis Order : forall l, Permutation (order l) l.
Variable ids : list path.
Hypothesis Ni : NoDup ids.
Hypothesis Two : 2 <= List.length ids.

Lemma ids_nonempty : ids <> [].
Proof. intros E. rewrite E in Two. simpl in Two. lia. Qed.

(** a fitted effect that will be evaluated *)
Definition ready_panel (cols : list string) (e : effect) : Prop :=
  get_base e = mkBase (Some cols) (Some true) /\
  match e with
  | Linear _ _ _ => cols <> []
  | Fourier _ _ _ _ _ ff x l => exists f ex mm fc, ff = Some f /\ x = Some ex /\ l = Some (mm, mkBase (Some fc) (Some true)) /\
      (forall p, In p ids -> exists z, find_min (ff_min f) p = Ok z) /\ fc <> [] /\ ex_skip ex = false /\
      (forall c, In c (ex_matched ex) -> In c (fourier_cols (ff_pairs f))) /\
      (forall c, In c fc -> (In c (fourier_cols (ff_pairs f)) \/ exists m p, In m (ex_matched ex) /\ In p ids /\ c = get_col_name m p) /\ ~ In c (ex_matched ex))
  | _ => False
  end.

Lemma expand_fit_any times (X : frame R) : grid ids times X -> exists ex, expand_fit order [".*"] X = Ok ex /\ ex_skip ex = false /\ forall c, In c (ex_matched ex) -> In c (f_cols X).
Proof.
  intros G. unfold expand_fit. cbn [mapM]. destruct (compile ".*") as [r|] eqn:E; [|discriminate]. cbn [bind]. destruct (f_levels X) eqn:L; [destruct G as (_ & L0 & _); congruence|].
  eexists. split; [reflexivity|]. split; [reflexivity|]. cbn [ex_matched]. intros c Hc. apply (Permutation_in _ (Order _)) in Hc. apply filter_In in Hc as [Hc _]. exact (proj1 (strs_unique_In _ _) Hc).
Qed.

Lemma fit_panel times X e s : grid ids times X -> times <> [] -> panel_effect e ->
  exists e', fit order (clone e) (Some X) s = (e', None) /\ (should_skip_predict e' = Ok true \/ ready_panel (f_cols X) e').
Proof.
  intros G Et A. pose proof (grid_nonempty ids times X G ids_nonempty Et) as N. destruct e as [m p b|m p q b|m p q r b|inner tab ps b sc|sp terms ps m b ff x l]; try contradiction.
  - cbn [clone fit]. unfold base_fit. cbn [supports_multivariate negb andb]. rewrite columns_seen_all by exact N. eexists. split; [reflexivity|].
    destruct (f_cols X) as [|c cs] eqn:E; [left; reflexivity|right]. split; [reflexivity|discriminate].
  - destruct (fourier_fit_grid sp terms m ids times X G ids_nonempty Et A) as (f & F & PN & Z0). destruct (fourier_transform_grid f ids times X G Z0) as (XF & T & GF & CF).
    destruct (expand_fit_any times XF GF) as (ex & EX & SX & MX). destruct (expand_total ids times XF ex GF ids_nonempty Et MX) as (XE & ex' & EE & GE & CE). specialize (CE SX).
    assert (EX' : ex_matched ex' = ex_matched ex /\ ex_skip ex' = false).
    { unfold expand_transform in EE. rewrite SX in EE. destruct (f_levels XF); [discriminate|]. destruct (copy_columns _ _ _ _ _ _); [|discriminate]. cbn [bind] in EE. injection EE as <- <-. auto. }
    cbn [clone fit mk_fourier]. unfold base_fit. cbn [supports_multivariate negb andb set_cols set_base get_base inner_fit]. rewrite F, T.
    assert (LF : negb (Nat.eqb (f_levels XF) 0) && Nat.ltb 1 (List.length (series_ids XF)) = true).
    { rewrite (grid_n ids times XF GF Ni Et). apply andb_true_iff. split; [apply negb_true_iff, Nat.eqb_neq; apply GF|apply Nat.ltb_lt; lia]. }
    rewrite LF, EX. cbn [bind]. rewrite EE. cbn [bind].
    pose proof (grid_nonempty ids times XE GE ids_nonempty Et) as NE.
    assert (FN : f_cols XE <> []).
    { pose proof (fourier_cols_nonempty _ PN) as FN. destruct (nonempty_In _ FN) as (c & Hc). destruct (nonempty_In _ ids_nonempty) as (p & Hp).
      destruct (in_dec string_dec c (ex_matched ex)) as [I|I].
      - intros Q. assert (J : In (get_col_name c p) (f_cols XE)); [|rewrite Q in J; contradiction]. apply CE. split; [right; eauto|].
        intros K. apply MX in K. rewrite CF in K. now apply (fourier_not_expanded _ _ c p K).
      - intros Q. assert (J : In c (f_cols XE)); [|rewrite Q in J; contradiction]. apply CE. rewrite CF. auto. }
    destruct A as (_ & _ & _ & [-> | ->]); cbn [check_mode String.eqb Ascii.eqb Bool.eqb].
    all: rewrite columns_seen_all by exact N; eexists; (split; [reflexivity|]); right; (split; [reflexivity|]); cbn [set_fitted set_base];
      eexists f, ex', _, (f_cols XE); rewrite columns_seen_all by exact NE; do 3 (split; [reflexivity|]); (split; [exact Z0|]); (split; [exact FN|]); rewrite (proj1 EX'), <- CF; (split; [apply EX'|]); (split; [exact MX|]);
      intros c Hc; now apply CE.
Qed.

Lemma ready_panel_skip cols e : ready_panel cols e -> should_skip_predict e = Ok false /\ b_fitted (get_base e) = Some true /\ input_feature_column_names e = Ok cols.
Proof.
  intros [B H]. unfold should_skip_predict, should_skip_base. rewrite B. cbn [b_cols attr bind b_fitted]. split; [|split; [reflexivity|]].
  - destruct e; try contradiction; destruct cols; try reflexivity; congruence.
  - destruct e; try contradiction; cbn [input_feature_column_names]; now rewrite B.
Qed.

Lemma inner_panel e cols fh X : ready_panel cols e -> grid ids fh X -> NoDup fh -> fh <> [] -> f_cols X = cols ->
  exists d, inner_transform e X fh = Ok d /\ forall env, evaluates_at env [List.length ids; List.length fh; 1] e d.
Proof.
  intros [B R0] G Nf Ef C. destruct e as [m p b|m p q b|m p q r b|inner tab ps b sc|sp terms ps m b ff x l]; try contradiction.
  - destruct (grid_array ids fh X G Ni Nf ids_nonempty Ef) as (a & E & Sa & Wa). cbn [inner_transform]. rewrite E. cbn [bind]. eexists. split; [reflexivity|].
    intros env pe t Gt St _. cbn [predict]. rewrite C in Sa. apply (mode_linear_at env m p a _ _ (List.length cols) pe t Sa Wa); [|exact Gt|exact St]. destruct cols; [congruence|discriminate].
  - destruct R0 as (f & ex & mm & fc & -> & -> & -> & Z0 & FN & SX & MX & HF). destruct (fourier_transform_grid f ids fh X G Z0) as (XF & T & GF & CF).
    destruct (expand_total ids fh XF ex GF ids_nonempty Ef) as (XE & ex' & EE & GE & CE); [intros c Hc; rewrite CF; auto|]. specialize (CE SX).
    cbn [inner_transform attr bind]. rewrite T. cbn [bind]. rewrite EE. cbn [bind]. unfold linear_transform. cbn [b_fitted attr bind negb]. unfold should_skip_base. cbn [b_cols attr bind].
    destruct fc as [|c0 cs] eqn:FC; [congruence|]. rewrite <- FC in *. cbn [bind].
    destruct (grid_select_total ids fh (filter_fh fh XE) fc) as (XS & ES & GS & CS).
    { apply (grid_filter ids fh); auto. }
    { intros c Hc. cbn [filter_fh filter_rows f_cols]. apply CE. destruct (HF c Hc) as [H1 H2]. rewrite CF. auto. }
    rewrite ES. cbn [bind]. destruct (grid_array ids fh XS GS Ni Nf ids_nonempty Ef) as (a & E & Sa & Wa). rewrite E. cbn [bind]. eexists. split; [reflexivity|].
    intros env pe t Gt St _. cbn [predict]. rewrite CS in Sa. apply (mode_linear_at env mm _ a _ _ (List.length fc) pe t Sa Wa); [|exact Gt|exact St]. rewrite FC. discriminate.
Qed.

Lemma transform_panel e cols times X fh : ready_panel cols e -> grid ids times X -> (forall t, In t fh -> In t times) -> NoDup fh -> fh <> [] -> (forall c, In c cols -> In c (f_cols X)) ->
  exists XC d, select_columns 0%R X cols = Ok XC /\ transform e (Some XC) fh = Ok d /\ forall env, evaluates_at env [List.length ids; List.length fh; 1] e d.
Proof.
  intros R0 G If Nf Ef I. destruct (grid_select_total ids times X cols G I) as (XC & E & GC & CC). exists XC.
  destruct (ready_panel_skip _ _ R0) as (K1 & K2 & K3). pose proof (grid_filter ids times fh XC GC If) as GF.
  destruct (grid_select_total ids fh (filter_fh fh XC) cols GF) as (XS & ES & GS & CS); [intros c Hc; cbn [filter_fh filter_rows f_cols]; now rewrite CC|].
  destruct (inner_panel e cols fh XS R0 GS Nf Ef CS) as (d & ED & EV). exists d. split; [exact E|]. split; [|exact EV].
  unfold transform. rewrite K2, K1. cbn [attr bind negb]. rewrite K3. cbn [bind]. rewrite ES. cbn [bind]. exact ED.
Qed.

(** * All effects *)
Definition panel_entry (cols : list string) (f : fitted_effect) : Prop :=
  (forall c, In c (fe_cols f) -> In c cols) /\ (should_skip_predict (fe_effect f) = Ok true \/ ready_panel (fe_cols f) (fe_effect f)).

Lemma fit_effects_panel default effects times X s : grid ids times X -> times <> [] ->
  (forall l, In l effects -> (exists cols, match_columns (f_cols X) (l_regex l) = Ok cols) /\ panel_effect (l_effect l)) ->
  panel_effect (default_of default) ->
  exists fitted, fit_effects order default effects (Some X) s = Ok fitted /\ Forall (panel_entry (f_cols X)) fitted /\
    (forall f, In f fitted -> fe_name f = default_name \/ exists l, In l effects /\ fe_name f = l_name l).
Proof.
  intros G Et HE HD. unfold fit_effects.
  destruct (mapM_total (fit_one order (Some X) s) (fun l f => panel_entry (f_cols X) f /\ fe_name f = l_name l) effects) as (main & M & F).
  { intros l Hl. destruct (HE l Hl) as ((cols & Mc) & U).
    assert (I : forall c, In c cols -> In c (f_cols X)) by (intros c Hc; apply (ForecasterFacts.match_columns_In _ _ _ Mc c) in Hc; tauto).
    destruct (grid_select_total ids times X cols G I) as (XC & E1 & GC & CC). destruct (fit_panel times XC (l_effect l) s GC Et U) as (e' & E2 & E4). rewrite CC in E4.
    destruct l as [[n e] re]. unfold fit_one. cbn [l_effect l_regex fst snd] in *. rewrite Mc. cbn [bind]. rewrite E1. cbn [bind]. rewrite E2.
    eexists. split; [reflexivity|]. split; [split; [exact I|exact E4]|reflexivity]. }
  rewrite M. cbn [bind]. pose proof (mapM_fit order X s effects main M) as FF. pose proof (fun c => uncovered_In order X s effects main c FF) as U. clear FF.
  assert (FM : Forall (panel_entry (f_cols X)) main /\ forall f, In f main -> exists l, In l effects /\ fe_name f = l_name l).
  { apply Forall2_In_both in F as [_ F]. split; [apply Forall_forall|]; intros f Hf; destruct (F f Hf) as (l & Hl & Q & Q2); [exact Q|eauto]. }
  destruct FM as [FM FN]. destruct (uncovered (f_cols X) main) as [|c0 cs] eqn:E; [exists main; auto|]. fold (default_of default).
  assert (I : forall c, In c (c0 :: cs) -> In c (f_cols X)) by (intros c Hc; apply U in Hc; apply Hc).
  destruct (grid_select_total ids times X (c0 :: cs) G I) as (XC & E1 & GC & CC). destruct (fit_panel times XC (default_of default) s GC Et HD) as (e' & E2 & E4). rewrite CC in E4.
  rewrite E1. cbn [bind]. rewrite E2. eexists. split; [reflexivity|]. split.
  - apply Forall_app. split; [exact FM|]. constructor; [|constructor]. split; [exact I|exact E4].
  - intros f Hf. apply in_app_or in Hf as [Hf|[<-|[]]]; [right; auto|left; reflexivity].
Qed.

Definition paired_panel (n : nat) (ne : string * effect) (nd : string * edata) : Prop :=
  fst ne = fst nd /\ forall env, evaluates_at env [List.length ids; n; 1] (snd ne) (snd nd).

Lemma effects_panel_from times X fh : grid ids times X -> (forall t, In t fh -> In t times) -> NoDup fh -> fh <> [] -> forall fitted, Forall (panel_entry (f_cols X)) fitted ->
  forall effs0 data0, Forall2 (paired_panel (List.length fh)) effs0 data0 -> NoDup (map fst effs0) ->
  exists effs data,
    foldM (fun out f => let '(name, e, cols) := f in skip <- should_skip_predict e ;;
           if (skip : bool) then Ok out else XC <- select_columns 0%R X cols ;; d <- transform e (Some XC) fh ;; Ok (dict_set out name d)) data0 fitted = Ok data /\
    foldM (fun out f => let '(name, e, _) := f in skip <- should_skip_predict e ;; Ok (if (skip : bool) then out else dict_set out name e)) effs0 fitted = Ok effs /\
    Forall2 (paired_panel (List.length fh)) effs data /\ NoDup (map fst effs).
Proof.
  intros G If Nf Ef. induction fitted as [|[[n e] cols] fitted IH]; intros F effs0 data0 P ND; cbn [foldM].
  - exists effs0, data0. auto.
  - inversion F as [|? ? [Fi Fr] F']; subst. cbn [fe_cols fe_effect fst snd] in *. destruct Fr as [K|K].
    + rewrite K. cbn [bind]. apply IH; auto.
    + destruct (ready_panel_skip _ _ K) as (K1 & _ & _). rewrite K1. cbn [bind].
      destruct (transform_panel e cols times X fh K G If Nf Ef Fi) as (XC & d & E1 & E2 & EV). rewrite E1. cbn [bind]. rewrite E2. cbn [bind].
      apply IH; auto; [|now apply dict_set_nodup]. apply Forall2_dict_set; [exact P|intros a b [Q _]; exact Q|]. split; [reflexivity|exact EV].
Qed.

Lemma effects_panel times X fh fitted : grid ids times X -> (forall t, In t fh -> In t times) -> NoDup fh -> fh <> [] -> Forall (panel_entry (f_cols X)) fitted ->
  exists effs data, transform_effects fitted X fh = Ok data /\ non_skipped fitted = Ok effs /\ Forall2 (paired_panel (List.length fh)) effs data /\ NoDup (map fst effs).
Proof.
  intros G If Nf Ef F. destruct (effects_panel_from times X fh G If Nf Ef fitted F [] []) as (effs & data & H1 & H2 & H3 & H4); [constructor|constructor|]. exists effs, data. auto.
Qed.
End Ids.

(** * The location and the model *)
Lemma chain_total_at env data sh t : a_shape t = sh -> arr_wf t -> forall effs pe,
  dict_get pe "trend" = Some t -> ~ In "trend" (map fst effs) ->
  (forall name e, In (name, e) effs -> exists d, dict_get data name = Some d /\ evaluates_at (own_env env name) sh e d) ->
  exists vs gs, chain env data pe (effect_fns effs) vs gs /\ Forall (fun v => a_shape v = sh) vs.
Proof.
  intros St Wt. induction effs as [|[name e] effs IH]; intros pe G NT H; [exists [], []; split; constructor|].
  destruct (H name e) as (d & Gd & EV); [simpl; auto|]. destruct (EV pe t G St Wt) as (v & Y & Sv). apply eval_yields in Y as (l & Y).
  destruct (IH (dict_set pe name v)) as (vs & gs & C & F).
  - rewrite dict_get_set. destruct (String.eqb_spec "trend" name); [exfalso; apply NT; simpl; auto|exact G].
  - intros I. apply NT. simpl. auto.
  - intros; apply H; simpl; auto.
  - exists (v :: vs), ((map (prefixed name) l ++ [(name, SDet v)])%list :: gs). split; [|constructor; assumption].
    exact (ch_cons env data pe name (predict e) _ d v l vs gs Gd Y C).
Qed.

Lemma mean_total_at env (trend : prog arr) effs data sh : (exists t, yields env trend t /\ a_shape t = sh /\ arr_wf t) ->
  ~ In "trend" (map fst effs) ->
  (forall name e, In (name, e) effs -> exists d, dict_get data name = Some d /\ evaluates_at (own_env env name) sh e d) ->
  exists m, yields env (compute_mean trend (Some data) (Some (effect_fns effs))) m /\ a_shape m = sh.
Proof.
  intros (t & Y & St & Wt) NT H. destruct (chain_total_at env data sh t St Wt effs [("trend", t)] eq_refl NT H) as (vs & gs & C & F).
  destruct (sum_total sh vs t St F) as (m & Fm & Sm). exists m. split; [|exact Sm]. apply eval_yields in Y as (lt & Y). apply eval_yields. eexists.
  apply eval_compute_mean. exists t, lt, vs, gs. auto.
Qed.

Lemma model_panel c s p t td y data env N T : c_hier c = true -> p_single p = false ->
  (exists v, yields env (trend_predict t td) v /\ a_shape v = [N; T; 1] /\ arr_wf v) ->
  ~ In "trend" (map fst (p_effects p)) ->
  (forall name e, In (name, e) (p_effects p) -> exists d, dict_get data name = Some d /\ evaluates_at (own_env env name) [N; T; 1] e d) ->
  match y with None => True | Some y => a_shape y = [N; T; 1] end ->
  exists o, yields env (model_call c s p t td y (Some data)) o.
Proof.
  intros Hc Hs HT NT HE Hy. destruct (mean_total_at env _ _ data [N; T; 1] HT NT HE) as (m & Y & Sm).
  unfold model_call. rewrite Hc, Hs. unfold multivariate_model.
  assert (Sq : forall a : arr, a_shape a = [N; T; 1] -> exists s, squeeze_last a = Ok s /\ a_shape s = [N; T]) by (intros a Sa; unfold squeeze_last; rewrite Sa; cbn; eauto).
  assert (Sq' := Sq m Sm). destruct Sq' as (loc & El & Sl).
  assert (Y2 : exists y', yields env (match y with None => Ret None | Some y => s <~ lift_res (squeeze_last y) ;; Ret (Some (transpose s)) end) y').
  { destruct y as [y|]; [|exists None; constructor]. destruct (Sq y Hy) as (s0 & E0 & _). eexists. apply yields_bind. exists s0. split; [apply yields_lift; exact E0|constructor]. }
  destruct Y2 as (y' & Y2). exists (site_value env "obs" (1 :: a_shape (transpose loc)) y'). apply yields_bind. exists m. split; [exact Y|].
  apply yields_bind. exists y'. split; [exact Y2|].
  apply yields_bind. exists N. split; [apply yields_lift; unfold shape_at; rewrite Sm; reflexivity|].
  apply yields_bind. eexists. split; [apply yields_sample; reflexivity|].
  apply yields_bind. eexists. split; [apply yields_sample; reflexivity|].
  set (std := site_value env "std_observation" [N] None). set (corr := site_value env "corr_matrix" [N; N] None).
  assert (Sd : a_shape (diag std) = [N; N]) by (unfold diag, std, site_value; cbn [a_flat a_shape]; rewrite map_length, seq_length; unfold prod_shape; simpl; now rewrite Nat.mul_1_r).
  assert (Mm : forall a b, a_shape a = [N; N] -> a_shape b = [N; N] -> exists c, matmul a b = Ok c /\ a_shape c = [N; N]) by (intros a b Sa Sb; unfold matmul; rewrite Sa, Sb, Nat.eqb_refl; eauto).
  destruct (Mm (diag std) corr Sd eq_refl) as (half & Eh & Sh). destruct (Mm half (diag std) Sh Sd) as (cov & Ec & _).
  apply yields_bind. exists half. split; [apply yields_lift; exact Eh|]. apply yields_bind. exists cov. split; [apply yields_lift; exact Ec|].
  apply yields_bind. exists T. split; [apply yields_lift; unfold shape_at; rewrite Sm; reflexivity|].
  apply yields_bind. exists tt. split; [apply yields_plate|]. apply yields_bind. exists loc. split; [apply yields_lift; exact El|].
  unfold observe, site_value. destruct y'; constructor; constructor.
Qed.
