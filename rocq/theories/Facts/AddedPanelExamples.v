(** The same panel forecaster with and without a seasonality. *)
From Coq Require Import Reals Lra String Bool ZArith List Sorted Permutation Lia.
From Verif.Model Require Import Base Num XFloat Regex Frame Arr Expand Aggregate Scale Prog Likelihood Effect Trend TrendProg Engine Predict Forecaster.
From Verif.Spec Require Import RegexSpec FrameSpec ScaleSpec TrendSpec ProgSpec EffectSpec ForecasterSpec AlignSpec SiteSpec LineSpec ShapeSpec TotalSpec PanelSpec OverlapSpec DocsSpec ResponseSpec UpwardSpec AddedSpec.
From Verif.Facts Require Import BaseFacts NumFacts FrameFacts ForecasterFacts ForecasterInv ForecasterProps EffectFacts SiteFacts EffectExamples ForecasterExamples EngineExamples HistoryExamples ComponentExamples InsampleExamples CounterExamples DocsForecaster PanelForecast PanelTotalExamples
  DocsExamples TablePanel ResponseExamples PanelModel.
Import ListNotations.
Local Open Scope string_scope.

Definition wide_tv : effect := Linear Additive (DUser 0) base_init.
Definition wide_effects (seasonal : bool) : list listed :=
  ("tv", wide_tv, Some "tv.*") :: (if seasonal then [season] else []) ++ [("web", Linear Multiplicative (DUser 1) base_init, Some "web")].
Definition wide_config (trend : string) (seasonal : bool) : config :=
  mkConfig true (TrendName trend) 1 (4 / 5) (1 / 1000) (1 / 10) (1 / 5) (11 / 10)
    (Some (wide_effects seasonal)) None (1 / 20) "normal" None (Some ["web"]) 1 "mcmc" None 10 0 2 5 1.
Definition wide_fit trend seasonal := fit_forecaster ex_ns sorted_sets keep_all ex_fit_transform ex_svi ex_nuts comp_latent (wide_config trend seasonal) (no_objects None) ex_yh (Some ex_Xh).

Lemma wide_posed trend seasonal : In trend ["linear"; "linear_raw"; "logistic"] -> well_posed_panel ex_ns (wide_config trend seasonal) [["a"]; ["b"]] [0; 1]%Z ex_yh (Some ex_Xh).
Proof.
  intros HT. destruct (panel_posed trend "normal" "mcmc" ex_yh (Some ex_Xh) HT ltac:(simpl; auto) ltac:(simpl; auto)) as [W1 W2 W3 W4 W5 W6 W7 W8 W9 W10 W11 W12]. constructor; auto.
  assert (S : forall l, In l [("tv", wide_tv, Some "tv.*"); season; ("web", Linear Multiplicative (DUser 1) base_init, Some "web")] -> In l (effects_of (wide_config trend seasonal)) \/ True) by auto. clear S.
  assert (TV := W11 ("tv", Linear Additive (DUser 0) base_init, Some "tv.*") ltac:(simpl; auto)). assert (SE := W11 season ltac:(simpl; auto)).
  intros l Hl. cbn [effects_of c_effects wide_config] in Hl. destruct Hl as [<-|Hl]; [exact TV|]. apply in_app_iff in Hl as [Hl|[<-|[]]].
  - destruct seasonal; [|destruct Hl]. destruct Hl as [<-|[]]. exact SE.
  - cbn. split; [eexists; vm_compute; reflexivity|exact I].
Qed.
Lemma wide_clean trend seasonal : clean_config (wide_config trend seasonal).
Proof.
  split; [|exact I]. intros l Hl. destruct seasonal; cbn [wide_effects app] in Hl.
  - destruct Hl as [<-|[<-|[<-|[]]]]; (split; [|exact I]); (split; [reflexivity|]); intros H; vm_compute in H; repeat (destruct H as [H|H]; [discriminate|]); destruct H.
  - destruct Hl as [<-|[<-|[]]]; (split; [|exact I]); (split; [reflexivity|]); intros H; vm_compute in H; repeat (destruct H as [H|H]; [discriminate|]); destruct H.
Qed.

Lemma wide_run trend seasonal : In trend ["linear"; "linear_raw"; "logistic"] -> exists ob f m, wide_fit trend seasonal = (ob, Ok f) /\ o_transformer ob = None /\ max_time (map snd (p_index (ft_prepared f))) = Ok 1%Z /\
  predict_model ex_ns keep_all ex_transform (wide_config trend seasonal) ob f ex_yh (Some ex_X2) (Relative [1; 2]%Z) = Ok m /\ (forall e, exists o tr, run e [] m = Ok (o, tr)) /\ piecewise_options (o_trend ob) 1 (4 / 5) (String.eqb trend "logistic").
Proof.
  intros HT. pose proof (wide_posed trend seasonal HT) as W. pose proof (wide_clean trend seasonal) as CL. assert (Order : forall l, Permutation (sorted_sets l) l) by (intros l; reflexivity).
  destruct (fit_panel_total ex_ns sorted_sets Order keep_all ex_fit_transform ex_svi ex_nuts comp_latent _ (no_objects None) _ _ ex_yh (Some ex_Xh) W CL eq_refl) as (ob & tab & p & m & cols & E & _ & T0 & _).
  fold (wide_fit trend seasonal) in E. unfold infer in E. change (String.eqb (en_method (engine_of (wide_config trend seasonal))) "mcmc") with true in E. cbv iota in E. unfold ex_nuts in E. cbn [bind] in E.
  match type of E with _ = (_, Ok ?g) => set (f := g) in E end. exists ob, f.
  destruct (panel_model_total ex_ns sorted_sets Order keep_all ex_fit_transform ex_transform ex_svi ex_nuts comp_latent _ (no_objects None) ob _ _ ex_yh (Some ex_Xh) f (Some ex_X2) (Relative [1; 2]%Z) 1 W CL eq_refl E eq_refl) as (CI & pm & PM & RU).
  - repeat constructor; simpl; intuition discriminate.
  - discriminate.
  - split; [exists [2; 3]%Z; split; [exact ex_X2_is_panel|auto]|]. intros c Hc. exact Hc.
  - exists pm. split; [exact E|]. split; [exact T0|]. split; [exact CI|]. split; [exact PM|]. split; [exact RU|].
    exact (proj1 (named_options ex_ns sorted_sets keep_all ex_fit_transform ex_svi ex_nuts comp_latent _ _ _ _ _ _ trend E eq_refl HT)).
Qed.

(** the effects and their columns *)
Lemma wide_frame trend seasonal ob f : wide_fit trend seasonal = (ob, Ok f) -> exists (Ut : frame R) q, f_cols Ut = ["web"; "tv_dup_a"; "tv_dup_b"] /\ f_rows Ut <> [] /\
  fit_effects sorted_sets None (wide_effects seasonal) (Some Ut) q = Ok (p_fitted (ft_prepared f)) /\ non_skipped (p_fitted (ft_prepared f)) = Ok (p_effects (ft_prepared f)).
Proof.
  intros H. apply fit_forecaster_inv in H. destruct H as (s & ys & p & m0 & post & _ & _ & HD & _ & EFt). assert (EP : ft_prepared f = p) by (rewrite EFt; reflexivity). rewrite EP. clear EP EFt.
  unfold fit_data in HD. change (c_hier (wide_config trend seasonal)) with true in HD. cbv iota in HD. apply hierarchical_fit_inv in HD.
  destruct HD as (yb & tensor & B0 & B1 & Ut & ob1 & t00 & t & td0 & data0 & _ & _ & HB0 & HRF & HEX & HIF & _ & _ & EOB & _ & HFE & _ & HNS & _).
  change (no_columns ex_Xh) with false in HB0. cbv iota in HB0. change (loc_bottom_series ex_Xh) with (Ok ex_Xh) in HB0. injection HB0 as <-.
  apply run_fit_transform_inv in HRF as [_ HRF]. cbn [no_objects o_transformer] in HRF. destruct HRF as [OT1 EB]. subst B1. rewrite HEX in HIF. change (negb (no_columns ex_Xh)) with true in HIF. cbv iota in HIF. destruct HIF as (ex & EXB & _).
  change (c_shared (wide_config trend seasonal)) with (Some ["web"]) in EXB. cbv iota in EXB. vm_compute in EXB. injection EXB as EXB _. exists Ut, (scale_number s). split; [rewrite <- EXB; reflexivity|]. split; [rewrite <- EXB; discriminate|]. split; [exact HFE|exact HNS].
Qed.
Lemma wide_listed seasonal l : In l (wide_effects seasonal) <-> l = ("tv", wide_tv, Some "tv.*") \/ (l = season /\ seasonal = true) \/ l = ("web", Linear Multiplicative (DUser 1) base_init, Some "web").
Proof.
  unfold wide_effects. cbn [In]. rewrite in_app_iff. cbn [In]. destruct seasonal; cbn [In]; split.
  - intros [<-|[[<-|[]]|[<-|[]]]]; auto.
  - intros [E|[[E _]|E]]; subst l; auto.
  - intros [<-|[[]|[<-|[]]]]; auto.
  - intros [E|[[_ E]|E]]; [subst l; auto|discriminate|subst l; auto].
Qed.
Lemma wide_matched : matched (Some "tv.*") "tv_dup_a" /\ matched (Some "tv.*") "tv_dup_b" /\ matched (Some "web") "web".
Proof.
  split; [|split].
  - apply (proj1 (ForecasterFacts.match_columns_In ["tv_dup_a"] (Some "tv.*") ["tv_dup_a"] ltac:(vm_compute; reflexivity) "tv_dup_a")). simpl. auto.
  - apply (proj1 (ForecasterFacts.match_columns_In ["tv_dup_b"] (Some "tv.*") ["tv_dup_b"] ltac:(vm_compute; reflexivity) "tv_dup_b")). simpl. auto.
  - apply (proj1 (ForecasterFacts.match_columns_In ["web"] (Some "web") ["web"] ltac:(vm_compute; reflexivity) "web")). simpl. auto.
Qed.
Definition wide_names (seasonal : bool) : list string := (if seasonal then ["season"] else []) ++ ["tv"; "web"].
Lemma wide_used trend seasonal ob f : wide_fit trend seasonal = (ob, Ok f) -> Permutation (map fst (p_effects (ft_prepared f))) (wide_names seasonal).
Proof.
  intros H. destruct (forecaster_clean _ _ _ _ _ _ _ _ _ _ _ _ _ H (wide_clean trend seasonal)) as (ND & _). destruct (wide_frame _ _ _ _ H) as (Ut & q & CU & NU & FE & NS). destruct wide_matched as (MA & MB & MW).
  apply NoDup_Permutation; [exact ND|destruct seasonal; repeat constructor; simpl; intuition discriminate|]. intros n. change (map fst (p_effects (ft_prepared f))) with (dict_keys (p_effects (ft_prepared f))). rewrite (names_part sorted_sets _ _ _ _ _ _ n FE NS NU). split.
  - intros [(l & IL & <- & _)|(_ & col & IC & NL)].
    + apply wide_listed in IL as [E|[[E E']|E]]; subst; unfold wide_names; apply in_app_iff; simpl; auto.
    + exfalso. rewrite CU in IC. destruct IC as [<-|[<-|[<-|[]]]]; [apply (NL ("web", Linear Multiplicative (DUser 1) base_init, Some "web"))|apply (NL ("tv", wide_tv, Some "tv.*"))|apply (NL ("tv", wide_tv, Some "tv.*"))]; try (apply wide_listed; auto); assumption.
  - intros I. left. unfold wide_names in I. apply in_app_iff in I as [I|[<-|[<-|[]]]].
    + destruct seasonal; [|destruct I]. destruct I as [<-|[]]. exists season. split; [apply wide_listed; auto|]. split; [reflexivity|]. left. reflexivity.
    + exists ("tv", wide_tv, Some "tv.*"). split; [apply wide_listed; auto|]. split; [reflexivity|]. right. exists "tv_dup_a". rewrite CU. split; [simpl; auto|exact MA].
    + exists ("web", Linear Multiplicative (DUser 1) base_init, Some "web"). split; [apply wide_listed; auto|]. split; [reflexivity|]. right. exists "web". rewrite CU. split; [simpl; auto|exact MW].
Qed.
Lemma wide_columns trend seasonal ob f : wide_fit trend seasonal = (ob, Ok f) -> forall n ef cols, In (n, ef, cols) (p_fitted (ft_prepared f)) -> In n ["tv"; "web"] -> cols = if String.eqb n "tv" then ["tv_dup_a"; "tv_dup_b"] else ["web"].
Proof.
  intros H n ef cols I IN. destruct (wide_frame _ _ _ _ H) as (Ut & q & CU & NU & FE & NS). assert (ND : n <> default_name) by (destruct IN as [<-|[<-|[]]]; discriminate).
  unfold fit_effects in FE. destruct (mapM _ (wide_effects seasonal)) as [main|] eqn:M; [|discriminate]. cbn [bind] in FE.
  assert (IM : In (n, ef, cols) main).
  { destruct (uncovered (f_cols Ut) main) as [|c0 cs]; [injection FE as FE; rewrite FE; exact I|]. destruct (select_columns _ _ _) as [XC|]; [|discriminate]. cbn [bind] in FE. destruct (fit _ _ _ _) as [e' [ex|]]; [discriminate|]. injection FE as FE. rewrite <- FE in I.
    apply in_app_iff in I as [I|[I|[]]]; [exact I|]. exfalso. apply ND. congruence. }
  apply mapM_ok in M. apply Forall2_In_both in M. destruct (proj2 M _ IM) as (l & IL & E). destruct l as [[n' e'] re]. unfold fit_one in E. rewrite CU in E.
  destruct (match_columns ["web"; "tv_dup_a"; "tv_dup_b"] re) as [cs|] eqn:MC; [|discriminate]. cbn [bind] in E. destruct (select_columns _ _ _); [|discriminate]. cbn [bind] in E. destruct (fit _ _ _ _) as [e2 [ex|]]; [discriminate|]. injection E as -> _ ->.
  apply wide_listed in IL as [IL|[[IL _]|IL]]; injection IL as -> _ ->; [|destruct IN as [E|[E|[]]]; discriminate|]; vm_compute in MC; injection MC as <-; reflexivity.
Qed.

(** the row of the second series on day 2 *)
Definition wide_row : row R := mkRow ["b"] 2 [0; 0]%R.
Lemma wide_copyable : copyable ["web"] (f_cols ex_Xh) (bottom_series ex_Xh).
Proof.
  assert (EB : bottom_series ex_Xh = [["a"]; ["b"]]) by reflexivity. rewrite EB. cbn [ex_Xh f_cols]. destruct panel_copyable as (H1 & H2 & _ & H4 & H5). split; [exact H1|]. split; [exact H2|].
  split; [intros c s [<-|[<-|[]]] NC [<-|[<-|[]]] IS; simpl in *; intuition discriminate|]. split; [exact H4|exact H5].
Qed.
Lemma wide_common trend ob1 f1 ob2 f2 : wide_fit trend false = (ob1, Ok f1) -> wide_fit trend true = (ob2, Ok f2) -> forall name, In name (map fst (p_effects (ft_prepared f1))) ->
  common (wide_config trend false) (wide_config trend true) (p_fitted (ft_prepared f1)) (p_fitted (ft_prepared f2)) (Forall2 (ResponseSpec.seen ["web"] (bottom_series ex_X2) ex_X2 wide_row)) (Forall2 (ResponseSpec.seen ["web"] (bottom_series ex_X2) ex_X2 wide_row)) one one name.
Proof.
  intros H1 H2 name IN. apply (Permutation_in _ (wide_used _ _ _ _ H1)) in IN. split; [reflexivity|]. intros ef1 ef2 ef01 ef02 cols1 cols2 x1 x2 I1 I2 CF1 CF2 V1 V2.
  pose proof (wide_columns _ _ _ _ H1 _ _ _ I1 IN) as E1. pose proof (wide_columns _ _ _ _ H2 _ _ _ I2 IN) as E2. rewrite <- E2 in E1. clear E2. subst cols2. assert (x1 = x2) as <- by (exact (seen_unique _ _ _ _ _ wide_copyable _ _ V1 V2)).
  assert (G : forall b ef0, configured (wide_config trend b) name ef0 -> ef0 = if String.eqb name "tv" then wide_tv else Linear Multiplicative (DUser 1) base_init).
  { intros b ef0 [(effects & re & [= <-] & HI)|[E _]]; [|destruct IN as [<-|[<-|[]]]; discriminate]. apply wide_listed in HI as [HI|[[HI _]|HI]]; injection HI as -> -> _; [reflexivity|destruct IN as [E|[E|[]]]; discriminate|reflexivity]. }
  rewrite (G _ _ CF1), (G _ _ CF2). destruct (String.eqb name "tv"); split; reflexivity.
Qed.
