(** The same forecaster with and without a Hill effect. *)
From Coq Require Import Reals Lra String Bool ZArith List Sorted Permutation Lia.
From Verif.Model Require Import Base Num XFloat Regex Frame Arr Expand Aggregate Scale Prog Likelihood Effect Trend TrendProg Engine Predict Forecaster.
From Verif.Spec Require Import RegexSpec FrameSpec ScaleSpec TrendSpec ProgSpec EffectSpec ForecasterSpec AlignSpec SiteSpec ShapeSpec TotalSpec OverlapSpec DocsSpec ResponseSpec UpwardSpec AddedSpec.
From Verif.Facts Require Import BaseFacts NumFacts ForecasterFacts ForecasterInv ForecasterProps EffectExamples ForecasterExamples EngineExamples HistoryExamples AlignExamples ComponentExamples CounterExamples OverlapExamples TotalExamples TotalForecast DocsTotal
  DocsExamples EffectFacts SiteFacts ResponseForecaster ResponseExamples CellExamples UpwardExamples SeasonExamples.
Import ListNotations.
Local Open Scope string_scope.

Definition plain_config (trend : string) : config :=
  mkConfig false (TrendName trend) 1 (4 / 5) (1 / 1000) (1 / 10) (1 / 5) (11 / 10) (Some [linear_tv; season]) None (1 / 20) "normal" None None 1
    "mcmc" None 10 0 2 5 1.
(** only the first column *)
Definition Xu1 : frame R := mkFrame 0 ["tv"] [mkRow [] 0 [1]; mkRow [] 1 [2]; mkRow [] 7 [3]]%R.
Definition Xd1 : frame R := mkFrame 0 ["tv"] [mkRow [] 0 [1]; mkRow [] 7 [2]; mkRow [] 14 [3]]%R.
Definition week1 : row R := mkRow [] 7 [2]%R.
Definition plain_fit (trend : string) := fit_forecaster ex_ns sorted_sets keep_all ex_fit_transform ex_svi ex_nuts comp_latent (plain_config trend) (no_objects None) ex_y (Some Xu1).

Lemma plain_posed trend : In trend ["linear"; "linear_raw"; "flat"; "logistic"] -> well_posed ex_ns (plain_config trend) ex_y (Some Xu1).
Proof.
  intros HT. assert (HL : In "normal" ["normal"; "gamma"; "negbinomial"]) by (simpl; auto). pose proof (total_posed trend "normal" "mcmc" HT HL) as W. destruct W as [W1 W2 W3 W4 W5 W6 W7 W8 W9 W10 W11 W12]. constructor; auto.
  - split; [intros r [<-|[<-|[<-|[]]]]; split; reflexivity|]. split; [reflexivity|]. split; [|cbn; tauto]. repeat constructor; simpl; intuition discriminate.
  - cbn [effects_of c_effects plain_config exog_cols Xu1 f_cols]. intros l [<-|[<-|[]]].
    + exists ["tv"]. split; [vm_compute; reflexivity|]. right. discriminate.
    + exists []. split; [reflexivity|]. right. cbn. split; [reflexivity|]. split; [|split; [|auto]].
      * intros s n [[= <- <-]|[]]. simpl. lra.
      * exists 3. split; auto.
  - cbn [exog_cols Xu1 f_cols]. intros cs HN _ H. destruct cs as [|x cs]; [congruence|]. exfalso. destruct (proj1 (H x) (or_introl eq_refl)) as [Hx U].
    destruct Hx as [<-|[]]. apply (U linear_tv); [simpl; auto|]. apply (ForecasterFacts.match_columns_In ["tv"] (l_regex linear_tv) ["tv"] ltac:(vm_compute; reflexivity) "tv"). simpl. auto.
Qed.
Lemma plain_clean trend : clean_config (plain_config trend).
Proof.
  split; [|exact I]. intros l [<-|[<-|[]]]; (split; [|exact I]); (split; [reflexivity|]); intros H; vm_compute in H;
  repeat (destruct H as [H|H]; [discriminate|]); destruct H.
Qed.
Lemma plain_hill trend X : (forall r v, In r (f_rows X) -> In v (r_vals r) -> (0 <= v)%R) -> hill_data (plain_config trend) (Some X).
Proof.
  intros H. assert (G : forall x, non_negative X x).
  { intros x r v Hr Hv. apply (H r v Hr). clear -Hv. revert Hv. generalize (r_vals r) as vs. induction (f_cols X) as [|c cs IH]; intros [|w vs]; cbn; try discriminate.
    destruct (String.eqb x c); [intros [= ->]; auto|]. intros Hv. right. auto. }
  split; intros; apply G.
Qed.
Lemma plain_wf : frame_wf Xu1 /\ frame_wf Xd1 /\ covers Xd1 [0; 7; 14]%Z.
Proof. split; [|split; [|reflexivity]]; intros r [<-|[<-|[<-|[]]]]; split; reflexivity. Qed.

Lemma plain_run trend : In trend ["linear"; "linear_raw"; "flat"; "logistic"] ->
  exists ob f m o tr, plain_fit trend = (ob, Ok f) /\ predict_model ex_ns keep_all ex_transform (plain_config trend) ob f ex_y (Some Xd1) hd3 = Ok m /\ run one [] m = Ok (o, tr) /\ run_transform ex_transform ob (supplied (Some Xd1) [0; 7; 14]%Z) = Ok Xd1.
Proof.
  intros HT. pose proof (plain_posed trend HT) as W. pose proof (plain_clean trend) as CL.
  assert (HD : hill_data (plain_config trend) (Some Xu1)) by (apply plain_hill; cbn; intros r v [<-|[<-|[<-|[]]]] [<-|[]]; lra).
  assert (HD2 : hill_data (plain_config trend) (Some Xd1)) by (apply plain_hill; cbn; intros r v [<-|[<-|[<-|[]]]] [<-|[]]; lra).
  destruct (fit_total ex_ns sorted_sets keep_all ex_fit_transform ex_svi ex_nuts comp_latent _ (no_objects None) ex_y (Some Xu1) W CL HD eq_refl) as (ob & s & p & m & E & _ & OT & _).
  fold (plain_fit trend) in E. unfold infer in E. change (String.eqb (en_method (engine_of (plain_config trend))) "mcmc") with true in E. cbv iota in E. unfold ex_nuts in E. cbn [bind] in E.
  match type of E with _ = (_, Ok ?g) => set (f := g) in E end. exists ob, f.
  destruct (predict_total ex_ns sorted_sets keep_all ex_fit_transform ex_transform ex_svi ex_nuts comp_latent _ (no_objects None) ob ex_y (Some Xu1) f (Some Xd1) hd3 7 W CL HD eq_refl E eq_refl) as (pm & PM & RU).
  - cbn. repeat constructor; simpl; intuition discriminate.
  - exact HD2.
  - split; [|cbn; tauto]; split; [intros r [<-|[<-|[<-|[]]]]; split; reflexivity|]; split; [reflexivity|]; split; [|cbn; tauto]; repeat constructor; simpl; intuition discriminate.
  - destruct (RU one) as (o & tr & RO); [split; intros; unfold one; lra|]. exists pm, o, tr. split; [exact E|]. split; [exact PM|]. split; [exact RO|]. unfold run_transform. rewrite OT. reflexivity.
Qed.

Lemma plain_trend trend ob1 f1 ob2 f2 : In trend ["linear"; "linear_raw"; "flat"; "logistic"] -> plain_fit trend = (ob1, Ok f1) -> total_fit trend "normal" "mcmc" = (ob2, Ok f2) -> same_trend (o_trend ob1) (o_trend ob2).
Proof.
  intros HT H1 H2. destruct (string_dec trend "flat") as [->|NE].
  - right. split.
    + apply fit_forecaster_inv in H1. destruct H1 as (s & ys & p & m & post & _ & _ & HF & _ & _). unfold fit_data in HF. change (c_hier (plain_config "flat")) with false in HF. cbv iota in HF.
      apply univariate_fit_inv in HF. destruct HF as (t0 & t & yt & X1 & Xe & td & data & G & _ & T & _ & _ & <- & _). unfold get_trend_model in G. cbn in G. injection G as <-. cbn in T. repeat match type of T with context [match ?q with _ => _ end] => destruct q; try discriminate end; injection T as T; rewrite <- T; exact I.
    + destruct (season_trend _ _ _ HT H2) as [S|S]; [|exact S]. exfalso. apply fit_forecaster_inv in H2. destruct H2 as (s & ys & p & m & post & _ & _ & HF & _ & _). unfold fit_data in HF. change (c_hier (total_config "flat" "normal" "mcmc")) with false in HF. cbv iota in HF.
      apply univariate_fit_inv in HF. destruct HF as (t0 & t & yt & X1 & Xe & td & data & G & _ & T & _ & _ & <- & _). unfold get_trend_model in G. cbn in G. injection G as <-. cbn in T. repeat match type of T with context [match ?q with _ => _ end] => destruct q; try discriminate end; injection T as T; rewrite <- T in S; exact S.
  - assert (HN : In trend ["linear"; "linear_raw"; "logistic"]) by (simpl in *; intuition congruence).
    left. exists 1%R, (4 / 5)%R, (String.eqb trend "logistic").
    destruct (named_options ex_ns sorted_sets keep_all ex_fit_transform ex_svi ex_nuts comp_latent _ _ _ _ _ _ trend H1 eq_refl HN) as [P1 _]. destruct (named_options ex_ns sorted_sets keep_all ex_fit_transform ex_svi ex_nuts comp_latent _ _ _ _ _ _ trend H2 eq_refl HN) as [P2 _].
    split; [exact P1|]. split; [exact P2|lra].
Qed.

(** the columns of a listed effect are those its pattern matches *)
Lemma listed_columns c ob y (Z : frame R) ob' (f : fitted (P := unit)) : fit_forecaster ex_ns sorted_sets keep_all ex_fit_transform ex_svi ex_nuts comp_latent c ob y (Some Z) = (ob', Ok f) -> c_hier c = false -> o_transformer ob = None ->
  forall n ef cols, In (n, ef, cols) (p_fitted (ft_prepared f)) -> n <> default_name -> exists l, In l (effects_of c) /\ l_name l = n /\ match_columns (f_cols Z) (l_regex l) = Ok cols.
Proof.
  intros H Hc OT n ef cols I ND. apply fit_forecaster_inv in H. destruct H as (s & ys & p & m & post & _ & HY & HF & _ & ->). cbn [ft_prepared] in I.
  apply effects_frame in HF. destruct HF as (Xe & FE & _ & _ & HC & _). specialize (HC Hc OT). unfold fit_effects in FE. destruct (mapM _ (effects_of c)) as [main|] eqn:M; [|discriminate]. cbn [bind] in FE.
  assert (IM : In (n, ef, cols) main).
  { destruct (uncovered (f_cols Xe) main) as [|c0 cs]; [injection FE as FE; rewrite FE; exact I|]. destruct (select_columns _ _ _) as [XC|]; [|discriminate]. cbn [bind] in FE. destruct (fit _ _ _ _) as [e' [ex|]]; [discriminate|]. injection FE as FE. rewrite <- FE in I.
    apply in_app_iff in I as [I|[I|[]]]; [exact I|]. exfalso. apply ND. congruence. }
  apply mapM_ok in M. apply Forall2_In_both in M. destruct (proj2 M _ IM) as (l & IL & E). destruct l as [[n' e'] re]. exists (n', e', re). split; [exact IL|]. unfold fit_one in E. rewrite HC in E. cbn [l_regex snd].
  destruct (match_columns (f_cols Z) re) as [cs|]; [|discriminate]. cbn [bind] in E. destruct (select_columns _ _ _); [|discriminate]. cbn [bind] in E. destruct (fit _ _ _ _) as [e2 [ex|]]; [discriminate|]. injection E as -> _ ->. auto.
Qed.

Lemma plain_names trend ob f : plain_fit trend = (ob, Ok f) -> Permutation (map fst (p_effects (ft_prepared f))) ["tv"; "season"].
Proof.
  intros H. destruct (forecaster_clean _ _ _ _ _ _ _ _ _ _ _ _ _ H (plain_clean trend)) as (ND & _). apply fit_forecaster_inv in H. destruct H as (s & ys & p & m & post & _ & HY & HF & _ & ->). cbn [ft_prepared] in *.
  assert (NY : f_rows ys <> []). { apply scale_y_index in HY as [HY _]. intros E. unfold index_of in HY. rewrite E in HY. discriminate. }
  destruct (c24_univariate ex_ns sorted_sets keep_all ex_fit_transform _ _ _ _ _ _ _ _ HF eq_refl NY) as (Xe & HC & HK). specialize (HC eq_refl). cbv beta iota in HC.
  assert (TV : matched (l_regex linear_tv) "tv") by (apply (proj1 (ForecasterFacts.match_columns_In ["tv"] (l_regex linear_tv) ["tv"] ltac:(vm_compute; reflexivity) "tv")); simpl; auto).
  apply NoDup_Permutation; [exact ND|repeat constructor; simpl; intuition discriminate|]. intros n. change (map fst (p_effects p)) with (dict_keys (p_effects p)). rewrite HK. split.
  - intros [(l & [<-|[<-|[]]] & <- & _)|(_ & col & IC & NU)]; [simpl; auto|simpl; auto|]. exfalso. rewrite HC in IC. destruct IC as [<-|[]]. apply (NU linear_tv); [simpl; auto|exact TV].
  - intros [<-|[<-|[]]]; left; [exists linear_tv|exists season]; (split; [simpl; auto|]; split; [reflexivity|]).
    + right. exists "tv". rewrite HC. split; [simpl; auto|exact TV].
    + left. reflexivity.
Qed.
Lemma total_names trend ob f : total_fit trend "normal" "mcmc" = (ob, Ok f) -> Permutation (map fst (p_effects (ft_prepared f))) ["sat"; "tv"; "season"].
Proof.
  intros H. destruct (forecaster_clean _ _ _ _ _ _ _ _ _ _ _ _ _ H (total_clean trend _ _)) as (ND & _). apply fit_forecaster_inv in H. destruct H as (s & ys & p & m & post & _ & HY & HF & _ & ->). cbn [ft_prepared] in *.
  assert (NY : f_rows ys <> []). { apply scale_y_index in HY as [HY _]. intros E. unfold index_of in HY. rewrite E in HY. discriminate. }
  destruct (c24_univariate ex_ns sorted_sets keep_all ex_fit_transform _ _ _ _ _ _ _ _ HF eq_refl NY) as (Xe & HC & HK). specialize (HC eq_refl). cbv beta iota in HC.
  assert (TV : matched (l_regex linear_tv) "tv") by (apply (proj1 (ForecasterFacts.match_columns_In ["tv"] (l_regex linear_tv) ["tv"] ltac:(vm_compute; reflexivity) "tv")); simpl; auto).
  assert (WB : matched (l_regex hill_web) "web") by (apply (proj1 (ForecasterFacts.match_columns_In ["web"] (l_regex hill_web) ["web"] ltac:(vm_compute; reflexivity) "web")); simpl; auto).
  apply NoDup_Permutation; [exact ND|repeat constructor; simpl; intuition discriminate|]. intros n. change (map fst (p_effects p)) with (dict_keys (p_effects p)). rewrite HK. split.
  - intros [(l & [<-|[<-|[<-|[]]]] & <- & _)|(_ & col & IC & NU)]; [simpl; auto|simpl; auto|simpl; auto|]. exfalso. rewrite HC in IC. destruct IC as [<-|[<-|[]]]; [apply (NU linear_tv); [simpl; auto|exact TV]|apply (NU hill_web); [simpl; auto|exact WB]].
  - intros [<-|[<-|[<-|[]]]]; left; [exists hill_web|exists linear_tv|exists season]; (split; [simpl; auto|]; split; [reflexivity|]).
    + right. exists "web". rewrite HC. split; [simpl; auto|exact WB].
    + right. exists "tv". rewrite HC. split; [simpl; auto|exact TV].
    + left. reflexivity.
Qed.

Lemma plain_common trend ob1 f1 ob2 f2 : plain_fit trend = (ob1, Ok f1) -> total_fit trend "normal" "mcmc" = (ob2, Ok f2) -> forall name, In name (map fst (p_effects (ft_prepared f1))) ->
  common (plain_config trend) (docs_config trend) (p_fitted (ft_prepared f1)) (p_fitted (ft_prepared f2)) (values_at Xd1 week1) (values_at Xd this_week) one one name.
Proof.
  intros H1 H2 name IN. apply (Permutation_in _ (plain_names _ _ _ H1)) in IN. split; [reflexivity|]. intros ef1 ef2 ef01 ef02 cols1 cols2 x1 x2 I1 I2 CF1 CF2 V1 V2.
  assert (CF1' : exists re, In (name, ef01, re) [linear_tv; season]) by (destruct CF1 as [(effects & re & [= <-] & HI)|[E _]]; [eauto|destruct IN as [<-|[<-|[]]]; discriminate]).
  assert (CF2' : exists re, In (name, ef02, re) [linear_tv; season; hill_web]) by (destruct CF2 as [(effects & re & [= <-] & HI)|[E _]]; [eauto|destruct IN as [<-|[<-|[]]]; discriminate]).
  assert (ND : name <> default_name) by (destruct IN as [<-|[<-|[]]]; discriminate).
  destruct (listed_columns _ _ _ _ _ _ H1 eq_refl eq_refl _ _ _ I1 ND) as (l1 & IL1 & NL1 & M1). destruct (listed_columns _ _ _ _ _ _ H2 eq_refl eq_refl _ _ _ I2 ND) as (l2 & IL2 & NL2 & M2).
  destruct CF1' as (re1 & CF1'). destruct CF2' as (re2 & CF2'). destruct IN as [<-|[<-|[]]].
  - assert (l1 = linear_tv) as -> by (destruct IL1 as [<-|[<-|[]]]; [reflexivity|discriminate]). assert (l2 = linear_tv) as -> by (destruct IL2 as [<-|[<-|[<-|[]]]]; [reflexivity|discriminate|discriminate]).
    vm_compute in M1. injection M1 as <-. vm_compute in M2. injection M2 as <-.
    assert (ef01 = l_effect linear_tv) as -> by (destruct CF1' as [E|[E|[]]]; [injection E as <- _; reflexivity|discriminate]). assert (ef02 = l_effect linear_tv) as -> by (destruct CF2' as [E|[E|[E|[]]]]; [injection E as <- _; reflexivity|discriminate|discriminate]).
    split; [reflexivity|]. unfold values_at in V1, V2. cbn in V1, V2. destruct x1 as [|a [|b x1]]; try discriminate. destruct x2 as [|a' [|b' x2]]; try discriminate. injection V1 as <-. injection V2 as <-. reflexivity.
  - assert (ef01 = l_effect season) as -> by (destruct CF1' as [E|[E|[]]]; [discriminate|injection E as <- _; reflexivity]). assert (ef02 = l_effect season) as -> by (destruct CF2' as [E|[E|[E|[]]]]; [discriminate|injection E as <- _; reflexivity|discriminate]).
    split; [repeat split|exact I].
Qed.
