(** A week later, with the same advertising. *)
From Coq Require Import Reals Lra String Bool ZArith List Sorted Permutation Lia.
From Verif.Model Require Import Base Num XFloat Regex Frame Arr Expand Aggregate Scale Prog Likelihood Effect Trend TrendProg Engine Predict Forecaster.
From Verif.Spec Require Import RegexSpec FrameSpec ScaleSpec TrendSpec ProgSpec EffectSpec ForecasterSpec AlignSpec SiteSpec ShapeSpec TotalSpec OverlapSpec ResponseSpec UpwardSpec SeasonSpec.
From Verif.Facts Require Import BaseFacts NumFacts ForecasterFacts ForecasterInv ForecasterProps EffectExamples ForecasterExamples EngineExamples HistoryExamples AlignExamples ComponentExamples CounterExamples OverlapExamples TotalExamples TotalForecast DocsTotal
  DocsExamples EffectFacts ResponseForecaster ResponseExamples CellExamples UpwardExamples.
Import ListNotations.
Local Open Scope string_scope.

(** on day 14 as on day 7 of [Xd] *)
Definition Xagain : frame R := mkFrame 0 ["tv"; "web"] [mkRow [] 0 [4; 40]; mkRow [] 7 [9; 90]; mkRow [] 14 [2; 20]]%R.
Definition this_week : row R := mkRow [] 7 [2; 20]%R.
Definition next_week : row R := mkRow [] 14 [2; 20]%R.
Lemma again_wf : frame_wf Xagain /\ covers Xagain [0; 7; 14]%Z.
Proof. split; [intros r [<-|[<-|[<-|[]]]]; split; reflexivity|reflexivity]. Qed.

Lemma season_run trend : In trend ["linear"; "linear_raw"; "flat"; "logistic"] ->
  exists ob f, total_fit trend "normal" "mcmc" = (ob, Ok f) /\ (forall X, In X [Xd; Xagain] -> exists m o tr, predict_model ex_ns keep_all ex_transform (docs_config trend) ob f ex_y (Some X) hd3 = Ok m /\ run one [] m = Ok (o, tr)).
Proof.
  intros HT. assert (HL : In "normal" ["normal"; "gamma"; "negbinomial"]) by (simpl; auto).
  pose proof (total_posed trend "normal" "mcmc" HT HL) as W. pose proof (total_clean trend "normal" "mcmc") as CL.
  assert (HD : hill_data (docs_config trend) (Some Xu)) by (apply total_hill; cbn; intros r v [<-|[<-|[<-|[]]]] [<-|[<-|[]]]; lra).
  destruct (fit_total ex_ns sorted_sets keep_all ex_fit_transform ex_svi ex_nuts comp_latent _ (no_objects None) ex_y (Some Xu) W CL HD eq_refl) as (ob & s & p & m & E & _).
  fold (total_fit trend "normal" "mcmc") in E. unfold infer in E. change (String.eqb (en_method (engine_of (total_config trend "normal" "mcmc"))) "mcmc") with true in E. cbv iota in E. unfold ex_nuts in E. cbn [bind] in E.
  match type of E with _ = (_, Ok ?g) => set (f := g) in E end. exists ob, f. split; [exact E|]. intros X HX.
  assert (HD2 : hill_data (docs_config trend) (Some X)) by (apply total_hill; destruct HX as [<-|[<-|[]]]; cbn; intros r v [<-|[<-|[<-|[]]]] [<-|[<-|[]]]; lra).
  destruct (predict_total ex_ns sorted_sets keep_all ex_fit_transform ex_transform ex_svi ex_nuts comp_latent _ (no_objects None) ob ex_y (Some Xu) f (Some X) hd3 7 W CL HD eq_refl E eq_refl) as (pm & PM & RU).
  - cbn. repeat constructor; simpl; intuition discriminate.
  - exact HD2.
  - destruct HX as [<-|[<-|[]]]; (split; [|cbn; tauto]; split; [intros r [<-|[<-|[<-|[]]]]; split; reflexivity|]; split; [reflexivity|]; split; [|cbn; tauto]; repeat constructor; simpl; intuition discriminate).
  - destruct (RU one) as (o & tr & RO); [split; intros; unfold one; lra|]. exists pm, o, tr. auto.
Qed.
Lemma season_trend trend ob f : In trend ["linear"; "linear_raw"; "flat"; "logistic"] -> total_fit trend "normal" "mcmc" = (ob, Ok f) -> scalar_piecewise (o_trend ob) \/ flat_trend (o_trend ob).
Proof.
  intros HT HF. destruct (string_dec trend "flat") as [->|NE]; [right|left; eapply docs_piecewise; eauto; simpl in *; intuition congruence].
  apply fit_forecaster_inv in HF. destruct HF as (s & ys & p & m & post & _ & _ & HF & _ & _). unfold fit_data in HF. change (c_hier (total_config "flat" "normal" "mcmc")) with false in HF. cbv iota in HF.
  apply univariate_fit_inv in HF. destruct HF as (t0 & t & yt & X1 & Xe & td & data & G & _ & T & _ & _ & <- & _). unfold get_trend_model in G. cbn in G. injection G as <-. cbn in T. repeat match type of T with context [match ?q with _ => _ end] => destruct q; try discriminate end; injection T as T; rewrite <- T; exact I.
Qed.
Lemma same_week cols x1 x2 : values_at Xd this_week cols x1 -> values_at Xagain next_week cols x2 -> x1 = x2.
Proof.
  unfold values_at. change (f_cols Xagain) with (f_cols Xd). change (r_vals next_week) with (r_vals this_week). intros A B. rewrite A in B. clear A. revert x2 B. induction x1 as [|a x1 IH]; intros [|b x2] B; try discriminate; [reflexivity|]. injection B as -> B. f_equal. now apply IH.
Qed.
Lemma week_recurs trend : forall name ef0 cols x1 x2, configured (docs_config trend) name ef0 -> values_at Xd this_week cols x1 -> values_at Xagain next_week cols x2 -> recurs 7 ef0 x1 x2 /\ effect_mode ef0 Additive.
Proof.
  intros name ef0 cols x1 x2 CF V1 V2. pose proof (same_week _ _ _ V1 V2) as E.
  destruct CF as [(effects & regex & [= <-] & HI)|[_ [[=]|[_ ->]]]]; [|split; [exact E|reflexivity]].
  destruct HI as [HI|[HI|[HI|[]]]]; injection HI as _ <- _; (split; [|reflexivity]); try exact E. intros s [<-|[]]. exists 1%Z. lra.
Qed.

(** * two series: the second series has no advertising on the days 2 and 3 *)
Definition quiet2 : row R := mkRow ["b"] 2 [0; 0]%R.
Definition quiet3 : row R := mkRow ["b"] 3 [0; 0]%R.
Lemma quiet_zero r col u : In r [quiet2; quiet3] -> forall X, In X [ex_X2; ex_X3] -> seen [] (bottom_series X) X r col u -> u = 0%R.
Proof.
  intros Hr X HX [(_ & [] & _)|(c & q & Hc & _ & _ & _ & H)]. destruct H as [(_ & H)|(_ & ->)]; [|reflexivity].
  destruct HX as [<-|[<-|[]]]; destruct Hr as [<-|[<-|[]]]; destruct Hc as [<-|[<-|[]]]; cbn in H; now injection H.
Qed.
Lemma panel_recurs : forall name ef0 cols x1 x2, configured two_config name ef0 -> Forall2 (seen [] (bottom_series ex_X2) ex_X2 quiet2) cols x1 -> Forall2 (seen [] (bottom_series ex_X3) ex_X3 quiet3) cols x2 -> recurs 1 ef0 x1 x2 /\ effect_mode ef0 Additive.
Proof.
  intros name ef0 cols x1 x2 CF V1 V2. assert (E : x1 = x2).
  { clear CF. revert x2 V2. induction V1 as [|col u cols x1 A V1 IH]; intros x2 V2; inversion V2; subst; [reflexivity|]. f_equal; [|now apply IH].
    match goal with B : seen _ _ ex_X3 _ _ ?w |- _ => rewrite (quiet_zero quiet2 col u ltac:(simpl; auto) ex_X2 ltac:(simpl; auto) A), (quiet_zero quiet3 col w ltac:(simpl; auto) ex_X3 ltac:(simpl; auto) B) end. reflexivity. }
  destruct CF as [(effects & regex & [= <-] & HI)|[_ [[=]|[_ ->]]]]; [|split; [exact E|reflexivity]]. destruct HI as [HI|[HI|[]]]; injection HI as _ <- _; split; [exact E|reflexivity|exact E|reflexivity].
Qed.
