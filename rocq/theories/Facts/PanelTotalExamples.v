(** A well-posed panel: two series, a trend with changepoints, a Fourier seasonality, a linear effect and a
    shared column; and a forecast of it. *)
From Coq Require Import Reals Lra String Bool ZArith List Sorted Permutation Lia.
From Verif.Model Require Import Base Num XFloat Regex Frame Arr Expand Aggregate Scale Prog Likelihood Effect Trend TrendProg Engine Predict Forecaster.
From Verif.Spec Require Import FrameSpec ScaleSpec TrendSpec ProgSpec EffectSpec ForecasterSpec AlignSpec SiteSpec LineSpec ShapeSpec TotalSpec PanelSpec.
From Verif.Facts Require Import NumFacts ForecasterFacts EffectExamples ForecasterExamples EngineExamples HistoryExamples ComponentExamples InsampleExamples PanelForecast.
Import ListNotations.
Local Open Scope string_scope.

Definition posed_config (trend likelihood method : string) : config :=
  mkConfig true (TrendName trend) 1 (4 / 5) (1 / 1000) (1 / 10) (1 / 5) (11 / 10)
    (Some [("tv", Linear Additive (DUser 0) base_init, Some "tv.*"); season]) None (1 / 20) likelihood None (Some ["web"]) 1
    method None 10 0 2 5 1.

Ltac two_by_two_panel :=
  split; [intros r Hr; cbn in Hr; repeat destruct Hr as [<-|Hr]; try contradiction; split; reflexivity|];
  split; [discriminate|]; split; [repeat constructor; cbn; intuition congruence|];
  intros p t _; cbn; split; [intuition (try congruence); match goal with H : (_, _) = _ |- _ => injection H as <- <-; auto end || idtac|];
  intros [HP HT]; repeat destruct HP as [<-|HP]; try contradiction; repeat destruct HT as [<-|HT]; try contradiction; auto 10.

Lemma ex_yh_is_panel : panel [["a"]; ["b"]] [0; 1]%Z ex_yh.
Proof. two_by_two_panel. Qed.
(** the same data, with its totals *)
Definition ex_yt : frame R := mkFrame 1 ["y"] (mkRow ["__total"] 0 [4]%R :: mkRow ["__total"] 1 [6]%R :: f_rows ex_yh).
Lemma ex_yt_is_panel : panel [["a"]; ["b"]] [0; 1]%Z ex_yt.
Proof.
  split; [intros r Hr; cbn in Hr; repeat destruct Hr as [<-|Hr]; try contradiction; split; reflexivity|].
  split; [discriminate|]. split; [repeat constructor; cbn; intuition congruence|].
  intros p t NT. cbn. split.
  - intros H. repeat destruct H as [[= <- <-]|H]; try contradiction; auto; destruct NT; reflexivity.
  - intros [HP HT]; repeat destruct HP as [<-|HP]; try contradiction; repeat destruct HT as [<-|HT]; try contradiction; auto 10.
Qed.
Lemma ex_Xh_is_panel : panel [["a"]; ["b"]] [0; 1]%Z ex_Xh.
Proof. two_by_two_panel. Qed.
Lemma ex_X2_is_panel : panel [["a"]; ["b"]] [2; 3]%Z ex_X2.
Proof. two_by_two_panel. Qed.

Lemma panel_posed_with trend likelihood method y X : In trend ["linear"; "linear_raw"; "logistic"] -> In y [ex_yh; ex_yt] -> 
  match given X with None => True | Some X => panel [["a"]; ["b"]] [0; 1]%Z X /\ forall col, In col (f_cols X) -> compiles col end ->
  well_posed_panel ex_ns (posed_config trend likelihood method) [["a"]; ["b"]] [0; 1]%Z y X.
Proof.
  intros HT HY HX. constructor.
  - reflexivity.
  - reflexivity.
  - split; [repeat constructor; simpl; intuition discriminate|]. split; [simpl; lia|]. intros p [<-|[<-|[]]]; discriminate.
  - split; [repeat constructor|simpl; lia].
  - assert (TO : forall k, (exists q, In q [["a"]; ["b"]] /\ total_of ["__total"] q) /\ In k [0; 1]%Z <-> In k [0; 1]%Z).
    { intros k. split; [tauto|]. intros H. split; [|exact H]. exists ["a"]. split; [simpl; auto|]. exists 0. split; [simpl; lia|reflexivity]. }
    destruct HY as [<-|[<-|[]]]; (split; [exact ex_yh_is_panel || exact ex_yt_is_panel|]); (split; [reflexivity|]); intros r Hr HI; cbn in Hr.
    + repeat destruct Hr as [<-|Hr]; try contradiction; simpl in HI; intuition discriminate.
    + repeat destruct Hr as [<-|Hr]; try contradiction; simpl in HI; first [solve [intuition discriminate] | apply TO; simpl; auto].
  - cbn [map]. unfold days_since_epoch, increasing. change (ex_ns 0 / 1000000000)%Z with 0%Z. change (ex_ns 1 / 1000000000)%Z with 86400%Z.
    repeat first [apply SSorted_nil | apply SSorted_cons | apply Forall_nil | apply Forall_cons]; lra.
  - simpl. lra.
  - simpl. lra.
  - exists trend. split; [reflexivity|]. simpl in HT. destruct HT as [<-|[<-|[<-|[]]]]; [left; simpl; tauto..|].
    right. split; [reflexivity|]. assert (EP : forall p, In p [["a"]; ["b"]] -> series_points y p = series_points ex_yh p) by (intros p HP; destruct HY as [<-|[<-|[]]]; [reflexivity|]; destruct HP as [<-|[<-|[]]]; reflexivity).
    intros p HP. rewrite (EP p HP). destruct HP as [<-|[<-|[]]].
    + exists 1%R, 1%R. split; [|intros t [<-|[<-|[]]]; lra]. intros a b. cbn. pose proof (Rle_0_sqr (1 - (a + b * 0))%R) as Q1. pose proof (Rle_0_sqr (2 - (a + b * 1))%R) as Q2. unfold Rsqr in *. lra.
    + exists 3%R, 1%R. split; [|intros t [<-|[<-|[]]]; lra]. intros a b. cbn. pose proof (Rle_0_sqr (3 - (a + b * 0))%R) as Q1. pose proof (Rle_0_sqr (4 - (a + b * 1))%R) as Q2. unfold Rsqr in *. lra.
  - destruct (given X) as [X'|]; [|exact I]. destruct HX as [H1 H2]. split; [exists [0; 1]%Z; auto|auto].
  - intros l [<-|[<-|[]]]; cbn; (split; [try exact I; eexists; vm_compute; reflexivity|]); [exact I|].
    split; [reflexivity|]. split; [|split; [|auto]].
    + intros s n [[= <- <-]|[]]. simpl. lra.
    + exists 3. split; auto.
  - exact I.
Qed.
Lemma panel_posed trend likelihood method y X : In trend ["linear"; "linear_raw"; "logistic"] -> In y [ex_yh; ex_yt] -> In X [None; Some ex_Xh] ->
  well_posed_panel ex_ns (posed_config trend likelihood method) [["a"]; ["b"]] [0; 1]%Z y X.
Proof.
  intros HT HY HX. apply panel_posed_with; [exact HT|exact HY|]. destruct HX as [<-|[<-|[]]]; [exact I|]. split; [exact ex_Xh_is_panel|].
  intros col [<-|[<-|[]]]; eexists; vm_compute; reflexivity.
Qed.
Lemma posed_clean trend likelihood method : clean_config (posed_config trend likelihood method).
Proof.
  split; [|exact I]. intros l [<-|[<-|[]]]; (split; [|exact I]); (split; [reflexivity|]); intros H; vm_compute in H;
  repeat (destruct H as [H|H]; [discriminate|]); destruct H.
Qed.
Definition posed_fit trend likelihood y X :=
  fit_forecaster ex_ns sorted_sets keep_all ex_fit_transform ex_svi ex_nuts comp_latent (posed_config trend likelihood "mcmc") (no_objects None) y X.

Lemma panel_example trend likelihood y (X X2 : option (frame R)) : In trend ["linear"; "linear_raw"; "logistic"] -> In y [ex_yh; ex_yt] -> In (X, X2) [(None, None); (None, Some ex_X2); (Some ex_Xh, Some ex_X2)] ->
  exists ob f f' F, posed_fit trend likelihood y X = (ob, Ok f) /\
    forecast_samples ex_ns keep_all ex_transform ex_guide ex_complete (posed_config trend likelihood "mcmc") ob f y X2 (Relative [1; 2]%Z) = (f', Ok F) /\
    full_panel keep_all [["a"]; ["b"]] [2; 3]%Z F.
Proof.
  intros HT HY HX. assert (IX : In X [None; Some ex_Xh]) by (destruct HX as [[= <- _]|[[= <- _]|[[= <- _]|[]]]]; simpl; auto).
  pose proof (panel_posed trend likelihood "mcmc" y X HT HY IX) as W. pose proof (posed_clean trend likelihood "mcmc") as CL.
  assert (Order : forall l, Permutation (sorted_sets l) l) by (intros l; reflexivity).
  destruct (fit_panel_total ex_ns sorted_sets Order keep_all ex_fit_transform ex_svi ex_nuts comp_latent _ (no_objects None) _ _ y X W CL eq_refl) as (ob & tab & p & m & cols & E & _).
  fold (posed_fit trend likelihood y X) in E. unfold infer in E. change (String.eqb (en_method (engine_of (posed_config trend likelihood "mcmc"))) "mcmc") with true in E. cbv iota in E. unfold ex_nuts in E. cbn [bind] in E.
  match type of E with _ = (_, Ok ?g) => set (f := g) in E end. exists ob, f.
  destruct (forecast_panel_total ex_ns sorted_sets Order keep_all ex_fit_transform ex_transform ex_svi ex_nuts comp_latent ex_guide ex_complete _ (no_objects None) ob _ _ y X f X2 (Relative [1; 2]%Z) 1
    W CL eq_refl E eq_refl) as (f' & F & HF & PF).
  - repeat constructor; simpl; intuition discriminate.
  - discriminate.
  - destruct HX as [[= <- <-]|[[= <- <-]|[[= <- <-]|[]]]].
    + split; [reflexivity|]. destruct HY as [<-|[<-|[]]]; apply ex_yh_panel.
    + split; [exists [2; 3]%Z; split; [exact ex_X2_is_panel|auto]|]. intros c [].
    + split; [exists [2; 3]%Z; split; [exact ex_X2_is_panel|auto]|]. intros c Hc. exact Hc.
  - cbn. intuition discriminate.
  - intros m'. cbn. discriminate.
  - exists f', F. auto.
Qed.
