(** A problem that is well posed: a trend with changepoints, a Fourier seasonality, a linear effect and a
    Hill effect. *)
From Coq Require Import Reals Lra String Bool ZArith List Sorted Permutation Lia.
From Verif.Model Require Import Base Num XFloat Regex Frame Arr Expand Aggregate Scale Prog Likelihood Effect Trend TrendProg Engine Predict Forecaster.
From Verif.Spec Require Import FrameSpec ScaleSpec TrendSpec ProgSpec EffectSpec ForecasterSpec AlignSpec SiteSpec ShapeSpec TotalSpec.
From Verif.Facts Require Import NumFacts ForecasterFacts EffectExamples ForecasterExamples EngineExamples HistoryExamples ComponentExamples TotalForecast.
Import ListNotations.
Local Open Scope string_scope.

Definition hill_web : listed := ("sat", Hill Additive (DUser 1) (DUser 2) (DUser 3) base_init, Some "web").
Definition total_config (trend likelihood method : string) : config :=
  mkConfig false (TrendName trend) 1 (4 / 5) (1 / 1000) (1 / 10) (1 / 5) (11 / 10) (Some [linear_tv; season; hill_web]) None (1 / 20) likelihood None None 1
    method None 10 0 2 5 1.

Lemma total_posed_with trend likelihood method X : covers X [0; 1; 7]%Z -> f_cols X = ["tv"; "web"] -> In trend ["linear"; "linear_raw"; "flat"; "logistic"] -> In likelihood ["normal"; "gamma"; "negbinomial"] ->
  well_posed ex_ns (total_config trend likelihood method) ex_y (Some X).
Proof.
  intros HX HC HT HL. constructor.
  - reflexivity.
  - exact HL.
  - split; [intros r [<-|[<-|[<-|[]]]]; split; reflexivity|]. repeat split. simpl. lia.
  - cbn. repeat constructor.
  - cbn [ex_y f_rows map r_time]. unfold days_since_epoch, increasing. change (ex_ns 0 / 1000000000)%Z with 0%Z. change (ex_ns 1 / 1000000000)%Z with 86400%Z. change (ex_ns 7 / 1000000000)%Z with 604800%Z.
    repeat first [apply SSorted_nil | apply SSorted_cons | apply Forall_nil | apply Forall_cons]; lra.
  - simpl. lra.
  - simpl. lra.
  - exists trend. split; [reflexivity|]. simpl in HT. destruct HT as [<-|[<-|[<-|[<-|[]]]]]; [left; simpl; tauto..|].
    right. split; [reflexivity|]. exists (135 / 43)%R, (30 / 43)%R. split.
    + intros a b. cbn. pose proof (Rle_0_sqr (a - 135 / 43 + 8 / 3 * (b - 30 / 43))%R) as Q1. pose proof (Rle_0_sqr (b - 30 / 43)%R) as Q2. unfold Rsqr in *. lra.
    + intros r [<-|[<-|[<-|[]]]]; cbn; lra.
  - cbn [c_scale total_config]. right. exists (mkRow [] 0 [3]%R), 3%R. simpl. split; [auto|]. split; [auto|]. lra.
  - exact HX.
  - cbn [effects_of c_effects total_config exog_cols]. rewrite HC. intros l [<-|[<-|[<-|[]]]].
    + exists ["tv"]. split; [vm_compute; reflexivity|]. right. discriminate.
    + exists []. split; [reflexivity|]. right. cbn. split; [reflexivity|]. split; [|split; [|auto]].
      * intros s n [[= <- <-]|[]]. simpl. lra.
      * exists 3. split; auto.
    + exists ["web"]. split; [vm_compute; reflexivity|]. right. reflexivity.
  - cbn [exog_cols]. rewrite HC. intros cs HN _ H. destruct cs as [|x cs]; [congruence|]. exfalso. destruct (proj1 (H x) (or_introl eq_refl)) as [Hx U].
    assert (M : forall l cols, In l [linear_tv; season; hill_web] -> match_columns ["tv"; "web"] (l_regex l) = Ok cols -> ~ In x cols).
    { intros l cols Hl E I. apply (ForecasterFacts.match_columns_In _ _ _ E x) in I. apply (U l); [exact Hl|tauto]. }
    destruct Hx as [<-|[<-|[]]].
    + apply (M linear_tv ["tv"]); [simpl; auto|vm_compute; reflexivity|simpl; auto].
    + apply (M hill_web ["web"]); [simpl; auto|vm_compute; reflexivity|simpl; auto].
Qed.

Lemma total_posed trend likelihood method : In trend ["linear"; "linear_raw"; "flat"; "logistic"] -> In likelihood ["normal"; "gamma"; "negbinomial"] ->
  well_posed ex_ns (total_config trend likelihood method) ex_y (Some Xu).
Proof.
  apply total_posed_with; [|reflexivity]. split; [intros r [<-|[<-|[<-|[]]]]; split; reflexivity|]. split; [reflexivity|]. split; [|cbn; tauto].
  repeat constructor; simpl; intuition discriminate.
Qed.

Lemma total_clean trend likelihood method : clean_config (total_config trend likelihood method).
Proof.
  split; [|exact I]. intros l [<-|[<-|[<-|[]]]]; (split; [|exact I]); (split; [reflexivity|]); intros H; vm_compute in H;
  repeat (destruct H as [H|H]; [discriminate|]); destruct H.
Qed.
Lemma total_hill trend likelihood method X : (forall r v, In r (f_rows X) -> In v (r_vals r) -> (0 <= v)%R) -> hill_data (total_config trend likelihood method) (Some X).
Proof.
  intros H. assert (G : forall x, non_negative X x).
  { intros x r v Hr Hv. apply (H r v Hr). clear -Hv. revert Hv. generalize (r_vals r) as vs. induction (f_cols X) as [|c cs IH]; intros [|w vs]; cbn; try discriminate.
    destruct (String.eqb x c); [intros [= ->]; auto|]. intros Hv. right. auto. }
  split; intros; apply G.
Qed.

Definition total_fit trend likelihood method :=
  fit_forecaster ex_ns sorted_sets keep_all ex_fit_transform ex_svi ex_nuts comp_latent (total_config trend likelihood method) (no_objects None) ex_y (Some Xu).
Lemma total_example trend likelihood : In trend ["linear"; "linear_raw"; "flat"; "logistic"] -> In likelihood ["normal"; "gamma"; "negbinomial"] ->
  exists ob f F, total_fit trend likelihood "mcmc" = (ob, Ok f) /\
    forecast_samples ex_ns keep_all ex_transform ex_guide ex_complete (total_config trend likelihood "mcmc") ob f ex_y (Some Xf) (Relative [1; 2]%Z) = (f, Ok F) /\
    Permutation (map r_time (f_rows F)) [8; 9]%Z.
Proof.
  intros HT HL. pose proof (total_posed trend likelihood "mcmc" HT HL) as W. pose proof (total_clean trend likelihood "mcmc") as CL.
  assert (HD : hill_data (total_config trend likelihood "mcmc") (Some Xu)) by (apply total_hill; cbn; intros r v [<-|[<-|[<-|[]]]] [<-|[<-|[]]]; lra).
  assert (HD2 : hill_data (total_config trend likelihood "mcmc") (Some Xf)) by (apply total_hill; cbn; intros r v [<-|[<-|[]]] [<-|[<-|[]]]; lra).
  destruct (fit_total ex_ns sorted_sets keep_all ex_fit_transform ex_svi ex_nuts comp_latent _ (no_objects None) ex_y (Some Xu) W CL HD eq_refl) as (ob & s & p & m & E & _).
  fold (total_fit trend likelihood "mcmc") in E. unfold infer in E. change (String.eqb (en_method (engine_of (total_config trend likelihood "mcmc"))) "mcmc") with true in E. cbv iota in E. unfold ex_nuts in E. cbn [bind] in E.
  match type of E with _ = (_, Ok ?g) => set (f := g) in E end. exists ob, f.
  destruct (forecast_total ex_ns sorted_sets keep_all ex_fit_transform ex_transform ex_svi ex_nuts comp_latent ex_guide ex_complete _ (no_objects None) ob ex_y (Some Xu) f (Some Xf) (Relative [1; 2]%Z) 7
    W CL HD eq_refl E) as (F & HF & PF); auto.
  - repeat constructor; simpl; intuition discriminate.
  - split; [|cbn; tauto]. split; [intros r [<-|[<-|[]]]; split; reflexivity|]. split; [reflexivity|]. split; [|cbn; tauto]. repeat constructor; simpl; intuition discriminate.
  - cbn. intuition discriminate.
  - intros m'. split; [cbn; discriminate|]. intros e He. cbn in He. split; [intros l _ _|discriminate].
    destruct He as [<-|[<-|[]]]; unfold ex_complete; destruct (String.eqb _ "obs") eqn:Q; try (cbn; lra); exfalso; apply String.eqb_eq in Q; destruct (l_name l) as [|? [|? [|? [|? ?]]]]; discriminate.
  - eauto.
Qed.

(** draws of a panel's forecast *)
Definition panel_fit := fit_forecaster ex_ns sorted_sets keep_all ex_fit_transform ex_svi ex_nuts ex_latent hier_config (no_objects None) ex_yh (Some ex_Xh).
Lemma panel_runs : exists ob f m, panel_fit = (ob, Ok f) /\
  predict_model ex_ns keep_all ex_transform hier_config ob f ex_yh (Some ex_X2) (Relative [1; 2]%Z) = Ok m /\
  List.length (draws ex_guide ex_complete (engine_of hier_config) (ft_posterior f) m) = 6 /\
  forall e, In e (draws ex_guide ex_complete (engine_of hier_config) (ft_posterior f) m) -> exists o, yields e m o.
Proof.
  assert (K : match panel_fit with
              | (ob, Ok f) =>
                  match predict_model ex_ns keep_all ex_transform hier_config ob f ex_yh (Some ex_X2) (Relative [1; 2]%Z) with
                  | Ok m => let ds := draws ex_guide ex_complete (engine_of hier_config) (ft_posterior f) m in
                            (List.length ds =? 6)%nat && forallb (fun e => match run e [] m with Ok _ => true | Err _ => false end) ds
                  | Err _ => false
                  end
              | _ => false end = true) by (vm_compute; reflexivity).
  destruct panel_fit as [ob [f|]]; [|discriminate]. destruct (predict_model _ _ _ _ _ _ _ _ _) as [m|] eqn:E; [|discriminate]. cbv zeta in K. apply andb_true_iff in K as [K1 K2].
  exists ob, f, m. split; [reflexivity|]. split; [exact E|]. split; [now apply Nat.eqb_eq|]. intros e He. apply (proj1 (forallb_forall _ _) K2) in He.
  destruct (run e [] m) as [[o tr]|] eqn:Er; [|discriminate]. exists o. apply ProgFacts.eval_yields. apply ProgFacts.run_eval in Er as (l & El & _). eauto.
Qed.
Lemma panel_clean : clean_config hier_config.
Proof.
  split; [|exact I]. intros l [<-|[]]. split; [|exact I]. split; [reflexivity|]. intros H. vm_compute in H.
  repeat (destruct H as [H|H]; [discriminate|]). destruct H.
Qed.
