(** Advertising which is raised, and advertising which starts. *)
From Coq Require Import Reals Lra String Bool ZArith List Sorted Permutation Lia.
From Verif.Model Require Import Base Num XFloat Regex Frame Arr Expand Aggregate Scale Prog Likelihood Effect Trend TrendProg Engine Predict Forecaster.
From Verif.Spec Require Import RegexSpec FrameSpec ScaleSpec TrendSpec ProgSpec EffectSpec ForecasterSpec AlignSpec SiteSpec ShapeSpec TotalSpec OverlapSpec ResponseSpec UpwardSpec.
From Verif.Facts Require Import BaseFacts NumFacts ForecasterFacts ForecasterInv ForecasterProps EffectExamples ForecasterExamples EngineExamples HistoryExamples AlignExamples ComponentExamples CounterExamples OverlapExamples TotalExamples TotalForecast DocsTotal
  DocsExamples EffectFacts ResponseForecaster ResponseExamples CellExamples.
Import ListNotations.
Local Open Scope string_scope.

(** more of both on day 7 *)
Definition Xmore : frame R := mkFrame 0 ["tv"; "web"] [mkRow [] 0 [1; 10]; mkRow [] 7 [5; 40]; mkRow [] 14 [3; 30]]%R.
(** nothing on the web on day 7 *)
Definition Xnone : frame R := mkFrame 0 ["tv"; "web"] [mkRow [] 0 [1; 10]; mkRow [] 7 [2; 0]; mkRow [] 14 [3; 30]]%R.

Lemma plan_wf X : In X [Xd; Xmore; Xnone] -> frame_wf X /\ covers X [0; 7; 14]%Z /\ f_levels X = 0.
Proof. intros [<-|[<-|[<-|[]]]]; (split; [intros r [<-|[<-|[<-|[]]]]; split; reflexivity|split; reflexivity]). Qed.
Lemma plan_run trend : In trend ["linear"; "linear_raw"; "logistic"] ->
  exists ob f, total_fit trend "normal" "mcmc" = (ob, Ok f) /\ (forall X, In X [Xd; Xmore; Xnone] -> exists m o tr, predict_model ex_ns keep_all ex_transform (docs_config trend) ob f ex_y (Some X) hd3 = Ok m /\ run one [] m = Ok (o, tr)).
Proof.
  intros HT. assert (HT' : In trend ["linear"; "linear_raw"; "flat"; "logistic"]) by (simpl in *; tauto). assert (HL : In "normal" ["normal"; "gamma"; "negbinomial"]) by (simpl; auto).
  pose proof (total_posed trend "normal" "mcmc" HT' HL) as W. pose proof (total_clean trend "normal" "mcmc") as CL.
  assert (HD : hill_data (docs_config trend) (Some Xu)) by (apply total_hill; cbn; intros r v [<-|[<-|[<-|[]]]] [<-|[<-|[]]]; lra).
  destruct (fit_total ex_ns sorted_sets keep_all ex_fit_transform ex_svi ex_nuts comp_latent _ (no_objects None) ex_y (Some Xu) W CL HD eq_refl) as (ob & s & p & m & E & _).
  fold (total_fit trend "normal" "mcmc") in E. unfold infer in E. change (String.eqb (en_method (engine_of (total_config trend "normal" "mcmc"))) "mcmc") with true in E. cbv iota in E. unfold ex_nuts in E. cbn [bind] in E.
  match type of E with _ = (_, Ok ?g) => set (f := g) in E end. exists ob, f. split; [exact E|]. intros X HX.
  assert (HD2 : hill_data (docs_config trend) (Some X)) by (apply total_hill; destruct HX as [<-|[<-|[<-|[]]]]; cbn; intros r v [<-|[<-|[<-|[]]]] [<-|[<-|[]]]; lra).
  destruct (predict_total ex_ns sorted_sets keep_all ex_fit_transform ex_transform ex_svi ex_nuts comp_latent _ (no_objects None) ob ex_y (Some Xu) f (Some X) hd3 7 W CL HD eq_refl E eq_refl) as (pm & PM & RU).
  - cbn. repeat constructor; simpl; intuition discriminate.
  - exact HD2.
  - destruct HX as [<-|[<-|[<-|[]]]]; (split; [|cbn; tauto]; split; [intros r [<-|[<-|[<-|[]]]]; split; reflexivity|]; split; [reflexivity|]; split; [|cbn; tauto]; repeat constructor; simpl; intuition discriminate).
  - destruct (RU one) as (o & tr & RO); [split; intros; unfold one; lra|]. exists pm, o, tr. auto.
Qed.
Lemma plan_transformed trend ob f X : total_fit trend "normal" "mcmc" = (ob, Ok f) -> run_transform ex_transform ob X = Ok X.
Proof.
  intros H. apply fit_forecaster_inv in H. destruct H as (s & ys & p & m & post & _ & HY & HF & _ & ->). unfold fit_data in HF. change (c_hier (total_config trend "normal" "mcmc")) with false in HF. cbv iota in HF.
  apply univariate_fit_inv in HF. destruct HF as (tr0 & t & yt & X1 & Xe & td & data & _ & _ & _ & HR & _). apply run_fit_transform_inv in HR as [_ HR]. cbn [o_transformer no_objects] in HR. destruct HR as [-> _]. reflexivity.
Qed.

Definition before_raise : row R := mkRow [] 7 [2; 20]%R.
Definition after_raise : row R := mkRow [] 7 [5; 40]%R.
Definition no_web : row R := mkRow [] 7 [2; 0]%R.
Lemma value_more col u1 u2 : FrameSpec.value_of ["tv"; "web"] (r_vals before_raise) col = Some u1 -> FrameSpec.value_of ["tv"; "web"] (r_vals after_raise) col = Some u2 -> (0 < u1 <= u2)%R.
Proof. cbn. destruct (String.eqb col "tv"); [intros [= <-] [= <-]; lra|]. destruct (String.eqb col "web"); [intros [= <-] [= <-]; lra|discriminate]. Qed.
Lemma values_nth X r cols : forall x k u, values_at X r cols x -> nth_error x k = Some u -> exists col, nth_error cols k = Some col /\ FrameSpec.value_of (f_cols X) (r_vals r) col = Some u.
Proof.
  unfold values_at. intros x k u V H. pose proof (map_nth_error Some k x H) as Q. rewrite <- V in Q. destruct (nth_error cols k) as [col|] eqn:E; [|exfalso; apply nth_error_None in E; assert (k < List.length (map (FrameSpec.value_of (f_cols X) (r_vals r)) cols))%nat by (apply nth_error_Some; congruence); rewrite map_length in *; lia].
  exists col. split; [reflexivity|]. rewrite (map_nth_error _ _ _ E) in Q. now injection Q.
Qed.
(** day 7 with more of both *)
Lemma plan_raised trend : forall name ef0 cols v x1 x2, configured (docs_config trend) name ef0 -> values_at Xd before_raise cols x1 -> values_at Xmore after_raise cols x2 -> raises one name v ef0 x1 x2.
Proof.
  intros name ef0 cols v x1 x2 CF V1 V2.
  assert (G : forall k u1 u2, nth_error x1 k = Some u1 -> nth_error x2 k = Some u2 -> (0 < u1 <= u2)%R).
  { intros k u1 u2 H1 H2. destruct (values_nth _ _ _ _ _ _ V1 H1) as (col & C1 & A1). destruct (values_nth _ _ _ _ _ _ V2 H2) as (col' & C2 & A2). rewrite C1 in C2. injection C2 as <-. exact (value_more _ _ _ A1 A2). }
  assert (LIN : forall d b, raises one name v (Linear Additive d b) x1 x2).
  { intros d b. right. split; [exact I|]. intros k u1 u2 H1 H2. right. left. split; [unfold parameter, one; lra|now apply (G k)]. }
  destruct CF as [(effects & regex & [= <-] & HI)|[_ [[=]|[_ ->]]]]; [|apply LIN].
  destruct HI as [HI|[HI|[HI|[]]]]; injection HI as _ <- _.
  - right. split; [exact I|]. intros k u1 u2 H1 H2. right. left. split; [unfold parameter, one; lra|now apply (G k)].
  - right. exact I.
  - right. split; [exact I|]. unfold parameter, one. do 3 (split; [lra|]). intros u1 u2 -> ->. now apply (G 0).
Qed.
Lemma plan_columns trend ob f ef cols : total_fit trend "normal" "mcmc" = (ob, Ok f) -> In ("sat", ef, cols) (p_fitted (ft_prepared f)) -> cols = ["web"].
Proof.
  intros H. apply fit_forecaster_inv in H. destruct H as (s & ys & p & m & post & _ & HY & HF & _ & ->). unfold fit_data in HF. change (c_hier (total_config trend "normal" "mcmc")) with false in HF. cbv iota in HF. cbn [ft_prepared].
  apply univariate_fit_inv in HF. destruct HF as (tr0 & t & yt & X1 & Xe & td & data & _ & _ & _ & HR & HL & _ & _ & HE & _). apply run_fit_transform_inv in HR as [_ HR]. cbn [o_transformer no_objects] in HR. destruct HR as [_ ->].
  apply loc_index_inv in HL as (_ & C1 & _ & _). change (f_cols Xu) with ["tv"; "web"] in C1. unfold fit_effects in HE. destruct (mapM (fit_one sorted_sets (Some Xe) (scale_number s)) _) as [main|] eqn:M; [|discriminate]. cbn [bind] in HE.
  intros I. apply mapM_ok in M. apply Forall2_In_both in M. assert (IM : In ("sat", ef, cols) main).
  { destruct (uncovered _ main); [injection HE as HE; rewrite <- HE in I; exact I|]. inv_bind HE. destruct (fit _ _ _ _) as [e' [ex|]]; [discriminate|]. injection HE as HE. rewrite <- HE in I. apply in_app_iff in I as [I|[I|[]]]; [exact I|discriminate]. }
  destruct (proj2 M _ IM) as (l & Hl & Q). destruct Hl as [<-|[<-|[<-|[]]]]; unfold fit_one, linear_tv, season, hill_web in Q; cbv beta iota in Q.
  - exfalso. destruct (match_columns _ _); [|discriminate]. cbn [bind] in Q. destruct (select_columns _ _ _); [|discriminate]. cbn [bind] in Q. destruct (fit _ _ _ _) as [e' [ex|]]; discriminate.
  - exfalso. destruct (match_columns _ _); [|discriminate]. cbn [bind] in Q. destruct (select_columns _ _ _); [|discriminate]. cbn [bind] in Q. destruct (fit _ _ _ _) as [e' [ex|]]; discriminate.
  - rewrite C1 in Q. change (match_columns ["tv"; "web"] (Some "web")) with (Ok ["web"]) in Q. cbn [bind] in Q. destruct (select_columns _ _ _); [|discriminate]. cbn [bind] in Q. destruct (fit _ _ _ _) as [e' [ex|]]; [discriminate|]. now injection Q.
Qed.
(** day 7 without and with the web *)
Lemma plan_started trend ob f ef ef0 cols v x1 x2 : total_fit trend "normal" "mcmc" = (ob, Ok f) -> In ("sat", ef, cols) (p_fitted (ft_prepared f)) -> configured (docs_config trend) "sat" ef0 ->
  values_at Xnone no_web cols x1 -> values_at Xd before_raise cols x2 -> starts one "sat" v ef0 x1 x2.
Proof.
  intros HF IN CF V1 V2. assert (E0 : ef0 = l_effect hill_web).
  { destruct CF as [(effects & regex & [= <-] & I)|[E _]]; [|discriminate]. destruct I as [I|[I|[I|[]]]]; [discriminate|discriminate|now injection I as <- _]. }
  subst ef0. pose proof (plan_columns _ _ _ _ _ HF IN) as ->. unfold values_at in *.
  destruct x1 as [|a [|]]; try discriminate. destruct x2 as [|b [|]]; try discriminate. cbn in V1, V2. injection V1 as <-. injection V2 as <-.
  cbn [starts l_effect hill_web fst snd]. split; [exact I|]. unfold parameter, one. do 2 (split; [lra|]). exists 20%R. repeat split. lra.
Qed.
(** the other effects see the same *)
Lemma plan_columns_other trend ob f other ef cols x1 x2 : total_fit trend "normal" "mcmc" = (ob, Ok f) -> other <> "sat" -> In (other, ef, cols) (p_fitted (ft_prepared f)) ->
  values_at Xnone no_web cols x1 -> values_at Xd before_raise cols x2 -> x1 = x2.
Proof.
  intros H NE IN V1 V2. assert (NW : forall col, In col cols -> col = "tv").
  { revert IN. clear V1 V2. apply fit_forecaster_inv in H. destruct H as (s & ys & p & m & post & _ & HY & HF & _ & ->). unfold fit_data in HF. change (c_hier (total_config trend "normal" "mcmc")) with false in HF. cbv iota in HF. cbn [ft_prepared].
    apply univariate_fit_inv in HF. destruct HF as (tr0 & t & yt & X1 & Xe & td & data & _ & _ & _ & HR & HL & _ & _ & HE & _). apply run_fit_transform_inv in HR as [_ HR]. cbn [o_transformer no_objects] in HR. destruct HR as [_ ->].
    apply loc_index_inv in HL as (_ & C1 & _ & _). change (f_cols Xu) with ["tv"; "web"] in C1. change (effects_of (total_config trend "normal" "mcmc")) with [linear_tv; season; hill_web] in HE. unfold fit_effects in HE. cbn [mapM] in HE.
    unfold fit_one, linear_tv, season, hill_web in HE. cbv beta iota in HE. rewrite C1 in HE. change (match_columns ["tv"; "web"] (Some "tv")) with (Ok ["tv"]) in HE. change (match_columns ["tv"; "web"] (Some "web")) with (Ok ["web"]) in HE. change (match_columns ["tv"; "web"] (Some "^$")) with (Ok (@nil string)) in HE. change (match_columns ["tv"; "web"] None) with (Ok (@nil string)) in HE.
    cbn [bind] in HE. repeat (first [match type of HE with context [select_columns ?a ?b ?c] => destruct (select_columns a b c); [|discriminate] end | match type of HE with context [match fit ?a ?b ?c ?d with _ => _ end] => destruct (fit a b c d) as [? [?|]]; [discriminate|] end]; cbn [bind] in HE).
    unfold uncovered in HE. cbn [map concat app filter] in HE. try change (filter _ ["tv"; "web"]) with (@nil string) in HE. intros IN.
    cbn in HE. injection HE as HE. rewrite <- HE in IN. destruct IN as [IN|[IN|[IN|[]]]]; injection IN as <- <- <-; cbn; try (intros col [<-|[]]; reflexivity); try (intros col []); congruence. }
  clear H NE IN. unfold values_at in *. revert x1 x2 V1 V2. induction cols as [|col cols IH]; intros [|a x1] [|b x2] V1 V2; try discriminate; [reflexivity|].
  cbn [map] in V1, V2. rewrite (NW col) in V1, V2 by now left. injection V1 as A V1. injection V2 as B V2. cbn in A, B. f_equal; [congruence|]. apply IH; auto. intros q Hq. apply NW. now right.
Qed.

(** * two series: more tv for the first series on the first day *)
Definition less_tv : row R := mkRow ["a"] 2 [1; 0]%R.
Definition more_tv : row R := mkRow ["a"] 2 [5; 0]%R.
Lemma panel_raised : forall name ef0 cols v x1 x2, configured two_config name ef0 -> Forall2 (seen [] (bottom_series ex_X2) ex_X2 less_tv) cols x1 -> Forall2 (seen [] (bottom_series ex_X3) ex_X3 more_tv) cols x2 -> raises one name v ef0 x1 x2.
Proof.
  intros name ef0 cols v x1 x2 CF V1 V2.
  assert (G : forall k u1 u2, nth_error x1 k = Some u1 -> nth_error x2 k = Some u2 -> (u1 <= u2)%R).
  { clear CF. intros k u1 u2 H1 H2. revert cols x1 x2 V1 V2 H1 H2. induction k as [|k IH]; intros cols [|a x1] [|b x2] V1 V2 H1 H2; try discriminate; inversion V1; inversion V2; subst; [|match goal with A : _ :: _ = _ :: _ |- _ => injection A as _ -> end; eapply IH; eauto].
    cbn in H1, H2. injection H1 as ->. injection H2 as ->. match goal with A : _ :: _ = _ :: _ |- _ => injection A as -> _ end.
    repeat match goal with A : seen _ _ _ _ _ _ |- _ => destruct A as [(_ & [] & _)|(? & ? & ? & _ & ? & ? & ?)] end.
    change (bottom_series ex_X2) with [["a"]; ["b"]] in *. change (bottom_series ex_X3) with [["a"]; ["b"]] in *. cbn [f_cols ex_X2 ex_X3 In] in *.
    repeat match goal with A : _ \/ _ |- _ => destruct A as [A|A] | A : False |- _ => destruct A | A : _ /\ _ |- _ => destruct A end; subst; try congruence; try (match goal with A : _ = _ ++ _ |- _ => vm_compute in A; discriminate end); try lra;
    repeat match goal with A : FrameSpec.value_of _ _ _ = Some _ |- _ => cbn in A; injection A as A end; subst; try lra; match goal with A : _ <> r_path _ |- _ => now contradiction A end. }
  assert (LIN : forall d b, raises one name v (Linear Additive d b) x1 x2).
  { intros d b. right. split; [exact I|]. intros k u1 u2 H1 H2. right. left. split; [unfold parameter, one; lra|now apply (G k)]. }
  destruct CF as [(effects & regex & [= <-] & HI)|[_ [[=]|[_ ->]]]]; [|apply LIN].
  destruct HI as [HI|[HI|[]]]; injection HI as _ <- _; apply LIN.
Qed.
