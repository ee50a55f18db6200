(** Tables of components. *)
From Coq Require Import Reals Lra String Bool ZArith List Sorted Permutation Lia.
From Verif.Model Require Import Base Num XFloat Regex Frame Arr Expand Aggregate Scale Prog Likelihood Effect Trend TrendProg Engine Predict Forecaster.
From Verif.Spec Require Import TotalSpec RegexSpec FrameSpec ScaleSpec PredictSpec TrendSpec ProgSpec EffectSpec ForecasterSpec AlignSpec SiteSpec ShapeSpec ComponentSpec OverlapSpec DocsSpec ResponseSpec DrawSpec TableSpec.
From Verif.Facts Require Import BaseFacts NumFacts ForecasterFacts ForecasterInv ForecasterProps EffectExamples ForecasterExamples EngineExamples HistoryExamples AlignExamples PanelRuns ComponentExamples CounterExamples OverlapExamples TotalExamples
  DocsExamples ModelProps EffectFacts AlignForecaster ResponseForecaster ResponseExamples TableFacts TotalSitesExamples.
From Verif.Spec Require Import OverlapSpec DrawSpec.
Import ListNotations.
Local Open Scope string_scope.

Lemma table_no_transformer trend ob f : sites_fit trend "normal" = (ob, Ok f) -> run_transform ex_transform ob Xd = Ok Xd.
Proof.
  intros H. apply fit_forecaster_inv in H. destruct H as (s & ys & p & m & post & _ & HY & HF & _ & ->). unfold fit_data in HF. change (c_hier (total_config trend "normal" "mcmc")) with false in HF. cbv iota in HF.
  apply univariate_fit_inv in HF. destruct HF as (tr0 & t & yt & X1 & Xe & td & data & _ & _ & _ & HR & _). apply run_fit_transform_inv in HR as [_ HR]. cbn [o_transformer no_objects] in HR. destruct HR as [-> _]. reflexivity.
Qed.

(** the listed effects that have a column take part *)
Lemma table_used trend ob f l : sites_fit trend "normal" = (ob, Ok f) -> In l [linear_tv; season; hill_web] -> exists ef, In (l_name l, ef) (p_effects (ft_prepared f)).
Proof.
  intros H HI. apply fit_forecaster_inv in H. destruct H as (s & ys & p & m & post & _ & HY & HF & _ & ->). cbn [ft_prepared].
  assert (NY : f_rows ys <> []). { apply scale_y_index in HY as [HY _]. intros E. unfold index_of in HY. rewrite E in HY. discriminate. }
  destruct (c24_univariate ex_ns sorted_sets keep_all ex_fit_transform _ _ _ _ _ _ _ _ HF eq_refl NY) as (Xe & HC & HK). specialize (HC eq_refl). cbv beta iota in HC.
  assert (K : In (l_name l) (dict_keys (p_effects p))).
  { apply HK. left. exists l. split; [exact HI|]. split; [reflexivity|]. destruct HI as [<-|[<-|[<-|[]]]]; [right; exists "tv"|left; reflexivity|right; exists "web"]; rewrite HC; (split; [simpl; auto|]).
    - apply (proj1 (match_columns_In ["tv"; "web"] (l_regex linear_tv) ["tv"] ltac:(vm_compute; reflexivity) "tv")); simpl; auto.
    - apply (proj1 (match_columns_In ["tv"; "web"] (l_regex hill_web) ["web"] ltac:(vm_compute; reflexivity) "web")); simpl; auto. }
  unfold dict_keys in K. apply in_map_iff in K as ([n ef] & <- & K). exists ef. exact K.
Qed.

Lemma table_columns trend ob f ef cols : sites_fit trend "normal" = (ob, Ok f) -> In ("sat", ef, cols) (p_fitted (ft_prepared f)) -> forall x, In x cols -> x = "web".
Proof.
  intros H. apply fit_forecaster_inv in H. destruct H as (s & ys & p & m & post & _ & HY & HF & _ & ->). cbn [ft_prepared].
  destruct (c40 ex_ns sorted_sets keep_all ex_fit_transform _ _ _ _ _ _ _ _ HF) as (Xe & main & dflt & HC & EQ & F & D). specialize (HC eq_refl eq_refl). cbv beta iota in HC. rewrite EQ. intros I.
  apply in_app_iff in I as [I|I].
  - apply Forall2_In_both in F. destruct (proj2 F _ I) as (l & Hl & NM & C & _). cbn [fe_name fe_cols fst snd] in *.
    assert (E : l = hill_web) by (destruct Hl as [<-|[<-|[<-|[]]]]; [discriminate|discriminate|reflexivity]). subst l. intros x Hx. apply C in Hx. rewrite HC in Hx.
    apply (proj2 (match_columns_In ["tv"; "web"] (l_regex hill_web) ["web"] ltac:(vm_compute; reflexivity) x)) in Hx. destruct Hx as [<-|[]]. reflexivity.
  - destruct D as [[-> _]|(g & -> & NM & _)]; [contradiction|]. destruct I as [->|[]]. discriminate.
Qed.


Lemma table_distinct trend : distinct_names (docs_config trend).
Proof. repeat constructor; simpl; intuition discriminate. Qed.

Lemma table_fitted trend ob f name ef : sites_fit trend "normal" = (ob, Ok f) -> In (name, ef) (p_effects (ft_prepared f)) -> exists cols, In (name, ef, cols) (p_fitted (ft_prepared f)).
Proof.
  intros H. apply fit_forecaster_inv in H. destruct H as (s & ys & p & m & post & _ & HY & HF & _ & ->). cbn [ft_prepared]. intros I.
  apply fit_data_inv in HF. destruct HF as (Xe & td & ya & data & _ & _ & HN & _).
  assert (G : dict_get (p_effects p) name = Some ef) by (apply ModelProps.dict_get_nodup; [eapply non_skipped_nodup; exact HN|exact I]).
  rewrite (non_skipped_list _ _ HN) in G. apply fold_set_get in G. destruct G as [G|G]; [discriminate|].
  apply in_map_iff in G as ([[n e] cols] & EQ & K). cbv [fe_name fe_effect fst snd] in EQ. injection EQ as -> ->. apply filter_In in K as [K _]. exists cols. exact K.
Qed.

Lemma table_posterior trend ob f : sites_fit trend "normal" = (ob, Ok f) -> exists l, ft_posterior f = IMcmc [fun _ _ => 1%R; fun _ _ => 1%R] l.
Proof.
  intros H. apply fit_forecaster_inv in H. destruct H as (s & ys & p & m & post & _ & HY & HF & HI & ->). cbn [ft_posterior].
  unfold infer in HI. change (String.eqb (en_method (engine_of (total_config trend "normal" "mcmc"))) "mcmc") with true in HI. cbv iota in HI. cbn in HI. injection HI as <-. eexists. reflexivity.
Qed.
Lemma table_draws trend ob f m e n j : sites_fit trend "normal" = (ob, Ok f) -> In e (Engine.draws ex_guide ex_complete (engine_of (total_config trend "normal" "mcmc")) (ft_posterior f) m) -> n <> "obs" -> e n j = 1%R.
Proof.
  intros H He N. destruct (table_posterior _ _ _ H) as (l & E). rewrite E in He. cbn in He.
  destruct He as [<-|[<-|[]]]; unfold ex_complete; destruct (String.eqb_spec n "obs"); [contradiction|reflexivity|contradiction|reflexivity].
Qed.
Lemma table_two trend ob f m : sites_fit trend "normal" = (ob, Ok f) -> List.length (Engine.draws ex_guide ex_complete (engine_of (total_config trend "normal" "mcmc")) (ft_posterior f) m) = 2.
Proof. intros H. destruct (table_posterior _ _ _ H) as (l & E). rewrite E. reflexivity. Qed.

Lemma table_example trend : In trend ["linear"; "linear_raw"; "logistic"] -> exists ob f out u,
  sites_fit trend "normal" = (ob, Ok f) /\ frame_wf ex_y /\ clean_config (docs_config trend) /\ distinct_names (docs_config trend) /\ piecewise_options (o_trend ob) 1 (4 / 5) (String.eqb trend "logistic") /\
  ft_scale f = SFloat u /\ factor (docs_config trend) f u /\ map r_time (f_rows ex_y) = [0; 1; 7]%Z /\ increasing (map (fun t => DocsSpec.day (ex_ns t)) [0; 1; 7]%Z) /\ changepoint_count 3 1 (4 / 5) 2 /\ first_date [0; 1; 7]%Z 0 /\
  forecast_all_sites ex_ns keep_all ex_transform ex_guide ex_complete (docs_config trend) ob f ex_y (Some Xd) hd3 = (f, Ok out) /\ run_transform ex_transform ob (supplied (Some Xd) [0; 7; 14]%Z) = Ok Xd /\
  covers Xd [0; 7; 14]%Z /\ frame_wf Xd /\ in_order [0; 7; 14]%Z /\ (forall l, In l [linear_tv; season; hill_web] -> exists ef, In (l_name l, ef) (p_effects (ft_prepared f))) /\
  forall row, In row (f_rows out) -> (r_time row = 0%Z -> cell out row "sat" = Some (u * (10 / 11))%R) /\ (r_time row = 7%Z -> cell out row "sat" = Some (u * (20 / 21))%R) /\ (r_time row = 14%Z -> cell out row "sat" = Some (u * (30 / 31))%R).
Proof.
  intros HT. assert (HT' : In trend ["linear"; "linear_raw"; "flat"; "logistic"]) by (simpl in *; tauto).
  destruct (sites_example trend "normal" Xd hd3 HT') as (ob & f & HF & _ & _ & (out & FA & _) & _).
  { simpl; auto. } { apply total_hill; cbn; intros r v [<-|[<-|[<-|[]]]] [<-|[<-|[]]]; lra. } { cbn. repeat constructor; simpl; intuition discriminate. }
  { split; [exact docs_wf|]. split; [reflexivity|]. split; [|cbn; tauto]. repeat constructor; simpl; intuition discriminate. } { cbn; tauto. }
  assert (SC : exists u, ft_scale f = SFloat u).
  { pose proof HF as H. apply fit_forecaster_inv in H. destruct H as (s & ys & p & m & post & ES & _ & _ & _ & ->). cbn [ft_scale]. change (c_scale (total_config trend "normal" "mcmc")) with (@None scale) in ES. unfold set_y_scales in ES. cbn in ES.
    destruct (Reqb _ _) eqn:Q; [|injection ES as <-; eauto]. exfalso. apply Reqb_true in Q. revert Q. unfold Rabs. repeat match goal with |- context[Rcase_abs ?x] => destruct (Rcase_abs x); try lra end; unfold Rmax; repeat match goal with |- context[Rle_dec ?a ?b] => destruct (Rle_dec a b); try lra end. }
  destruct SC as (u & SC). pose proof (table_no_transformer _ _ _ HF) as NT.
  destruct (named_options ex_ns sorted_sets keep_all ex_fit_transform ex_svi ex_nuts model_latent _ _ _ _ _ _ trend HF eq_refl HT) as [PO _].
  assert (FU : factor (docs_config trend) f u) by (right; split; [reflexivity|exact SC]).
  assert (HW : forall Z, Some Xu = Some Z -> frame_wf Z) by (intros Z [= <-]; exact docs_x_wf).
  exists ob, f, out, u. split; [exact HF|]. split; [exact docs_y_wf|]. split; [apply total_clean|]. split; [apply table_distinct|]. split; [exact PO|]. split; [exact SC|]. split; [exact FU|]. split; [reflexivity|].
  split; [exact docs_days|]. split; [exact docs_count|]. split; [exact docs_first|]. split; [exact FA|]. split; [exact NT|]. split; [exact docs_covers|]. split; [exact docs_wf|]. split; [exact docs_order|].
  split; [intros l Hl; exact (table_used trend ob f l HF Hl)|].
  destruct (c112_univariate ex_ns sorted_sets keep_all ex_fit_transform ex_transform ex_svi ex_nuts model_latent ex_guide ex_complete _ _ _ _ _ _ 1 (4 / 5)%R _ 2 u u HF eq_refl eq_refl docs_y_wf (total_clean _ _ _) (table_distinct trend) PO ltac:(lra) SC FU HW docs_transformer
    [0; 1; 7]%Z 0%Z eq_refl docs_days docs_count docs_first ex_y (Some Xd) hd3 f out 7%Z [0; 7; 14]%Z Xd FA eq_refl eq_refl eq_refl NT docs_covers docs_wf eq_refl ltac:(discriminate) docs_order) as (m & es & HM & ES & _ & _ & CELL).
  intros row Hrow. destruct (CELL row Hrow) as [_ EFF]. clear CELL.
  destruct (table_used trend ob f hill_web HF) as (ef & HU); [simpl; auto|]. change (l_name hill_web) with "sat" in HU.
  assert (IN : exists cols, In ("sat", ef, cols) (p_fitted (ft_prepared f))).
  { eapply table_fitted; eauto. }
  destruct IN as (cols & IN). pose proof (table_columns _ _ _ _ _ HF IN) as HC.
  destruct (EFF _ _ _ IN HU) as (ef0 & CF & A).
  assert (E0 : ef0 = l_effect hill_web).
  { destruct CF as [(effects & regex & [= <-] & I)|[E _]]; [|discriminate]. destruct I as [I|[I|[I|[]]]]; [discriminate|discriminate|now injection I as <- _]. }
  subst ef0.
  assert (W : forall t a w, In (mkRow [] t [a; w]) (f_rows Xd) -> (0 < w)%R -> t = r_time row -> cell out row "sat" = Some (u * (w / (1 + w)))%R).
  { intros t a w Hr Hw Ht. destruct (A _ Hr Ht) as (x & vs & VA & F2 & ->). f_equal. f_equal. subst es. clear -VA F2 HC Hw SC HF.
    assert (G : forall e v, In e (Engine.draws ex_guide ex_complete (engine_of (total_config trend "normal" "mcmc")) (ft_posterior f) m) -> answers e "sat" (fun k => k) (l_effect hill_web) x (r_time row - 0) (trend_at e (String.eqb trend "logistic") 2 1 0 (steps (map (fun t => day (ex_ns t)) [0; 1; 7]%Z) (day (ex_ns (r_time row))))) v -> v = (w / (1 + w))%R).
    { intros e v He AN. cbn [answers l_effect hill_web fst snd] in AN. destruct AN as (z & -> & AN & _).
      unfold values_at in VA. destruct cols as [|c [|c' cols]]; try discriminate. assert (c = "web") by (apply HC; simpl; auto). subst c. cbn in VA. injection VA as <-.
      assert (P1 : forall n j, n <> "obs" -> e n j = 1%R).
      { intros n j N. exact (table_draws trend ob f m e n j HF He N). }
      rewrite AN; [|exact Hw|unfold parameter; rewrite P1 by discriminate; lra]. cbn [modal]. unfold parameter. rewrite !P1 by discriminate. replace (w / 1)%R with w by field.
      rewrite Rpower_Ropp, Rpower_1 by exact Hw. field. lra. }
    assert (L : forall v, In v vs -> v = (w / (1 + w))%R).
    { intros v Hv. apply Forall2_In_both in F2. destruct (proj2 F2 _ Hv) as (e & He & AN). exact (G e v He AN). }
    assert (NV : List.length vs = 2) by (rewrite <- (Forall2_len _ _ _ F2); exact (table_two trend ob f m HF)).
    destruct vs as [|v1 [|v2 [|]]]; try discriminate. rewrite (L v1), (L v2) by (simpl; auto). exact (Rmean_const (w / (1 + w)) 2 ltac:(discriminate)). }
  split; [|split]; intros E.
  - rewrite (W 0%Z 1%R 10%R); [f_equal; lra|cbn; auto|lra|auto].
  - rewrite (W 7%Z 2%R 20%R); [f_equal; lra|cbn; auto|lra|auto].
  - rewrite (W 14%Z 3%R 30%R); [f_equal; lra|cbn; auto|lra|auto].
Qed.

(** * Two series *)
Definition table_ok (d : objects (TS := bool) * res (prepared * prog arr)) (s : scale) : Prop :=
  match d with
  | (ob, Ok (p, m)) => map fst (p_effects p) = ["all"] /\ max_time (map snd (p_index p)) = Ok 1%Z /\
     index_series (mkLab 1 (p_index p) true s false) = [["a"]; ["b"]] /\
     match infer ex_svi ex_nuts parts_latent (engine_of pw_config) m with
     | Ok post => is_some (match parts_forecast ob (mkFitted s p post) with (_, Ok out) => Some out | _ => None end) = true
     | _ => False
     end
  | _ => False
  end.
Lemma table_runs : exists ob f f' out, parts_fit = (ob, Ok f) /\ parts_forecast ob f = (f', Ok out) /\
  map fst (p_effects (ft_prepared f)) = ["all"] /\ max_time (map snd (p_index (ft_prepared f))) = Ok 1%Z /\ index_series (labeller_of pw_config f ex_yh) = [["a"]; ["b"]] /\
  exists k1 k2, ft_scale f = STable [(["a"], k1); (["b"], k2)].
Proof.
  assert (SE : exists k1 k2, set_y_scales None ex_yh = Ok (pw_scale k1 k2)) by (do 2 eexists; reflexivity). destruct SE as (k1 & k2 & SE).
  assert (SY : exists v0 v1 v2 v3, scale_y (discrete pw_config) (pw_scale k1 k2) ex_yh = Ok (two_by_two v0 v1 v2 v3)) by (do 4 eexists; reflexivity).
  destruct SY as (v0 & v1 & v2 & v3 & SY).
  destruct (pw_data_eq sorted_sets (pw_scale k1 k2) (Some ex_Xh) v0 v1 v2 v3) as (a & b & rates & o1 & o2 & loc1 & loc2 & E).
  assert (OK : table_ok (fit_data ex_ns sorted_sets keep_all ex_fit_transform pw_config (no_objects None) (pw_scale k1 k2) (two_by_two v0 v1 v2 v3) (Some ex_Xh)) (pw_scale k1 k2)).
  { rewrite E. clear. vm_compute. repeat split; eauto. }
  unfold parts_fit, fit_forecaster. change (c_scale pw_config) with (@None scale). rewrite SE. cbn [bind]. rewrite SY. cbn [bind].
  unfold table_ok in OK. destruct (fit_data _ _ _ _ _ _ _ _ _) as [ob [[p m]|]]; [|destruct OK]. destruct OK as (O1 & O2 & O3 & O4). cbn [bind].
  destruct (infer _ _ _ _ m) as [post|]; [|destruct O4]. cbn [bind]. destruct (parts_forecast ob _) as [f' [out|]] eqn:F; [|discriminate].
  exists ob, (mkFitted (pw_scale k1 k2) p post), f', out. split; [reflexivity|]. split; [exact F|]. split; [exact O1|]. split; [exact O2|]. split; [exact O3|].
  exists k1, k2. reflexivity.
Qed.
Lemma table_panel_example : frame_wf ex_yh /\ balanced ex_yh /\ (forall r, In r (f_rows ex_yh) -> ~ In "__total" (r_path r)) /\ clean_config pw_config /\ distinct_names pw_config /\
  copyable [] (f_cols ex_Xh) (bottom_series ex_Xh) /\ increasing (map (fun t => DocsSpec.day (ex_ns t)) [0; 1]%Z) /\ changepoint_count 2 25 (4 / 5) 1 /\ fh_to_index ex_yh (Relative [1; 2]%Z) = Ok [2; 3]%Z /\ covers ex_X2 [2; 3]%Z /\ in_order [2; 3]%Z /\
  exists ob f f' out u, parts_fit = (ob, Ok f) /\ parts_forecast ob f = (f', Ok out) /\ piecewise_options (o_trend ob) 25 (4 / 5) false /\ map fst (p_effects (ft_prepared f)) = ["all"] /\
    max_time (map snd (p_index (ft_prepared f))) = Ok 1%Z /\ index_series (labeller_of pw_config f ex_yh) = bottom_series ex_X2 /\ bottom_series ex_X2 = [["a"]; ["b"]] /\ forall q, In q (bottom_series ex_X2) -> scale_of (ft_scale f) q = Some (u q).
Proof.
  split; [exact yh_wf|]. split; [exact yh_balanced|]. split; [exact yh_no_total|]. split; [exact parts_clean|]. split; [repeat constructor; simpl; intuition discriminate|].
  split; [exact panel_copyable|]. split; [exact docs_days2|]. split; [exact docs_count2|]. split; [reflexivity|]. split; [apply X2_covers|]. split; [repeat constructor|].
  destruct table_runs as (ob & f & f' & out & HF & FO & PE & MT & IS & k1 & k2 & SC). exists ob, f, f', out, (fun q => match q with ["a"] => k1 | _ => k2 end).
  destruct (named_options ex_ns sorted_sets keep_all ex_fit_transform ex_svi ex_nuts parts_latent _ _ _ _ _ _ "linear_raw" HF eq_refl ltac:(simpl; auto)) as [PO _].
  split; [exact HF|]. split; [exact FO|]. split; [exact PO|]. split; [exact PE|]. split; [exact MT|].
  split; [exact IS|]. split; [reflexivity|]. rewrite SC. intros q [<-|[<-|[]]]; reflexivity.
Qed.
