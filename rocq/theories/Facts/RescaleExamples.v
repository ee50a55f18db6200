(** Exogenous columns in other units: concrete forecasters. *)
From Coq Require Import Reals Ascii String Bool ZArith List Lra Lia.
From Verif.Model Require Import Base Num XFloat Regex Frame Arr Expand Aggregate Scale Predict Prog Likelihood Trend Effect
  TrendProg Engine Forecaster.
From Verif.Spec Require Import FrameSpec ScaleSpec ProgSpec PredictSpec ForecasterSpec AlignSpec ShapeSpec SiteSpec ComponentSpec CounterSpec RescaleSpec.
From Verif.Facts Require Import NumFacts EffectExamples ForecasterExamples EngineExamples HistoryExamples AlignExamples ComponentExamples CounterExamples ForecasterInv RescaleForecaster.
Import ListNotations.
Local Open Scope string_scope.

(** money in thousands, visits in pairs *)
Definition units (c : string) : R := (if prefix "tv" c then 1 / 1000 else 2)%R.
Lemma units_nonzero c : units c <> 0%R.
Proof. unfold units. destruct (prefix "tv" c); lra. Qed.
Lemma units_copies : copies_alike units.
Proof.
  intros c i. unfold units. assert (E : prefix "tv" (c ++ "_dup_" ++ String.concat "-" i) = prefix "tv" c); [|now rewrite E].
  destruct c as [|a [|b c]]; [reflexivity| |].
  - cbn [append prefix]. destruct (Ascii.ascii_dec "t"%char a); reflexivity.
  - cbn [append prefix]. destruct (Ascii.ascii_dec "t"%char a); [|reflexivity]. destruct (Ascii.ascii_dec "v"%char b); [|reflexivity]. destruct c; reflexivity.
Qed.

(** a linear effect of money, a logarithmic one of visits *)
Definition mix_config (likelihood : string) : config :=
  mkConfig false (TrendName "flat") 25 (4 / 5) (1 / 1000) (1 / 10) (1 / 5) (11 / 10)
    (Some [linear_tv; ("web", Log Additive (DUser 0) (DUser 1) base_init, Some "web")]) None (1 / 20) likelihood (Some (SFloat 2)) None 1
    "mcmc" None 10 0 2 5 1.
Lemma mix_clean likelihood : clean_config (mix_config likelihood).
Proof.
  split; [|exact I]. intros l [<-|[<-|[]]]; (split; [|exact I]; split; [reflexivity|]; intros H; vm_compute in H; repeat (destruct H as [H|H]; [discriminate|]); destruct H).
Qed.
Definition mix_data likelihood (X : frame R) := fit_data ex_ns sorted_sets keep_all ex_fit_transform (mix_config likelihood) (no_objects None) (SFloat 2) ex_y (Some X).
Definition mix_ok (d : objects (TS := bool) * res (prepared * prog arr)) : Prop :=
  match d with
  | (ob, Ok (p, m)) => map (fun ne => (fst ne, input_feature_column_names (snd ne), unit_site (snd ne))) (p_effects p) = [("tv", Ok ["tv"], Some "coefs"); ("web", Ok ["web"], Some "log_rate")] /\
      exists o tr, run one [] m = Ok (o, tr)
  | _ => False
  end.
Lemma mix_runs likelihood : In likelihood ["normal"; "gamma"; "negbinomial"] -> mix_ok (mix_data likelihood Xu).
Proof. simpl. intros [<-|[<-|[<-|[]]]]; vm_compute; (split; [reflexivity|]; do 2 eexists; reflexivity). Qed.
Lemma mix_units (effs : dict effect) : map (fun ne => (fst ne, input_feature_column_names (snd ne), unit_site (snd ne))) effs = [("tv", Ok ["tv"], Some "coefs"); ("web", Ok ["web"], Some "log_rate")] ->
  units_fit units effs.
Proof.
  intros H. split; [exact units_nonzero|]. intros name ef cols I C. assert (J : In (name, input_feature_column_names ef, unit_site ef) [("tv", Ok ["tv"], Some "coefs"); ("web", Ok ["web"], Some "log_rate")]).
  { rewrite <- H. apply in_map_iff. now exists (name, ef). }
  rewrite C in J. assert (S : exists x, cols = [x]) by (destruct J as [[= _ <- _]|[[= _ <- _]|[]]]; eauto). destruct S as (x & ->).
  clear. induction ef; cbn [one_unit]; auto; intros c [<-|[]]; reflexivity.
Qed.
Lemma mix_example likelihood : In likelihood ["normal"; "gamma"; "negbinomial"] -> exists ob p m o tr, mix_data likelihood Xu = (ob, Ok (p, m)) /\
  units_fit units (p_effects p) /\ has_unit (p_effects p) "tv/coefs" /\ has_unit (p_effects p) "web/log_rate" /\ run one [] m = Ok (o, tr) /\
  convert units (p_effects p) one "tv/coefs" 0 = 1000%R /\ convert units (p_effects p) one "web/log_rate" 0 = (1 / 2)%R /\ convert units (p_effects p) one "web/log_scale" 0 = 1%R.
Proof.
  intros H. pose proof (mix_runs _ H) as OK. unfold mix_ok in OK. destruct (mix_data likelihood Xu) as [ob [[p m]|]]; [|destruct OK]. destruct OK as (E & o & tr & R).
  exists ob, p, m, o, tr. split; [reflexivity|]. split; [now apply mix_units|]. clear H. destruct (p_effects p) as [|[n1 e1] [|[n2 e2] [|]]]; try discriminate. cbn [map fst snd] in E. injection E as -> C1 U1 -> C2 U2.
  split; [exists "tv", e1, "coefs"; simpl; auto|]. split; [exists "web", e2, "log_rate"; simpl; auto|]. split; [exact R|]. clear R.
  unfold convert. cbn [find snd fst]. rewrite U1, U2. cbn. rewrite C1, C2. clear C1 C2.
  assert (V1 : forall v, converted units e1 ["tv"] 0 v = (v / (1 / 1000))%R) by (intros v; revert U1; induction e1; cbn; intros; try discriminate; auto).
  assert (V2 : forall v, converted units e2 ["web"] 0 v = (v / 2)%R) by (intros v; revert U2; induction e2; cbn; intros; try discriminate; auto).
  rewrite V1, V2. unfold one. repeat split; field.
Qed.

(** * two series with a piecewise trend *)
Definition all_linear (d : objects (TS := bool) * res (prepared * prog arr)) : Prop :=
  match d with (_, Ok (p, _)) => Forall (fun ne => match snd ne with Linear _ _ _ => True | _ => False end) (p_effects p) | _ => False end.
Lemma two_linear k1 k2 v0 v1 v2 v3 : all_linear (fit_data ex_ns sorted_sets keep_all ex_fit_transform two_config (no_objects None)
  (STable [(["a"], k1); (["b"], k2)]) (two_by_two v0 v1 v2 v3) (Some ex_Xh)).
Proof.
  destruct (ex_piecewise v0 v1 v2 v3) as (a & b & rates & o1 & o2 & loc1 & loc2 & E).
  unfold fit_data. cbn [two_config c_hier]. unfold hierarchical_fit_data.
  change (loc_bottom_series (aggregate keep_all (two_by_two v0 v1 v2 v3))) with (Ok (two_by_two v0 v1 v2 v3)). cbv iota beta.
  change (series_to_tensor (two_by_two v0 v1 v2 v3)) with (Ok [[[v0]; [v1]]; [[v2]; [v3]]]). cbv iota beta.
  change (no_columns ex_Xh) with false. cbv iota. change (loc_bottom_series ex_Xh) with (Ok ex_Xh). cbv iota beta.
  change (run_fit_transform ex_fit_transform (no_objects None) ex_Xh) with (no_objects None, Ok ex_Xh). cbv iota beta.
  change (negb (no_columns ex_Xh)) with true. cbv iota.
  set (eb := expand_bottom _ _ _ _ ex_Xh). vm_compute in eb. unfold eb. cbn [bind]. clear eb.
  change (get_trend_model two_config (no_objects None)) with (@Ok trend (TPiecewise pw_params (DShifted (DHalfNormal (scalar (1 / 5)%R)) (11 / 10)%R) base_init None)).
  cbv iota beta. cbn [trend_fit]. rewrite E. cbv iota beta.
  cbn [trend_transform]. set (tr := trend_rows _ _ _). vm_compute in tr. unfold tr. clear tr. cbn [bind attr].
  set (fe := fit_effects _ _ _ _ _). vm_compute in fe. unfold fe. clear fe. cbn [bind].
  set (te := transform_effects _ _ _). vm_compute in te. unfold te. clear te. cbn [bind].
  set (ns := non_skipped _). vm_compute in ns. unfold ns. clear ns. cbn [bind].
  cbn [all_linear p_effects]. repeat constructor.
Qed.
Definition two_fit_in_units := fit_forecaster ex_ns sorted_sets keep_all ex_fit_transform ex_svi ex_nuts two_latent two_config (no_objects None) ex_yh (option_map (in_units units) (Some ex_Xh)).
Lemma Xh_rectangular : rectangular ex_Xh.
Proof. unfold rectangular. repeat constructor. Qed.
Lemma two_example : exists ob f ob' f' m o tr, two_fit = (ob, Ok f) /\ two_fit_in_units = (ob', Ok f') /\ units_fit units (p_effects (ft_prepared f)) /\
  predict_model ex_ns keep_all ex_transform two_config ob f ex_yh (Some ex_X2) (Relative [1; 2]%Z) = Ok m /\ run one [] m = Ok (o, tr) /\
  map fst (p_effects (ft_prepared f)) = ["tv"; "web"] /\ has_unit (p_effects (ft_prepared f)) "tv/coefs".
Proof.
  destruct scenario_hierarchical as (ob & f & m1 & m2 & o1 & tr1 & o2 & tr2 & H1 & H2 & H3 & H4 & H5 & H6 & H7 & H8 & H9).
  pose proof H1 as H0. unfold two_fit, fit_forecaster in H1.
  assert (SE : exists k1 k2, set_y_scales (c_scale two_config) ex_yh = Ok (STable [(["a"], k1); (["b"], k2)])) by (do 2 eexists; reflexivity).
  destruct SE as (k1 & k2 & SE). rewrite SE in H1. cbn [bind] in H1.
  assert (SY : exists v0 v1 v2 v3, scale_y (discrete two_config) (STable [(["a"], k1); (["b"], k2)]) ex_yh = Ok (two_by_two v0 v1 v2 v3)) by (do 4 eexists; reflexivity).
  destruct SY as (v0 & v1 & v2 & v3 & SY). rewrite SY in H1. cbn [bind] in H1.
  pose proof (two_linear k1 k2 v0 v1 v2 v3) as OK. unfold all_linear in OK. destruct (fit_data _ _ _ _ _ _ _ _ _) as [ob0 [[p m]|]] eqn:F; [|destruct OK].
  cbn [bind] in H1. destruct (infer _ _ _ _ m) as [x|]; [|discriminate]. cbn [bind] in H1. injection H1 as <- <-. cbn [ft_prepared] in *.
  assert (UF : units_fit units (p_effects p)).
  { split; [exact units_nonzero|]. intros name ef cols I _. rewrite Forall_forall in OK. specialize (OK _ I). cbn [snd] in OK. destruct ef; try contradiction. constructor. }
  destruct (fit_units ex_ns sorted_sets keep_all ex_fit_transform units _ _ _ _ _ _ _ _ F two_clean eq_refl Xh_rectangular UF (fun _ => units_copies)) as (m' & F' & _).
  assert (Q : exists f', two_fit_in_units = (ob0, Ok f')).
  { unfold two_fit_in_units, fit_forecaster. rewrite SE. cbn [bind]. rewrite SY. cbn [bind]. cbn [option_map]. rewrite F'. cbn [bind]. destruct (infer ex_svi ex_nuts two_latent (engine_of two_config) m') as [z|] eqn:Z; [|discriminate Z]. eexists. reflexivity. }
  destruct Q as (f' & Q). exists ob0, (mkFitted (STable [(["a"], k1); (["b"], k2)]) p x), ob0, f', m1, o1, tr1. do 6 (split; [assumption|]).
  cbn [ft_prepared]. destruct (p_effects p) as [|[n ef] l]; [discriminate|]. injection H9 as -> _. inversion OK as [|? ? L _]; subst. cbn [snd] in L. destruct ef; try contradiction.
  eexists "tv", _, "coefs". split; [left; reflexivity|]. split; reflexivity.
Qed.
