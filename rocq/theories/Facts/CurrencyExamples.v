(** A panel with series a in other units and series b as before. *)
From Coq Require Import Reals String Bool ZArith List Lra.
From Verif.Model Require Import Base Num XFloat Regex Frame Arr Expand Aggregate Scale Predict Prog Likelihood Trend Effect TrendProg Engine Forecaster History Vectorized.
From Verif.Spec Require Import FrameSpec ForecasterSpec HistorySpec UnitsSpec CurrencySpec.
From Verif.Facts Require Import NumFacts EffectExamples ForecasterExamples EngineExamples HistoryExamples UnitsExamples AlignExamples PanelRuns ComponentExamples VectorizedExamples.
Import ListNotations.
Local Open Scope string_scope.

(** a hundred for series a, one for all others *)
Definition cents (p : path) : R := if path_eqb p ["a"] then 100%R else 1%R.
Lemma cents_pos p : (0 < cents p)%R.
Proof. unfold cents. destruct (path_eqb _ _); lra. Qed.

Lemma cents_a : value_in (fit_and_predict pw_config ex_yh) ["a"] 2 1 = Some 2%R /\
  value_in (fit_and_predict pw_config (own_units cents ex_yh)) ["a"] 2 1 = Some 200%R /\
  value_in (fit_and_predict pw_config ex_yh) ["b"] 2 1 = Some 4%R /\
  value_in (fit_and_predict pw_config (own_units cents ex_yh)) ["b"] 2 1 = Some 4%R.
Proof.
  split; [exact (proj1 pw_units_a)|]. unfold fit_and_predict. split; [|split].
  - destruct (pw_fit_call (100 * 1) (100 * 2) (1 * 3) (1 * 4) None) as (k1 & k2 & v0 & v1 & v2 & v3 & a & b & rates & o1 & o2 & loc1 & loc2 & SE & E).
    change (own_units cents ex_yh) with (two_by_two (100 * 1) (100 * 2) (1 * 3) (1 * 4)). rewrite E. injection SE as <- _. expose.
    rewrite !Rabs_pos_eq by lra. rewrite Rmax_right by lra. rewrite replace01_nonzero by lra. simpl. lra.
  - destruct (pw_fit_call 1 2 3 4 None) as (k1 & k2 & v0 & v1 & v2 & v3 & a & b & rates & o1 & o2 & loc1 & loc2 & SE & E).
    change ex_yh with (two_by_two 1 2 3 4). rewrite E. injection SE as _ <- . expose.
    rewrite !Rabs_pos_eq by lra. rewrite Rmax_right by lra. rewrite replace01_nonzero by lra. simpl. lra.
  - destruct (pw_fit_call (100 * 1) (100 * 2) (1 * 3) (1 * 4) None) as (k1 & k2 & v0 & v1 & v2 & v3 & a & b & rates & o1 & o2 & loc1 & loc2 & SE & E).
    change (own_units cents ex_yh) with (two_by_two (100 * 1) (100 * 2) (1 * 3) (1 * 4)). rewrite E. injection SE as _ <-. expose.
    rewrite !Rabs_pos_eq by lra. rewrite Rmax_right by lra. rewrite replace01_nonzero by lra. simpl. lra.
Qed.

(** * The univariate class on a panel *)
Definition auto_config : config :=
  mkConfig false (TrendName "flat") 25 (4 / 5) (1 / 1000) (1 / 10) (1 / 5) (11 / 10) (Some [linear_tv]) None (1 / 20) "normal" None None 1
    "mcmc" None 10 0 2 5 1.
Definition auto_fit y := panel_fit ex_ns sorted_sets keep_all no_clone ex_fit_transform ex_svi ex_nuts comp_latent auto_config (no_objects None) y (Some pan_X).
Definition auto_point ms := panel_point ex_ns keep_all ex_transform ex_guide ex_complete auto_config "y" 1 ms (Some pan_Xf) (Relative [1; 2]%Z).
Definition auto_member (s : R) (p : path) :=
  let yp := series_frame pan_y p in
  match scale_y (discrete auto_config) (SFloat s) yp with
  | Err e => Err e
  | Ok ys =>
      let '(ob, data) := fit_data ex_ns sorted_sets keep_all ex_fit_transform auto_config (clone_objects no_clone (no_objects None)) (SFloat s) ys
                           (Some (series_frame pan_X p)) in
      f <- ('(p, model) <- data ;; post <- infer ex_svi ex_nuts comp_latent (engine_of auto_config) model ;; Ok (mkFitted (SFloat s) p post)) ;;
      Ok (p, mkMember ob f yp)
  end.
Lemma auto_member_eq s p : set_y_scales None (series_frame pan_y p) = Ok (SFloat s) ->
  fit_member ex_ns sorted_sets keep_all no_clone ex_fit_transform ex_svi ex_nuts comp_latent auto_config (no_objects None) pan_y (Some pan_X) p = auto_member s p.
Proof.
  intros E. unfold fit_member, auto_member, fit_forecaster. cbn [c_scale auto_config option_map]. rewrite E. cbn [bind].
  destruct (scale_y _ _ _) as [ys|]; [|reflexivity]. cbn [bind]. destruct (fit_data _ _ _ _ _ _ _ _ _) as [ob r]. reflexivity.
Qed.
Lemma auto_scale_of p x y z m : flat_map r_vals (f_rows (series_frame pan_y p)) = [x; y; z] -> (0 < x)%R -> (0 < y)%R -> (0 < z)%R -> Rmax (Rmax x y) z = m -> (0 < m)%R ->
  set_y_scales None (series_frame pan_y p) = Ok (SFloat m).
Proof.
  intros E X Y Z M MP. unfold set_y_scales. change (f_levels (series_frame pan_y p)) with 0%nat. cbv iota. rewrite E. unfold abs_max. cbn [map]. unfold Rmax_list. cbn [fold_left].
  rewrite !Rabs_pos_eq by lra. rewrite M. cbn [bind]. assert (Reqb m 0 = false) as -> by (apply Reqb_false; lra). reflexivity.
Qed.
Lemma auto_scales : set_y_scales None (series_frame pan_y ["a"]) = Ok (SFloat 8) /\ set_y_scales None (series_frame pan_y ["b"]) = Ok (SFloat 6).
Proof.
  split.
  - apply (auto_scale_of ["a"] 3 4 8); try lra; [reflexivity|]. rewrite (Rmax_right 3 4), Rmax_right by lra. reflexivity.
  - apply (auto_scale_of ["b"] 2 6 2); try lra; [reflexivity|]. rewrite (Rmax_right 2 6), Rmax_left by lra. reflexivity.
Qed.
Lemma auto_runs : exists ms f, auto_fit pan_y = Ok ms /\ auto_point ms = Ok f /\
  map (fun r => (r_path r, r_time r)) (f_rows f) = [(["a"], 8%Z); (["a"], 9%Z); (["b"], 6%Z); (["b"], 7%Z)].
Proof.
  assert (H : match (a <- auto_member 8 ["a"] ;; b <- auto_member 6 ["b"] ;; auto_point [a; b]) with
              | Ok f => map (fun r => (r_path r, r_time r)) (f_rows f) = [(["a"], 8%Z); (["a"], 9%Z); (["b"], 6%Z); (["b"], 7%Z)] | Err _ => False end) by (vm_compute; reflexivity).
  unfold auto_fit, panel_fit. change (series_ids pan_y) with [["a"]; ["b"]]. cbn [mapM]. rewrite (auto_member_eq 8 ["a"] (proj1 auto_scales)), (auto_member_eq 6 ["b"] (proj2 auto_scales)).
  destruct (auto_member 8 ["a"]) as [a|]; [|destruct H]. destruct (auto_member 6 ["b"]) as [b|]; [|destruct H]. cbn [bind] in *.
  destruct (auto_point [a; b]) as [f|] eqn:F; [|destruct H]. exists [a; b], f. auto.
Qed.
Lemma auto_lift_free : lift_free_config auto_config.
Proof. split; [intros l [<-|[]]; exact I|discriminate]. Qed.
