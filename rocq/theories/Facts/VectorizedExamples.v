(** A panel of two series with different last dates, fitted and forecast. *)
From Coq Require Import Reals String Bool ZArith List Lra.
From Verif.Model Require Import Base Num XFloat Regex Frame Arr Expand Aggregate Scale Predict Prog Likelihood Trend Effect
  TrendProg Engine Forecaster Vectorized.
From Verif.Spec Require Import VectorizedSpec.
From Verif.Facts Require Import NumFacts EffectExamples ForecasterExamples EngineExamples HistoryExamples ComponentExamples BaseFacts VectorizedFacts VectorizedProps.
Import ListNotations.
Local Open Scope string_scope.

Definition pan_y : frame R := mkFrame 1 ["y"] [mkRow ["a"] 0 [3]; mkRow ["a"] 1 [4]; mkRow ["a"] 7 [8]; mkRow ["b"] 0 [2]; mkRow ["b"] 1 [6]; mkRow ["b"] 5 [2]]%R.
Definition pan_X : frame R := mkFrame 1 ["tv"; "web"]
  [mkRow ["a"] 0 [1; 10]; mkRow ["a"] 1 [2; 20]; mkRow ["a"] 7 [3; 30]; mkRow ["b"] 0 [4; 40]; mkRow ["b"] 1 [5; 50]; mkRow ["b"] 5 [6; 60]]%R.
Definition pan_Xf : frame R := mkFrame 1 ["tv"; "web"]
  [mkRow ["a"] 8 [1; 10]; mkRow ["a"] 9 [2; 20]; mkRow ["b"] 6 [7; 70]; mkRow ["b"] 7 [8; 80]]%R.
Definition no_clone (k : bool) : bool := k.

Definition pan_fit (y X : frame R) :=
  panel_fit ex_ns sorted_sets keep_all no_clone ex_fit_transform ex_svi ex_nuts comp_latent (comp_config "normal") (no_objects None) y (Some X).
Definition pan_samples ms := panel_samples ex_ns keep_all ex_transform ex_guide ex_complete (comp_config "normal") ms (Some pan_Xf) (Relative [1; 2]%Z).
Definition pan_sites ms := panel_all_sites ex_ns keep_all ex_transform ex_guide ex_complete (comp_config "normal") ms (Some pan_Xf) (Relative [1; 2]%Z).
Definition pan_point ms := panel_point ex_ns keep_all ex_transform ex_guide ex_complete (comp_config "normal") "y" 1 ms (Some pan_Xf) (Relative [1; 2]%Z).

(** the fit with its scale computed *)
Definition member2 (y X : frame R) (p : path) :=
  let yp := series_frame y p in
  match scale_y (discrete (comp_config "normal")) (SFloat 2) yp with
  | Err e => Err e
  | Ok ys =>
      let '(ob, data) := fit_data ex_ns sorted_sets keep_all ex_fit_transform (comp_config "normal") (clone_objects no_clone (no_objects None)) (SFloat 2) ys
                           (Some (series_frame X p)) in
      f <- ('(p, model) <- data ;; post <- infer ex_svi ex_nuts comp_latent (engine_of (comp_config "normal")) model ;; Ok (mkFitted (SFloat 2) p post)) ;;
      Ok (p, mkMember ob f yp)
  end.
Lemma scale2 y : set_y_scales (Some (SFloat 2)) y = Ok (SFloat 2).
Proof. unfold set_y_scales. cbn [bind]. assert (Reqb 2 0 = false) as ->; [|reflexivity]. unfold Reqb. destruct (Req_EM_T 2 0); [lra|reflexivity]. Qed.
Lemma member2_eq y X p :
  fit_member ex_ns sorted_sets keep_all no_clone ex_fit_transform ex_svi ex_nuts comp_latent (comp_config "normal") (no_objects None) y (Some X) p = member2 y X p.
Proof.
  unfold fit_member, member2, fit_forecaster. cbn [c_scale comp_config option_map]. rewrite scale2. cbn [bind].
  destruct (scale_y _ _ _) as [ys|]; [|reflexivity]. cbn [bind]. destruct (fit_data _ _ _ _ _ _ _ _ _) as [ob r]. reflexivity.
Qed.
Definition pan_fit2 (y X : frame R) := mapM (member2 y X) (series_ids y).
Lemma pan_fit_eq y X : pan_fit y X = pan_fit2 y X.
Proof. unfold pan_fit, pan_fit2, panel_fit. apply mapM_ext. intros p _. apply member2_eq. Qed.

Definition pan_all (y X : frame R) : option (frame R * frame R * frame R) :=
  match pan_fit2 y X with
  | Err _ => None
  | Ok ms => match pan_samples ms, pan_sites ms, pan_point ms with Ok a, Ok b, Ok d => Some (a, b, d) | _, _, _ => None end
  end.
Lemma pan_runs : exists ms s a f, pan_fit pan_y pan_X = Ok ms /\ pan_samples ms = Ok s /\ pan_sites ms = Ok a /\ pan_point ms = Ok f /\
  map (fun r => (r_path r, r_time r)) (f_rows f) = [(["a"], 8%Z); (["a"], 9%Z); (["b"], 6%Z); (["b"], 7%Z)] /\
  map (fun r => (r_path r, r_time r)) (f_rows s) = [([], 8%Z); ([], 9%Z); ([], 6%Z); ([], 7%Z)].
Proof.
  assert (H : match pan_all pan_y pan_X with
              | Some (s, _, f) => map (fun r => (r_path r, r_time r)) (f_rows f) = [(["a"], 8%Z); (["a"], 9%Z); (["b"], 6%Z); (["b"], 7%Z)] /\
                  map (fun r => (r_path r, r_time r)) (f_rows s) = [([], 8%Z); ([], 9%Z); ([], 6%Z); ([], 7%Z)]
              | None => False end) by (vm_compute; split; reflexivity).
  rewrite pan_fit_eq. unfold pan_all in H. destruct (pan_fit2 pan_y pan_X) as [ms|]; [|destruct H].
  destruct (pan_samples ms) as [s|] eqn:S; [|destruct H]. destruct (pan_sites ms) as [a|] eqn:A; [|destruct H]. destruct (pan_point ms) as [f|] eqn:F; [|destruct H].
  exists ms, s, a, f. tauto.
Qed.

(** other values of series b *)
Definition pan_y' : frame R := mkFrame 1 ["y"] [mkRow ["b"] 0 [5]; mkRow ["b"] 1 [9]; mkRow ["a"] 0 [3]; mkRow ["a"] 1 [4]; mkRow ["a"] 7 [8]]%R.
Definition pan_X' : frame R := mkFrame 1 ["tv"; "web"] [mkRow ["b"] 0 [0; 0]; mkRow ["b"] 1 [0; 1]; mkRow ["a"] 0 [1; 10]; mkRow ["a"] 1 [2; 20]; mkRow ["a"] 7 [3; 30]]%R.
Lemma pan_runs' : exists ms, pan_fit pan_y' pan_X' = Ok ms.
Proof.
  assert (H : match pan_fit2 pan_y' pan_X' with Ok _ => true | Err _ => false end = true) by (vm_compute; reflexivity).
  rewrite pan_fit_eq. destruct (pan_fit2 pan_y' pan_X') as [ms|]; [eauto|discriminate].
Qed.
Lemma pan_same_a : single pan_y ["a"] (series_frame pan_y ["a"]) /\ single pan_y' ["a"] (series_frame pan_y ["a"]) /\
  single_X (Some pan_X) ["a"] (Some (series_frame pan_X ["a"])) /\ single_X (Some pan_X') ["a"] (Some (series_frame pan_X ["a"])).
Proof.
  change (series_frame pan_y ["a"]) with (series_frame pan_y' ["a"]) at 2. change (series_frame pan_X ["a"]) with (series_frame pan_X' ["a"]) at 2.
  cbn [single_X]. repeat split; try (eexists; split; reflexivity).
Qed.
Lemma pan_Xf_ok : panel_X [["a"]; ["b"]] (Some pan_Xf).
Proof.
  split.
  - intros r I. cbn in I. repeat (destruct I as [<-|I]; [split; reflexivity|]). destruct I.
  - intros p [<-|[<-|[]]]; reflexivity.
Qed.
(** series b lacks a row of X: the whole fit is rejected *)
Definition pan_X_short : frame R := mkFrame 1 ["tv"; "web"] [mkRow ["a"] 0 [1; 10]; mkRow ["a"] 1 [2; 20]; mkRow ["a"] 7 [3; 30]; mkRow ["b"] 0 [4; 40]]%R.
Lemma pan_fails : pan_fit pan_y pan_X_short = Err KeyError.
Proof. rewrite pan_fit_eq. vm_compute. reflexivity. Qed.
