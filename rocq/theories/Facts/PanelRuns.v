(** Panels with a piecewise linear trend: fits computed with the fitted trend given. *)
From Coq Require Import Reals String Bool ZArith List Lra Lia Permutation Sorted.
From Verif.Model Require Import Base Num XFloat Frame Arr Expand Aggregate Scale Predict Prog Likelihood Trend Effect
  TrendProg Engine Forecaster History.
From Verif.Spec Require Import FrameSpec ScaleSpec ForecasterSpec HistorySpec UnitsSpec AlignSpec ShapeSpec.
From Verif.Facts Require Import NumFacts TrendExamples EffectExamples ForecasterExamples EngineExamples HistoryExamples AlignExamples UnitsExamples.
Import ListNotations.
Local Open Scope string_scope.

Section After.
Variable ns_of : Z -> Z.
Variable order : list string -> list string.
Variable keep : path -> bool.
Context {TS : Type}.
Variable tr_fit_transform : TS -> frame R -> TS * res (frame R).
(** the rest of a hierarchical fit when the trend has been fitted *)
Definition after_trend (c : config) (ob : objects) (s : scale) (y : frame R) (X : option (frame R)) (t : trend) : objects (TS := TS) * res (prepared * prog arr) :=
  let fh := time_ids y in
  let y := aggregate keep y in
  match loc_bottom_series y with
  | Err e => (ob, Err e)
  | Ok yb =>
      match series_to_tensor yb with
      | Err e => (ob, Err e)
      | Ok tensor =>
          let X := match X with
                   | None => empty_frame (f_levels y) (index_of y)
                   | Some X => if no_columns X then empty_frame (f_levels y) (index_of y) else X
                   end in
          match loc_bottom_series X with
          | Err e => (ob, Err e)
          | Ok Xb =>
              let '(ob, Xb) := run_fit_transform tr_fit_transform ob Xb in
              match Xb with
              | Err e => (ob, Err e)
              | Ok Xb =>
                  let has := negb (no_columns Xb) in
                  let expanded :=
                    if has then
                      '(X, ex) <- expand_bottom 0%R (fun _ => false) order
                                    (match c_shared c with None => [] | Some l => l end) Xb ;;
                      Ok (X, Some ex)
                    else Ok (Xb, None) in
                  match expanded with
                  | Err e => (ob, Err e)
                  | Ok (Xb, ex) =>
                      let t := match t with TPiecewise p cap b f => TPiecewise p cap (mkBase (Some (columns_seen (Some Xb))) (Some true)) f | t => t end in
                      (mkObjects t (o_transformer ob),
                               td <- trend_transform ns_of t Xb fh ;;
                               fitted <- fit_effects order (c_default c) (effects_of c) (Some Xb) (scale_number s) ;;
                               data <- transform_effects fitted Xb fh ;;
                               effs <- non_skipped fitted ;;
                               let p := mkPrepared (index_of y) fitted effs has ex
                                          (Nat.eqb (n_series (f_levels y) (index_of y)) 1) in
                               Ok (p, model_call c s p t td (Some (arr_of_data 1 (D3 tensor))) (Some data)))
                  end
              end
          end
      end
  end.

Lemma after_trend_eq c ob s y X yb pp cap b f0 pf :
  (forall ob1, get_trend_model c (TS := TS) ob1 = Ok (TPiecewise pp cap b f0)) -> loc_bottom_series (aggregate keep y) = Ok yb ->
  piecewise_fit ns_of pp yb = Ok pf ->
  hierarchical_fit_data ns_of order keep tr_fit_transform c ob s y X = after_trend c ob s y X (TPiecewise pp cap b (Some pf)).
Proof.
  intros H1 H2 H3. unfold hierarchical_fit_data, after_trend. rewrite H2.
  destruct (series_to_tensor yb); [|reflexivity]. clear H2. match goal with |- context [loc_bottom_series ?x] => destruct (loc_bottom_series x) end; [|reflexivity].
  destruct (run_fit_transform _ _ _) as [ob1 [X1|]]; [|reflexivity].
  destruct (if negb (no_columns X1) then _ else _) as [[X2 ex]|]; [|reflexivity]. rewrite H1. cbn [trend_fit]. rewrite H3. reflexivity.
Qed.
End After.


(** the trend of [pw_config] after a fit on two dates of two series *)
Definition pw_trend (a b : R) rates (o1 o2 loc1 loc2 : R) : trend :=
  TPiecewise pw_params (DShifted (DHalfNormal (scalar (1 / 5)%R)) (11 / 10)%R) base_init
    (Some (mkPWF pw_params a b 2 [[INR 0 * 25]; [INR 0 * 25]]%R rates [XF o1; XF o2] [loc1; loc2] [1 / 1000; 1 / 1000]%R (Some [["a"]; ["b"]]))).

Definition fit_pw (order : list string -> list string) (X : option (frame R)) :=
  fit_data ex_ns order keep_all ex_fit_transform pw_config
    (no_objects None) (STable [(["__total"], 1%R); (["a"], 1%R); (["b"], 1%R)]) ex_yh X.
Lemma pw_data_eq order s X v0 v1 v2 v3 : exists a b rates o1 o2 loc1 loc2,
  fit_data ex_ns order keep_all ex_fit_transform pw_config (no_objects None) s (two_by_two v0 v1 v2 v3) X =
  after_trend ex_ns order keep_all ex_fit_transform pw_config (no_objects None) s (two_by_two v0 v1 v2 v3) X (pw_trend a b rates o1 o2 loc1 loc2).
Proof.
  destruct (ex_piecewise v0 v1 v2 v3) as (a & b & rates & o1 & o2 & loc1 & loc2 & E). exists a, b, rates, o1, o2, loc1, loc2.
  unfold fit_data. change (c_hier pw_config) with true. cbv iota.
  refine (after_trend_eq _ _ _ _ _ _ _ _ _ (two_by_two v0 v1 v2 v3) _ _ _ _ _ _ _ E); reflexivity.
Qed.
Lemma fit_pw_eq order X : exists a b rates o1 o2 loc1 loc2, fit_pw order X = after_trend ex_ns order keep_all ex_fit_transform pw_config
    (no_objects None) (STable [(["__total"], 1%R); (["a"], 1%R); (["b"], 1%R)]) ex_yh X (pw_trend a b rates o1 o2 loc1 loc2).
Proof. exact (pw_data_eq order _ X 1 2 3 4). Qed.

Ltac use_pw := repeat match goal with |- context [fit_pw ?o ?X] =>
  let E := fresh in destruct (fit_pw_eq o X) as (? & ? & ? & ? & ? & ? & ? & E); rewrite !E; clear E end.

(** two iteration orders of the set of matched columns *)
Lemma pw_order_matters :
  succeeds (fit_pw (fun l => l) (Some ex_Xh)) = true /\ succeeds (fit_pw (@rev string) (Some ex_Xh)) = true /\
  value_of by_position (program (fit_pw (fun l => l) (Some ex_Xh))) "all" 0 = Some 20%R /\
  value_of by_position (program (fit_pw (@rev string) (Some ex_Xh))) "all" 0 = Some 2%R.
Proof.
  use_pw. split; [vm_compute; reflexivity|]. split; [vm_compute; reflexivity|]. split; compute_real.
Qed.

(** the rows of the exogenous frame with series b first *)
Lemma pw_series_order :
  value_of ones (program (fit_pw sorted_sets (Some ex_Xh))) "all" 0 = Some 11%R /\
  value_of ones (program (fit_pw sorted_sets (Some ex_Xba))) "all" 0 = Some 33%R /\
  value_of ones (program (fit_pw sorted_sets (Some ex_Xh))) "obs" 0 = Some 1%R /\
  value_of ones (program (fit_pw sorted_sets (Some ex_Xba))) "obs" 0 = Some 1%R.
Proof. use_pw. repeat split; compute_real. Qed.

(** * complete calls *)
Definition pw_scale (k1 k2 : R) : scale := STable [(["a"], k1); (["b"], k2)].
Definition pw_state (k1 k2 v0 v1 v2 v3 a b : R) rates (o1 o2 loc1 loc2 : R) (y : frame R) (X : option (frame R)) : state (TS := bool) (P := unit) :=
  let '(ob, data) := after_trend ex_ns sorted_sets keep_all ex_fit_transform pw_config (no_objects None) (pw_scale k1 k2)
                       (two_by_two v0 v1 v2 v3) X (pw_trend a b rates o1 o2 loc1 loc2) in
  match data with
  | Ok (p, m) => mkState ob y X (Some (mkFitted (pw_scale k1 k2) p pw_post))
  | Err _ => mkState ob y X None
  end.
Lemma pw_fit_call u0 u1 u2 u3 X : exists k1 k2 v0 v1 v2 v3 a b rates o1 o2 loc1 loc2,
  set_y_scales None (two_by_two u0 u1 u2 u3) = Ok (pw_scale k1 k2) /\
  forall cs, ex_calls pw_config (new_state (no_objects None)) (Fit (two_by_two u0 u1 u2 u3) X :: cs) =
  ex_calls pw_config (pw_state k1 k2 v0 v1 v2 v3 a b rates o1 o2 loc1 loc2 (two_by_two u0 u1 u2 u3) X) cs.
Proof.
  assert (SE : exists k1 k2, set_y_scales None (two_by_two u0 u1 u2 u3) = Ok (pw_scale k1 k2)) by (do 2 eexists; reflexivity).
  destruct SE as (k1 & k2 & SE).
  assert (SY : exists v0 v1 v2 v3, scale_y (discrete pw_config) (pw_scale k1 k2) (two_by_two u0 u1 u2 u3) = Ok (two_by_two v0 v1 v2 v3)) by (do 4 eexists; reflexivity).
  destruct SY as (v0 & v1 & v2 & v3 & SY).
  destruct (pw_data_eq sorted_sets (pw_scale k1 k2) X v0 v1 v2 v3) as (a & b & rates & o1 & o2 & loc1 & loc2 & E).
  exists k1, k2, v0, v1, v2, v3, a, b, rates, o1, o2, loc1, loc2. split; [exact SE|]. intros cs.
  unfold ex_calls, calls. cbn [fold_left]. f_equal. cbn [step]. unfold do_fit, fit_forecaster.
  change (c_scale pw_config) with (@None scale). rewrite SE. cbn [bind]. rewrite SY. cbn [bind]. cbn [st_objects new_state]. rewrite E.
  unfold pw_state. destruct (after_trend _ _ _ _ _ _ _ _ _ _) as [ob [[p m]|e]]; cbn [bind]; [|reflexivity].
  change (infer ex_svi ex_nuts ex_latent (engine_of pw_config) m) with (Ok pw_post). reflexivity.
Qed.

Definition model_after (st : state (TS := bool) (P := unit)) (X : option (frame R)) (fh : horizon) : prog arr :=
  match st_fitted st with
  | Some f => match predict_model ex_ns keep_all ex_transform pw_config (st_objects st) f (st_y st) X fh with Ok m => m | Err e => Raise e end
  | None => Raise ValueError
  end.
Definition pw_stale := ex_calls pw_config (new_state (no_objects None)) [Fit ex_yh (Some ex_Xh); Update ex_y2 None false].
Lemma pw_stale_labels : times_of (snd (ex_step pw_config pw_stale (Predict Samples (Some ex_X2) (Relative [1%Z])))) = Some [3; 3; 3]%Z.
Proof.
  unfold pw_stale. destruct (pw_fit_call 1 2 3 4 (Some ex_Xh)) as (k1 & k2 & v0 & v1 & v2 & v3 & a & b & rates & o1 & o2 & loc1 & loc2 & _ & E).
  change ex_yh with (two_by_two 1 2 3 4). rewrite E. vm_compute. reflexivity.
Qed.
Lemma pw_stale_values :
  value_of ones (model_after pw_stale (Some ex_X2) (Relative [1%Z])) "all" 0 = Some 1%R /\
  value_of ones (model_after pw_stale (Some ex_X2) (Absolute [3%Z])) "all" 0 = Some 7%R.
Proof.
  unfold pw_stale. destruct (pw_fit_call 1 2 3 4 (Some ex_Xh)) as (k1 & k2 & v0 & v1 & v2 & v3 & a & b & rates & o1 & o2 & loc1 & loc2 & _ & E).
  change ex_yh with (two_by_two 1 2 3 4). rewrite E. split; compute_real.
Qed.

Definition pw_fitted := ex_calls pw_config (new_state (no_objects None)) [Fit ex_yh (Some ex_Xh)].
Lemma pw_incomplete : times_of (snd (ex_step pw_config pw_fitted (Predict Samples (Some ex_Xcd) (Relative [1; 2]%Z)))) = Some [2; 3; 2; 3; 2; 3]%Z.
Proof.
  unfold pw_fitted. destruct (pw_fit_call 1 2 3 4 (Some ex_Xh)) as (k1 & k2 & v0 & v1 & v2 & v3 & a & b & rates & o1 & o2 & loc1 & loc2 & _ & E).
  change ex_yh with (two_by_two 1 2 3 4). rewrite E. vm_compute. reflexivity.
Qed.

(** * changes of units *)
Lemma pw_zero_b : value_in (fit_and_predict pw_config zero_b) ["b"] 2 1 = Some 1%R /\
  value_in (fit_and_predict pw_config (rescale_frame 2 zero_b)) ["b"] 2 1 = Some 1%R.
Proof.
  split; unfold fit_and_predict.
  - destruct (pw_fit_call 1 2 0 0 None) as (k1 & k2 & v0 & v1 & v2 & v3 & a & b & rates & o1 & o2 & loc1 & loc2 & SE & E).
    change zero_b with (two_by_two 1 2 0 0). rewrite E. injection SE as _ <-. expose.
    rewrite replace01_zero; [simpl; lra|]. rewrite Rabs_R0. apply Rmax_left. lra.
  - destruct (pw_fit_call (2 * 1) (2 * 2) (2 * 0) (2 * 0) None) as (k1 & k2 & v0 & v1 & v2 & v3 & a & b & rates & o1 & o2 & loc1 & loc2 & SE & E).
    change (rescale_frame 2 zero_b) with (two_by_two (2 * 1) (2 * 2) (2 * 0) (2 * 0)). rewrite E. injection SE as _ <-. expose.
    rewrite replace01_zero; [simpl; lra|]. rewrite Rmult_0_r, Rabs_R0. apply Rmax_left. lra.
Qed.
Lemma pw_units_a : value_in (fit_and_predict pw_config ex_yh) ["a"] 2 1 = Some 2%R /\
  value_in (fit_and_predict pw_config (rescale_frame 3 ex_yh)) ["a"] 2 1 = Some 6%R.
Proof.
  split; unfold fit_and_predict.
  - destruct (pw_fit_call 1 2 3 4 None) as (k1 & k2 & v0 & v1 & v2 & v3 & a & b & rates & o1 & o2 & loc1 & loc2 & SE & E).
    change ex_yh with (two_by_two 1 2 3 4). rewrite E. injection SE as <- _. expose.
    rewrite !Rabs_pos_eq by lra. rewrite Rmax_right by lra. rewrite replace01_nonzero by lra. simpl. lra.
  - destruct (pw_fit_call (3 * 1) (3 * 2) (3 * 3) (3 * 4) None) as (k1 & k2 & v0 & v1 & v2 & v3 & a & b & rates & o1 & o2 & loc1 & loc2 & SE & E).
    change (rescale_frame 3 ex_yh) with (two_by_two (3 * 1) (3 * 2) (3 * 3) (3 * 4)). rewrite E. injection SE as <- _. expose.
    rewrite !Rabs_pos_eq by lra. rewrite Rmax_right by lra. rewrite replace01_nonzero by lra. simpl. lra.
Qed.
Lemma pw_comparable : comparable 3 pw_config pw_config ex_yh.
Proof.
  split.
  - intros _ p H. simpl in H. destruct H as [<-|[<-|[<-|[<-|[]]]]].
    + exists (mkRow ["a"] 0 [1%R]), 1%R. simpl. repeat split; auto; lra.
    + exists (mkRow ["a"] 0 [1%R]), 1%R. simpl. repeat split; auto; lra.
    + exists (mkRow ["b"] 0 [3%R]), 3%R. simpl. repeat split; auto; lra.
    + exists (mkRow ["b"] 0 [3%R]), 3%R. simpl. repeat split; auto; lra.
  - reflexivity.
Qed.

(** * histories *)
Ltac use_fit X := destruct (pw_fit_call 1 2 3 4 X) as (? & ? & ? & ? & ? & ? & ? & ? & ? & ? & ? & ? & ? & _ & E);
  change ex_yh with (two_by_two 1 2 3 4); rewrite E.
Lemma pw_fit_done : st_fitted pw_fitted <> None.
Proof. unfold pw_fitted. use_fit (Some ex_Xh). vm_compute. discriminate. Qed.
Lemma pw_stale_fitted : st_fitted pw_stale <> None.
Proof. unfold pw_stale. use_fit (Some ex_Xh). vm_compute. discriminate. Qed.
Lemma fit_done_iff c st y X : st_fitted (ex_calls c st [Fit y X]) <> None -> snd (ex_step c st (Fit y X)) = Ok ODone.
Proof.
  unfold ex_calls, calls, ex_step. cbn [fold_left step]. unfold do_fit. destruct (fit_forecaster _ _ _ _ _ _ _ _ _ _ _) as [ob [f|e]]; cbn; congruence.
Qed.
Lemma pw_fit_ok : snd (ex_step pw_config (new_state (no_objects None)) (Fit ex_yh (Some ex_Xh))) = Ok ODone.
Proof. apply fit_done_iff, pw_fit_done. Qed.
Lemma pw_still_works : times_of (snd (ex_step pw_config (ex_calls pw_config pw_stale some_predictions) (Predict Samples (Some ex_X2) (Relative [1%Z])))) = Some [3; 3; 3]%Z.
Proof. unfold pw_stale. use_fit (Some ex_Xh). vm_compute. reflexivity. Qed.
Lemma pw_expander_changes : option_map (@List.length _) (expander_of (ex_calls pw_config pw_stale some_predictions)) = Some 6 /\
  option_map (@List.length _) (expander_of pw_stale) = Some 4.
Proof. unfold pw_stale. use_fit (Some ex_Xh). vm_compute. auto. Qed.

(** a single series, updated and fitted again *)
Definition uni_config : config :=
  mkConfig false (TrendName "flat") 25 (4 / 5) (1 / 1000) (1 / 10) (1 / 5) (11 / 10) (Some [("all", Linear Additive (DUser 0) base_init, Some ".*")])
    None (1 / 20) "negbinomial" (Some (SInt 1)) None 1 "mcmc" None 10 0 3 5 2.
Definition ex_yu2 : frame R := mkFrame 0 ["y"] [mkRow [] 8 [5]; mkRow [] 9 [6]]%R.
Definition uni_refitted := ex_calls uni_config (new_state (no_objects None)) [Fit ex_y None; Update ex_yu2 None true].
Lemma uni_refitted_labels : times_of (snd (ex_step uni_config uni_refitted (Predict Samples None (Relative [1%Z])))) = Some [10]%Z.
Proof. vm_compute. reflexivity. Qed.

(** * shapes *)
Definition runs {A B} (r : A * res (B * prog arr)) : bool :=
  match snd r with Ok (_, m) => match run ones [] m with Ok _ => true | Err _ => false end | Err _ => false end.
Lemma runs_true {A B} (r : A * res (B * prog arr)) : runs r = true -> exists a b m o tr, r = (a, Ok (b, m)) /\ run ones [] m = Ok (o, tr).
Proof.
  destruct r as [a [[b m]|]]; unfold runs; cbn [snd]; [|discriminate]. destruct (run ones [] m) as [[o tr]|] eqn:E; [|discriminate].
  intros _. exists a, b, m, o, tr. auto.
Qed.

Lemma exh_flat : exists ob p m o tr, fit_exh sorted_sets (Some ex_Xh) = (ob, Ok (p, m)) /\ run ones [] m = Ok (o, tr) /\ flat_trend (o_trend ob).
Proof.
  assert (H : runs (fit_exh sorted_sets (Some ex_Xh)) = true) by (vm_compute; reflexivity).
  assert (F : flat_trend (o_trend (fst (fit_exh sorted_sets (Some ex_Xh))))) by (vm_compute; exact I).
  apply runs_true in H as (ob & p & m & o & tr & E & R). rewrite E in F. exists ob, p, m, o, tr. auto.
Qed.
Lemma pw_shapes : exists ob p m o tr, fit_pw sorted_sets (Some ex_Xh) = (ob, Ok (p, m)) /\ run ones [] m = Ok (o, tr) /\ scalar_piecewise (o_trend ob).
Proof.
  assert (H : runs (fit_pw sorted_sets (Some ex_Xh)) = true) by (use_pw; vm_compute; reflexivity).
  assert (F : scalar_piecewise (o_trend (fst (fit_pw sorted_sets (Some ex_Xh))))) by (use_pw; vm_compute; split; eexists; reflexivity).
  apply runs_true in H as (ob & p & m & o & tr & E & R). rewrite E in F. exists ob, p, m, o, tr. auto.
Qed.
Lemma uni_flat : exists ob p m o tr, fit_ex [linear_tv] None (Some Xu) = (ob, Ok (p, m)) /\ run ones [] m = Ok (o, tr) /\ flat_trend (o_trend ob).
Proof.
  assert (H : runs (fit_ex [linear_tv] None (Some Xu)) = true) by (vm_compute; reflexivity).
  assert (F : flat_trend (o_trend (fst (fit_ex [linear_tv] None (Some Xu))))) by (vm_compute; exact I).
  apply runs_true in H as (ob & p & m & o & tr & E & R). rewrite E in F. exists ob, p, m, o, tr. auto.
Qed.
Lemma ex_balanced : balanced ex_yh.
Proof.
  split; [unfold labels; simpl; repeat constructor; simpl; intuition congruence|].
  intros p t Hp Ht. simpl in Hp, Ht. unfold labels. simpl. intuition subst; auto 6.
Qed.
Lemma pw_succeeds : succeeds (fit_pw sorted_sets (Some ex_Xh)) = true.
Proof. use_pw. vm_compute. reflexivity. Qed.
