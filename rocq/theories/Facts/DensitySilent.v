(** Effects whose data are zero, and lift experiments. *)
From Coq Require Import Reals Lra ZArith String Ascii Bool List Lia.
From Verif.Model Require Import Base Num Frame Arr Prog Likelihood Effect Trend TrendProg Scale Expand Forecaster.
From Verif.Spec Require Import FrameSpec ProgSpec EffectSpec ForecasterSpec SiteSpec ComponentSpec CounterSpec DensitySpec.
From Verif.Facts Require Import BaseFacts FrameFacts NumFacts ProgFacts MeanFacts LikelihoodFacts ModelProps EffectPredict ForecasterInv SiteFacts PosteriorFacts ComponentFacts CounterFacts ExpandFacts DensityFacts.
Import ListNotations.
Local Open Scope string_scope.

(** * Values *)
Lemma dot_zero : forall row coefs, (forall v, In v row -> v = 0%R) -> dot row coefs = 0%R.
Proof.
  induction row as [|x row IH]; intros [|c coefs] Z; try reflexivity. cbn [dot]. rewrite (Z x (or_introl eq_refl)).
  rewrite (IH coefs) by (intros; apply Z; now right). lra.
Qed.

Lemma matmul_zero a c c' : (forall v, In v (a_flat a) -> v = 0%R) -> List.length c = List.length c' -> matrix_multiplication a c = matrix_multiplication a c'.
Proof.
  intros Z L. unfold matrix_multiplication. destruct (rev (a_shape a)) as [|k rest]; [reflexivity|]. rewrite L. destruct (Nat.eqb k (List.length c')); [|reflexivity].
  do 2 f_equal. apply map_ext_in. intros row I.
  assert (ZR : forall v, In v row -> v = 0%R).
  { intros v Iv. unfold chunks in I. apply in_map_iff in I as (i & <- & _). apply Z. rewrite <- (firstn_skipn (i * k) (a_flat a)). apply in_app_iff. right. rewrite <- (firstn_skipn k (skipn (i * k) (a_flat a))). apply in_app_iff. now left. }
  now rewrite !dot_zero.
Qed.

Lemma log1_zero s r : log1 s r 0 = 0%R.
Proof.
  unfold log1. rewrite Rmult_0_r, Rplus_0_l. unfold clip_low. rewrite Rmax_right by lra. rewrite ln_1. ring.
Qed.

Section Density.
Variable logpdf : distr -> arr -> R.
Notation log_joint := (log_joint logpdf).
Notation has_density := (has_density logpdf).

(** the value of a quiet effect does not depend on its parameters, which have their prior density *)
Lemma quiet_predict ef x k pe e e' w l w' l' : plain_effect ef -> all_zero k x ->
  eval e (predict ef x pe) = Ok (w, l) -> eval e' (predict ef x pe) = Ok (w', l') ->
  w = w' /\ log_joint l = own_prior logpdf ef k e.
Proof.
  intros P (a & -> & K & Z) E E'. destruct ef as [m prior b|m sp rp b| | |]; try contradiction; cbn [predict] in *; unfold predict_mode in *.
  all: destruct (dict_item pe "trend") as [tv|]; cbn [lift_res pbind] in *; [|discriminate]; set (T := if Nat.eqb (ndim tv) 1 then reshape_col tv else tv) in *; clearbody T.
  - unfold linear_raw in *. destruct (rev (a_shape a)) as [|[|k0] rest] eqn:Sh; try discriminate.
    assert (k = S k0) as ->. { rewrite <- (rev_involutive (a_shape a)), Sh in K. cbn [rev] in K. now rewrite last_last in K. }
    clear K. split; [|clear E']; cbn [pbind plate sample eval bind site_value a_flat] in *.
    + rewrite (matmul_zero a (map (e "coefs") (seq 0 (prod_shape [S k0]))) (map (e' "coefs") (seq 0 (prod_shape [S k0])))) in E by (try exact Z; now rewrite !map_length).
      destruct (matrix_multiplication _ _) as [x|]; cbn [lift_res pbind] in *; [|discriminate]. destruct (reshape _ x) as [x1|]; cbn [lift_res pbind] in *; [|discriminate].
      destruct m; cbn [eval bind] in *; [congruence|]. destruct (arr_zip _ _ _); cbn [lift_res eval bind] in *; congruence.
    + destruct (matrix_multiplication _ _) as [x|]; cbn [lift_res pbind] in *; [|discriminate]. destruct (reshape _ x) as [x1|]; cbn [lift_res pbind] in *; [|discriminate].
      assert (l = [("features_plate", SPlate (S k0)); ("coefs", SSample prior (drawn e "coefs" [S k0]) false)]) as ->.
      { destruct m; cbn [eval bind] in *; [now injection E as <- <-|]. destruct (arr_zip _ _ _); cbn [lift_res eval bind] in *; [now injection E as <- <-|discriminate]. }
      rewrite !log_joint_cons, log_joint_nil. cbn [own_prior]. ring.
  - unfold log_raw in *. clear K. split; [|clear E']; cbn [pbind sample eval bind site_value a_flat] in *.
    + assert (Q : forall s r s' r', arr_map (log1 s r) a = arr_map (log1 s' r') a).
      { intros. unfold arr_map. f_equal. apply map_ext_in. intros v Iv. now rewrite (Z v Iv), !log1_zero. }
      rewrite (Q _ _ (nth 0 (a_flat (mkArr [] (map (e' "log_scale") (seq 0 (prod_shape []))))) 0%R) (nth 0 (a_flat (mkArr [] (map (e' "log_rate") (seq 0 (prod_shape []))))) 0%R)) in E.
      cbn [a_flat] in *. destruct (reshape _ _) as [x1|]; cbn [lift_res pbind] in *; [|discriminate].
      destruct m; cbn [eval bind] in *; [congruence|]. destruct (arr_zip _ _ _); cbn [lift_res eval bind] in *; congruence.
    + destruct (reshape _ _) as [x1|]; cbn [lift_res pbind] in *; [|discriminate].
      assert (l = [("log_scale", SSample sp (drawn e "log_scale" []) false); ("log_rate", SSample rp (drawn e "log_rate" []) false)]) as ->.
      { destruct m; cbn [eval bind] in *; [now injection E as <- <-|]. destruct (arr_zip _ _ _); cbn [lift_res eval bind] in *; [now injection E as <- <-|discriminate]. }
      rewrite !log_joint_cons, log_joint_nil. cbn [own_prior]. ring.
Qed.

(** * Lift experiments *)
Lemma lift_density e inner table ps b s d lift pe v r : unnested (Lift inner table ps b s) ->
  (has_density e (predict (Lift inner table ps b s) (ELift d lift) pe) v r <->
   exists ri, has_density e (predict inner d pe) v ri /\
     r = (ri + logpdf (DMasked (map is_some lift) (DNormal v (const_arr (a_shape v) ps))) (mkArr [List.length lift; 1%nat] (map opt_or_0 lift)))%R).
Proof.
  intros U. assert (UI : unnested inner) by (destruct inner; try exact I; destruct U).
  pose proof (predict_nodup e (Lift inner table ps b s) (ELift d lift) pe U) as N1. pose proof (predict_nodup e inner d pe UI) as N2.
  split.
  - intros H. destruct (density_inv logpdf _ _ _ _ H N1) as (l & E & ->). cbn [predict] in E. rewrite eval_bind in E.
    destruct (eval e (predict inner d pe)) as [[w li]|] eqn:Ei; cbn [bind] in E; [|discriminate]. unfold observe in E. cbn [pbind eval bind site_value] in E. injection E as <- <-.
    exists (log_joint li). split; [now apply density_eval|]. rewrite log_joint_app, log_joint_cons, log_joint_nil. ring.
  - intros (ri & H & ->). destruct (density_inv logpdf _ _ _ _ H N2) as (l & E & ->).
    assert (E2 : eval e (predict (Lift inner table ps b s) (ELift d lift) pe) = Ok (v, (l ++ [("lift_experiment", SSample (DMasked (map is_some lift) (DNormal v (const_arr (a_shape v) ps))) (mkArr [List.length lift; 1] (map opt_or_0 lift)) true)])%list)).
    { cbn [predict]. rewrite eval_bind, E. reflexivity. }
    pose proof (density_eval logpdf _ _ _ _ E2 N1) as D. rewrite log_joint_app, log_joint_cons, log_joint_nil, Rplus_0_r in D. exact D.
Qed.

(** * Prepared data *)
Definition zero_frame (X : frame R) : Prop := forall r, In r (f_rows X) -> forall v, In v (r_vals r) -> v = 0%R.
Lemma select_zero X cols XC : rectangular X -> zero_columns cols X -> select_columns 0%R X cols = Ok XC -> zero_frame XC.
Proof.
  unfold select_columns. intros RC Z H. destruct (mapM _ cols) as [pos|] eqn:M; [|discriminate]. cbn [bind] in H. injection H as <-.
  intros r Ir v Iv. cbn [f_rows] in Ir. apply in_map_iff in Ir as (r0 & <- & Ir). cbn [r_vals] in Iv. unfold select_vals in Iv. apply in_map_iff in Iv as (i & <- & Ii).
  apply mapM_ok in M. apply ForecasterFacts.Forall2_In_both in M. destruct M as [_ B]. destruct (B i Ii) as (n & In_ & E). destruct (col_pos (f_cols X) n) as [i'|] eqn:C; [|discriminate]. injection E as ->.
  apply Forall_forall with (x := r0) in RC; [|exact Ir]. destruct (nth_error (r_vals r0) i) as [v|] eqn:NE.
  - rewrite (nth_error_nth _ _ _ NE). apply (Z r0 n v Ir In_). rewrite (value_of_pos _ _ _ _ RC C). exact NE.
  - apply nth_error_None in NE. now rewrite nth_overflow.
Qed.
Lemma zero_select X cols XC : zero_frame X -> select_columns 0%R X cols = Ok XC -> zero_frame XC.
Proof.
  unfold select_columns. intros Z H. destruct (mapM _ cols) as [pos|] eqn:M; [|discriminate]. cbn [bind] in H. injection H as <-.
  intros r Ir v Iv. cbn [f_rows] in Ir. apply in_map_iff in Ir as (r0 & <- & Ir). cbn [r_vals] in Iv. unfold select_vals in Iv. apply in_map_iff in Iv as (i & <- & Ii).
  destruct (nth_in_or_default i (r_vals r0) 0%R) as [I|E]; [exact (Z _ Ir _ I)|exact E].
Qed.
Lemma zero_filter {P} X : zero_frame X -> zero_frame (filter_rows P X).
Proof. intros Z r Ir. apply Z. unfold filter_rows in Ir. cbn [f_rows] in Ir. apply filter_In in Ir. tauto. Qed.
Lemma zero_array X a : f_levels X = 0 -> zero_frame X -> frame_array X = Ok a -> forall v, In v (a_flat a) -> v = 0%R.
Proof.
  intros L Z H v Iv. unfold frame_array, series_to_tensor_or_array in H. rewrite L in H. cbn [bind] in H. injection H as <-. cbn [arr_of_data a_flat] in Iv.
  apply in_concat in Iv as (vs & I & Iv). apply in_map_iff in I as (r & <- & I). exact (Z _ I _ Iv).
Qed.

Lemma transform_zero ef XC fh x : plain_effect ef -> f_levels XC = 0 -> zero_frame XC -> transform ef (Some XC) fh = Ok x -> should_skip_predict ef = Ok false ->
  exists cols, input_feature_column_names ef = Ok cols /\ all_zero (List.length cols) x.
Proof.
  intros P L Z H S. unfold transform in H. destruct (attr _) as [fitted|]; cbn [bind] in H; [|discriminate]. destruct (negb fitted); [discriminate|].
  rewrite S in H. cbn [bind] in H. destruct (input_feature_column_names ef) as [cols|]; cbn [bind] in H; [|discriminate].
  destruct (select_columns 0%R (filter_fh fh XC) cols) as [Y|] eqn:E; cbn [bind] in H; [|discriminate].
  assert (ZY : zero_frame Y) by (eapply zero_select; [|exact E]; unfold filter_fh; now apply zero_filter).
  assert (LY : f_levels Y = 0) by (destruct (ForecasterFacts.select_columns_cols _ _ _ _ E) as (_ & _ & ->); exact L).
  assert (G : exists a, frame_array Y = Ok a /\ x = EArr a).
  { destruct ef; try contradiction; cbn [inner_transform] in H; (destruct (frame_array Y) as [a|]; cbn [bind] in H; [|discriminate]); injection H as <-; eauto. }
  destruct G as (a & A & ->). exists cols. split; [reflexivity|]. exists a. split; [reflexivity|]. split; [|eapply zero_array; eauto].
  unfold frame_array, series_to_tensor_or_array in A. rewrite LY in A. cbn [bind] in A. injection A as <-. cbn [arr_of_data a_shape last].
  now destruct (ForecasterFacts.select_columns_cols _ _ _ _ E) as (-> & _).
Qed.

Lemma prepared_zero X fh name data ef fitted : f_levels X = 0 -> rectangular X ->
  plain_effect ef -> (forall ef' cols, In (name, ef', cols) fitted -> ef' = ef /\ zero_columns cols X) ->
  transform_effects fitted X fh = Ok data -> forall x, dict_get data name = Some x -> exists cols, input_feature_column_names ef = Ok cols /\ all_zero (List.length cols) x.
Proof.
  intros L RC P HZ. unfold transform_effects. set (PZ := fun x => exists cols, input_feature_column_names ef = Ok cols /\ all_zero (List.length cols) x).
  enough (G : forall acc, (forall x, dict_get acc name = Some x -> PZ x) -> forall d,
    foldM (fun out f => let '(name, e, cols) := f in skip <- should_skip_predict e ;; if (skip : bool) then Ok out
           else XC <- select_columns 0%R X cols ;; d <- transform e (Some XC) fh ;; Ok (dict_set out name d)) acc fitted = Ok d -> forall x, dict_get d name = Some x -> PZ x).
  { intros H. apply (G []); [discriminate|exact H]. }
  induction fitted as [|[[nm e] cols] fitted IH]; intros acc A d H; cbn [foldM] in H; [injection H as <-; exact A|].
  assert (HZ' : forall ef' cols, In (name, ef', cols) fitted -> ef' = ef /\ zero_columns cols X) by (intros; apply HZ; now right).
  destruct (should_skip_predict e) as [[|]|] eqn:S; cbn [bind] in H; [exact (IH HZ' acc A d H)| |discriminate].
  destruct (select_columns 0%R X cols) as [XC|] eqn:E1; cbn [bind] in H; [|discriminate]. destruct (transform e (Some XC) fh) as [x|] eqn:E2; cbn [bind] in H; [|discriminate].
  refine (IH HZ' _ _ d H). intros x0. rewrite dict_get_set. destruct (String.eqb_spec name nm) as [->|NE]; [|exact (A x0)].
  intros [= <-]. destruct (HZ e cols (or_introl eq_refl)) as [-> Z]. eapply transform_zero; [exact P| | |exact E2|exact S].
  - destruct (ForecasterFacts.select_columns_cols _ _ _ _ E1) as (_ & _ & ->). exact L.
  - eapply select_zero; eauto.
Qed.
End Density.
