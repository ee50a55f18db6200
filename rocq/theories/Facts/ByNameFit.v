(** Training finds the columns of the exogenous data by name. *)
From Coq Require Import Reals ZArith String Bool List Lia Permutation.
From Verif.Model Require Import Base Num XFloat Regex Frame Expand Arr Aggregate Scale Prog Likelihood Effect Trend TrendProg Engine Forecaster Predict.
From Verif.Spec Require Import FrameSpec ForecasterSpec ByNameSpec.
From Verif.Facts Require Import BaseFacts FrameFacts ExpandFacts OrderFacts ForecasterInv ByNameFacts ByNameForecaster.
Import ListNotations.
Local Open Scope string_scope.

(** * the alphabetical order *)
Lemma sleb_trans a b c : String.leb a b = true -> String.leb b c = true -> String.leb a c = true.
Proof.
  unfold String.leb. destruct (String.compare a b) eqn:E1; try discriminate; destruct (String.compare b c) eqn:E2; try discriminate; intros _ _.
  - apply String.compare_eq_iff in E1. apply String.compare_eq_iff in E2. subst. now rewrite str_compare_refl.
  - apply String.compare_eq_iff in E1. subst. now rewrite E2.
  - apply String.compare_eq_iff in E2. subst. now rewrite E1.
  - now rewrite (str_compare_lt_trans _ _ _ E1 E2).
Qed.
Lemma insert_comm x y l : str_insert x (str_insert y l) = str_insert y (str_insert x l).
Proof.
  destruct (String.eqb_spec x y) as [->|NE]; [reflexivity|].
  assert (XY : String.leb x y = true -> String.leb y x = false) by (intros A; destruct (String.leb y x) eqn:B; [destruct NE; now apply String.leb_antisym|reflexivity]).
  assert (YX : String.leb x y = false -> String.leb y x = true) by (intros A; destruct (String.leb_total x y) as [B|B]; congruence).
  induction l as [|z l IH]; cbn [str_insert].
  - destruct (String.leb x y) eqn:E; [now rewrite (XY eq_refl)|now rewrite (YX eq_refl)].
  - destruct (String.leb y z) eqn:EY, (String.leb x z) eqn:EX; cbn [str_insert]; rewrite ?EX, ?EY.
    + destruct (String.leb x y) eqn:E; [now rewrite (XY eq_refl)|now rewrite (YX eq_refl)].
    + destruct (String.leb x y) eqn:E; [|reflexivity]. rewrite (sleb_trans _ _ _ E EY) in EX. discriminate.
    + destruct (String.leb y x) eqn:E; [|reflexivity]. rewrite (sleb_trans _ _ _ E EX) in EY. discriminate.
    + now rewrite IH.
Qed.
Lemma sort_perm l1 l2 : Permutation l1 l2 -> str_sort l1 = str_sort l2.
Proof. induction 1; cbn [str_sort]; [reflexivity|congruence|apply insert_comm|congruence]. Qed.
Lemma uncovered_set c1 c2 fs : (forall n, In n c1 <-> In n c2) -> uncovered c1 fs = uncovered c2 fs.
Proof.
  intros H. unfold uncovered. apply sort_perm. apply NoDup_Permutation; [apply strs_unique_NoDup|apply strs_unique_NoDup|]. intros n. rewrite !strs_unique_In, !filter_In, (H n). tauto.
Qed.

(** * frames with the same columns in another order *)
Notation all := (fun _ : string => True).
Lemma ag_all X1 X2 : ag all X1 X2 -> forall n, In n (f_cols X1) <-> In n (f_cols X2).
Proof. intros (_ & C & _) n. now apply C. Qed.
Lemma ag_length N X1 X2 : ag N X1 X2 -> List.length (f_rows X1) = List.length (f_rows X2).
Proof. intros (_ & _ & F). eapply Forall2_len. exact F. Qed.
Lemma ag_no_columns X1 X2 : ag all X1 X2 -> no_columns X1 = no_columns X2.
Proof.
  intros A. pose proof (ag_all _ _ A) as H. unfold no_columns. destruct (f_cols X1) as [|a l1], (f_cols X2) as [|b l2]; try reflexivity; exfalso; [apply (H b)|apply (H a)]; now left.
Qed.
Lemma ag_seen X1 X2 : ag all X1 X2 -> forall n, In n (columns_seen (Some X1)) <-> In n (columns_seen (Some X2)).
Proof.
  intros A n. pose proof (ag_all _ _ A n) as H. pose proof (ag_no_columns _ _ A) as E. pose proof (ag_length _ _ _ A) as L. unfold columns_seen, frame_empty, no_columns in *.
  destruct (f_cols X1) as [|a l1], (f_cols X2) as [|b l2]; try discriminate E; [tauto|]. destruct (f_rows X1), (f_rows X2); try discriminate L; [tauto|exact H].
Qed.
Lemma ag_loc N X1 X2 index : ag N X1 X2 -> ag_res N (loc_index X1 index) (loc_index X2 index).
Proof.
  intros (L & C & F). unfold loc_index.
  assert (G : match mapM (fun pt => match filter (fun r => path_eqb (r_path r) (fst pt) && Z.eqb (r_time r) (snd pt)) (f_rows X1) with [] => Err KeyError | rs => Ok rs end) index,
                    mapM (fun pt => match filter (fun r => path_eqb (r_path r) (fst pt) && Z.eqb (r_time r) (snd pt)) (f_rows X2) with [] => Err KeyError | rs => Ok rs end) index with
              | Ok a, Ok b => Forall2 (agr N (f_cols X1) (f_cols X2)) (concat a) (concat b) | Err e, Err e' => e = e' | _, _ => False end).
  { unfold path in *. induction index as [|pt index IH]; cbn [mapM]; [constructor|].
    assert (Q : Forall2 (agr N (f_cols X1) (f_cols X2)) (filter (fun r => path_eqb (r_path r) (fst pt) && Z.eqb (r_time r) (snd pt)) (f_rows X1)) (filter (fun r => path_eqb (r_path r) (fst pt) && Z.eqb (r_time r) (snd pt)) (f_rows X2))).
    { clear IH. induction F as [|r1 r2 l1 l2 A F IH]; cbn [filter]; [constructor|]. pose proof A as (P & T & _). rewrite P, T. destruct (_ && _); [now constructor|exact IH]. }
    match type of Q with Forall2 _ ?u ?v => destruct u as [|r1 q1] eqn:EU; destruct v as [|r2 q2] eqn:EV end; try (now inversion Q). cbn [bind].
    destruct (mapM _ index) as [a|], (mapM _ index) as [b|]; try contradiction IH; cbn [bind]; [|exact IH]. cbn [concat]. now apply Forall2_app. }
  unfold path in *. match type of G with match ?u with _ => _ end => destruct u as [a|]; match type of G with match ?v with _ => _ end => destruct v as [b|] end end; try contradiction G; cbn [bind]; [|exact G]. split; [exact L|]. split; [exact C|exact G].
Qed.
Lemma select_cases (X : frame R) l : (exists Z, select_columns 0%R X l = Ok Z /\ List.length (f_rows Z) = List.length (f_rows X) /\ forall n, In n l -> In n (f_cols X)) \/ (select_columns 0%R X l = Err KeyError /\ exists n, In n l /\ ~ In n (f_cols X)).
Proof.
  unfold select_columns. assert (G : (exists p, mapM (fun c => match col_pos (f_cols X) c with Some i => Ok i | None => Err KeyError end) l = Ok p /\ forall n, In n l -> In n (f_cols X)) \/ (mapM (fun c => match col_pos (f_cols X) c with Some i => Ok i | None => Err KeyError end) l = Err KeyError /\ exists n, In n l /\ ~ In n (f_cols X))).
  { induction l as [|c l IH]; cbn [mapM]; [left; eexists; split; [reflexivity|intros n []]|]. destruct (col_pos (f_cols X) c) as [i|] eqn:E; cbn [bind].
    - destruct IH as [(p & -> & H)|(-> & n & H & H')]; cbn [bind]; [left; eexists; split; [reflexivity|]; intros n [<-|Hn]; [apply col_pos_nth in E; now apply nth_error_In in E|auto]|right; split; [reflexivity|exists n; split; [now right|exact H']]].
    - right. split; [reflexivity|]. exists c. split; [now left|now apply col_pos_None]. }
  destruct G as [(p & -> & H)|(-> & H)]; cbn [bind]; [left|right; auto]. eexists. split; [reflexivity|]. cbn [f_rows]. rewrite map_length. auto.
Qed.
Lemma rows_same b1 b2 X1 X2 fh : same_names b1 b2 -> ag all X1 X2 -> match trend_rows b1 X1 fh, trend_rows b2 X2 fh with Ok Z1, Ok Z2 => List.length (f_rows Z1) = List.length (f_rows Z2) | Err e, Err e' => e = e' | _, _ => False end.
Proof.
  intros [E C] A. unfold trend_rows. rewrite <- E. destruct (attr (b_fitted b1)) as [q|]; [|reflexivity]. cbn [bind]. destruct (negb q); [reflexivity|]. destruct (b_cols b1) as [l1|], (b_cols b2) as [l2|]; try contradiction C; [|reflexivity]. cbn [attr bind].
  pose proof (ag_fh all fh _ _ A) as A'. pose proof (ag_all _ _ A') as H. pose proof (ag_length _ _ _ A') as LE.
  destruct (select_cases (filter_fh fh X1) l1) as [(Z1 & -> & L1 & I1)|(-> & n & I1 & J1)], (select_cases (filter_fh fh X2) l2) as [(Z2 & -> & L2 & I2)|(-> & m & I2 & J2)].
  - now rewrite L1, L2.
  - apply J2, H, I1, C, I2.
  - apply J1, H, I2, C, I1.
  - reflexivity.
Qed.
Lemma trends_same ns_of t1 t2 X1 X2 fh : same_trend t1 t2 -> ag all X1 X2 -> trend_transform ns_of t1 X1 fh = trend_transform ns_of t2 X2 fh.
Proof.
  intros S A. destruct t1 as [p1 c1 b1 f1|s1 b1 l1|e1], t2 as [p2 c2 b2 f2|s2 b2 l2|e2]; try contradiction S; cbn [trend_transform].
  - destruct S as (-> & -> & -> & S). pose proof (rows_same _ _ X1 X2 fh S A) as Q. destruct (trend_rows b1 X1 fh), (trend_rows b2 X2 fh); try contradiction Q; cbn [bind]; [reflexivity|now rewrite Q].
  - destruct S as (-> & -> & S). pose proof (rows_same _ _ X1 X2 fh S A) as Q. destruct (trend_rows b1 X1 fh), (trend_rows b2 X2 fh); try contradiction Q; cbn [bind]; [|now rewrite Q]. unfold flat_transform. now rewrite Q.
  - cbn in S. subst e2. now rewrite (transform_same all e1 X1 X2 fh).
Qed.
Lemma calls_same t1 t2 : same_trend t1 t2 -> forall td, trend_predict t1 td = trend_predict t2 td.
Proof.
  intros S td. destruct t1 as [p1 c1 b1 f1|s1 b1 l1|e1], t2 as [p2 c2 b2 f2|s2 b2 l2|e2]; try contradiction S; cbn [trend_predict].
  - destruct S as (-> & -> & -> & _). reflexivity.
  - destruct S as (-> & -> & _). reflexivity.
  - cbn in S. now subst.
Qed.
Lemma fitted_same order c X1 X2 s : same_matches c X1 X2 -> ag all X1 X2 -> fit_effects order (c_default c) (effects_of c) (Some X1) s = fit_effects order (c_default c) (effects_of c) (Some X2) s.
Proof.
  intros M A. unfold fit_effects.
  assert (E : mapM (fit_one order (Some X1) s) (effects_of c) = mapM (fit_one order (Some X2) s) (effects_of c)).
  { unfold same_matches in M. induction (effects_of c) as [|l ls IH]; cbn [mapM]; [reflexivity|]. rewrite IH by (intros l' Hl; apply M; now right).
    assert (E : fit_one order (Some X1) s l = fit_one order (Some X2) s l); [|now rewrite E]. pose proof (M l (or_introl eq_refl)) as Q. destruct l as [[n e] rx]. cbn [snd] in Q. cbn [fit_one]. rewrite Q. destruct (match_columns (f_cols X2) rx) as [cols|]; [|reflexivity]. cbn [bind]. now rewrite (ag_select all X1 X2 cols (fun _ _ => I) A). }
  rewrite E. destruct (mapM (fit_one order (Some X2) s) (effects_of c)) as [fs|]; [|reflexivity]. cbn [bind]. rewrite (uncovered_set _ _ fs (ag_all _ _ A)). destruct (uncovered (f_cols X2) fs) as [|a l]; [reflexivity|]. now rewrite (ag_select all X1 X2 (a :: l) (fun _ _ => I) A).
Qed.
Lemma trend_fit_same ns_of order t X1 X2 y s t1 e1 t2 e2 : plain t -> ag all X1 X2 -> trend_fit ns_of order t (Some X1) y s = (t1, e1) -> trend_fit ns_of order t (Some X2) y s = (t2, e2) -> same_trend t1 t2 /\ e1 = e2.
Proof.
  intros PL A. pose proof (ag_seen _ _ A) as C. unfold trend_fit. destruct t as [p c b f|s0 b l|e]; [| |contradiction].
  - destruct (piecewise_fit ns_of p y); intros H1 H2; injection H1 as <- <-; injection H2 as <- <-; (split; [|reflexivity]); unfold same_trend, same_names; cbn [b_cols b_fitted]; repeat (split; [reflexivity|]); exact C.
  - intros H1 H2; injection H1 as <- <-; injection H2 as <- <-. split; [|reflexivity]. unfold same_trend, same_names; cbn [b_cols b_fitted]; repeat (split; [reflexivity|]); exact C.
Qed.

Section Any.
Variable ns_of : Z -> Z.
Variable order : list string -> list string.
Variable keep : path -> bool.
Context {TS : Type}.
Variable tr_fit_transform : TS -> frame R -> TS * res (frame R).
Variable tr_transform : TS -> frame R -> res (frame R).
Context {P : Type}.
Variable svi_run : Z -> nat -> nat -> prog arr -> res (list xr * P).
Variable nuts_run : Z -> nat -> nat -> nat -> prog arr -> res (nat -> nat -> env).
Variable latent_sites : prog arr -> list string.
Variable guide_draw : P -> Z -> nat -> prog arr -> env.
Variable complete_draw : env -> Z -> nat -> prog arr -> env.
Notation fit_forecaster := (fit_forecaster ns_of order keep tr_fit_transform svi_run nuts_run latent_sites).
Notation predictive_samples_dict := (predictive_samples_dict ns_of keep tr_transform guide_draw complete_draw).

Theorem by_name_fit : forall c (ob : objects (TS := TS)) y X1 X2 ob1 ob2 r1 r2, fit_forecaster c ob y (Some X1) = (ob1, r1) -> fit_forecaster c ob y (Some X2) = (ob2, r2) ->
  c_hier c = false -> o_transformer ob = None -> plain (o_trend ob) -> frame_wf X1 -> frame_wf X2 -> same_columns all X1 X2 -> same_matches c X1 X2 ->
  r1 = r2 /\ same_trend (o_trend ob1) (o_trend ob2) /\ o_transformer ob1 = None /\ o_transformer ob2 = None.
Proof.
  intros c ob y X1 X2 ob1 ob2 r1 r2 H1 H2 HU TN PL W1 W2 S M. pose proof (same_ag _ _ _ W1 W2 S) as A. unfold Forecaster.fit_forecaster in H1, H2.
  assert (REF : forall t, plain t -> same_trend t t). { intros [p c0 [bc bf] f|s0 [bc bf] l|e] Q; [| |contradiction]; cbn; destruct bc; repeat split; auto. }
  destruct (s <- set_y_scales (c_scale c) y ;; ys <- scale_y (discrete c) s y ;; Ok (s, ys)) as [[s ys]|e]; [|injection H1 as <- <-; injection H2 as <- <-; auto].
  unfold fit_data in H1, H2. rewrite HU in H1, H2. unfold univariate_fit_data in H1, H2.
  assert (GT : forall t, get_trend_model c ob = Ok t -> plain t).
  { unfold get_trend_model, named_trend. destruct (c_trend c) as [s0|]; [|now intros t [= <-]]. intros t.
    repeat match goal with |- context [if ?b then _ else _] => destruct b end; intros Q; try discriminate Q; injection Q as <-; exact I. }
  destruct (get_trend_model c ob) as [t|e]; [|injection H1 as <- <-; injection H2 as <- <-; auto]. pose proof (GT t eq_refl) as PT.
  destruct (if discrete c then divide_target s ys else Ok ys) as [yt|e]; [|injection H1 as <- <-; injection H2 as <- <-; cbn [o_trend o_transformer]; auto].
  destruct (trend_fit ns_of order t (Some X1) yt 1%R) as [t1 e1] eqn:T1. destruct (trend_fit ns_of order t (Some X2) yt 1%R) as [t2 e2] eqn:T2. destruct (trend_fit_same _ _ _ _ _ _ _ _ _ _ _ PT A T1 T2) as [ST <-].
  destruct e1 as [e|]; [injection H1 as <- <-; injection H2 as <- <-; cbn [o_trend o_transformer]; auto|].
  unfold run_fit_transform in H1, H2. cbn [o_transformer] in H1, H2. rewrite TN in H1, H2.
  cbn [bind] in H1, H2.
  injection H1 as <- <-. injection H2 as <- <-. cbn [o_trend o_transformer]. split; [|auto].
  pose proof (ag_loc all X1 X2 (index_of ys) A) as QL. rewrite (ag_no_columns _ _ A).
  destruct (loc_index X1 (index_of ys)) as [Z1|] eqn:L1, (loc_index X2 (index_of ys)) as [Z2|] eqn:L2; try contradiction QL; cbn [bind]; [|now rewrite QL]. cbn in QL.
  rewrite (trends_same ns_of t1 t2 Z1 Z2 (time_ids ys) ST QL).
  assert (MZ : same_matches c Z1 Z2).
  { unfold loc_index in L1, L2. inv_bind L1. inv_bind L2. injection L1 as <-. injection L2 as <-. exact M. }
  rewrite (fitted_same order c Z1 Z2 (scale_number s) MZ QL). destruct (trend_transform ns_of t2 Z2 (time_ids ys)) as [td|]; [|reflexivity]. cbn [bind].
  destruct (fit_effects order (c_default c) (effects_of c) (Some Z2) (scale_number s)) as [fs|]; [|reflexivity]. cbn [bind]. rewrite (effects_same all fs Z1 Z2 (time_ids ys)) by auto.
  unfold model_call. now rewrite (calls_same t1 t2 ST td).
Qed.

Theorem by_name_refit : forall c (ob : objects (TS := TS)) y X1 X2 ob1 ob2 (f1 f2 : fitted (P := P)), fit_forecaster c ob y (Some X1) = (ob1, Ok f1) -> fit_forecaster c ob y (Some X2) = (ob2, Ok f2) ->
  c_hier c = false -> o_transformer ob = None -> plain (o_trend ob) -> frame_wf X1 -> frame_wf X2 -> same_columns all X1 X2 -> same_matches c X1 X2 ->
  f1 = f2 /\
  forall y2 Z1 Z2 fh, frame_wf Z1 -> frame_wf Z2 -> same_columns all Z1 Z2 ->
    predictive_samples_dict c ob1 f1 y2 (Some Z1) fh = predictive_samples_dict c ob2 f2 y2 (Some Z2) fh.
Proof.
  intros c ob y X1 X2 ob1 ob2 f1 f2 H1 H2 HU TN PL W1 W2 S M. destruct (by_name_fit c ob y X1 X2 ob1 ob2 _ _ H1 H2 HU TN PL W1 W2 S M) as (E & ST & N1 & N2). injection E as <-. split; [reflexivity|].
  intros y2 Z1 Z2 fh V1 V2 SZ. pose proof (same_ag _ _ _ V1 V2 SZ) as A. unfold Forecaster.predictive_samples_dict. rewrite HU. f_equal. unfold univariate_predict_model. destruct (max_time (map r_time (f_rows y2))) as [cutoff|]; [|reflexivity]. cbn [bind].
  unfold Forecaster.run_transform. rewrite N1, N2. cbn [bind]. rewrite (trends_same ns_of _ _ Z1 Z2 (to_absolute cutoff fh) ST A), (effects_same all (p_fitted (ft_prepared f1)) Z1 Z2 (to_absolute cutoff fh)) by auto.
  destruct (trend_transform _ _ Z2 _) as [td|]; [|reflexivity]. cbn [bind]. destruct (if p_has_exogenous (ft_prepared f1) then _ else _) as [d|]; [|reflexivity]. cbn [bind]. unfold model_call. now rewrite (calls_same _ _ ST td).
Qed.
End Any.
