(** The observation model of a run. *)
From Coq Require Import Reals Lra ZArith String Bool List Lia.
From Verif.Model Require Import Base Num XFloat Frame Arr Prog Likelihood Effect Trend TrendProg Scale Engine Forecaster.
From Verif.Spec Require Import FrameSpec ProgSpec ForecasterSpec SiteSpec ShapeSpec AlignSpec ObservedSpec.
From Verif.Facts Require Import BaseFacts NumFacts ArrFacts ProgFacts EffectFacts EffectPredict EffectFourier ModelProps LikelihoodFacts FrameFacts MeanFacts PosteriorFacts ShapeFacts SiteFacts ComponentFacts.
Import ListNotations.
Local Open Scope string_scope.

(** * The link *)
Lemma link_positive s : to_positive1 (/ 100000) (/ 10000000000) s = link s.
Proof.
  unfold to_positive1, clip_low, link, documented_link. replace (1 / 10000000000)%R with (/ 10000000000)%R by lra. f_equal.
  replace (1 / 100000)%R with (/ 100000)%R by lra. unfold Rltb. destruct (Rlt_dec s (/ 100000)), (Rle_dec s (/ 100000)); try lra.
  assert (E : s = (/ 100000)%R) by lra. rewrite E. replace (/ 100000 - / 100000)%R with 0%R by lra. rewrite exp_0. lra.
Qed.

(** * Recorded components *)
Lemma nth_entry a k : k < List.length (a_flat a) -> nth_error (a_flat a) k = Some (entry a k).
Proof. intros H. now apply nth_error_nth'. Qed.

Section Run.
Context (e : env) (trend : prog arr) (data : dict edata) (p : list (string * effect)) (k : arr -> prog arr).
Let effs := effect_fns p.
Let mean := compute_mean trend (Some data) (Some effs).
Hypothesis ND : NoDup (map fst p).
Hypothesis NT : ~ In "trend" (map fst p).
Hypothesis WT : forall t, yields e trend t -> arr_wf t.

Lemma run_levels o tr : run e [] (pbind mean k) = Ok (o, tr) -> NoDup (actions e (pbind mean k)) ->
  exists tv m l, yields e trend tv /\ dict_get tr "trend" = Some (SDet tv) /\ arr_wf m /\ a_shape m = a_shape tv /\ arr_wf tv /\
    eval e (k m) = Ok (o, l) /\ NoDup (map fst tr) /\ incl l tr /\ (exists pre, tr = (pre ++ l)%list) /\
    forall q, q < List.length (a_flat m) -> exists s, level tr (map fst p) q s /\ nth_error (a_flat m) q = Some s.
Proof.
  intros H NA. assert (KS : map fst effs = map fst p) by (unfold effs, effect_fns; now rewrite map_map).
  destruct (components_mean e trend data effs k o tr H NA) as (t & vs & m & Y & A & Gt & Gv); [now rewrite KS|now rewrite KS|].
  destruct (run_nodup_trace _ _ _ _ H NA) as (L & EL & -> & NL). apply eval_split in EL as (m' & l & l2 & E1 & E2 & ->).
  assert (m' = m) by (eapply yields_det; [apply eval_yields; eauto|exact Y]). subst m'.
  pose proof A as (Yt & Lv & Vv & Sm & Sv & Wm & Em). assert (W : arr_wf t) by (now apply WT).
  assert (Wv : Forall arr_wf vs).
  { apply Forall_forall. intros v Hv. apply In_nth_error in Hv as (i & Hi).
    destruct (nth_error effs i) as [[name eff]|] eqn:Ei.
    2:{ apply nth_error_None in Ei. assert (i < List.length vs) by (apply nth_error_Some; congruence). lia. }
    destruct (Vv i name eff Ei) as (d & v' & _ & Ev & Yv). assert (v' = v) by congruence. subst v'.
    unfold effs, effect_fns in Ei. rewrite nth_error_map in Ei. destruct (nth_error p i) as [[n ef]|]; [|discriminate]. injection Ei as <- <-.
    cbn [snd] in Yv. eapply predict_wf; [exact W| |exact Yv]. reflexivity. }
  specialize (Wm W Wv). exists t, m, l2. do 6 (split; [assumption|]). split; [exact NL|]. split; [intros x Hx; apply in_app_iff; now right|]. split; [eexists; reflexivity|].
  intros q Hq. exists (entry m q). split; [|now apply nth_entry].
  exists (entry t q :: map (fun v => entry v q) vs). split; [|rewrite (Em q Hq); reflexivity].
  assert (LT : q < List.length (a_flat t)) by (unfold arr_wf in *; congruence).
  constructor; [exists t; split; [exact Gt|now apply nth_entry]|].
  assert (G : forall i n v, nth_error (map fst p) i = Some n -> nth_error vs i = Some v -> exists w, dict_get (l ++ l2)%list n = Some (SDet w) /\ nth_error (a_flat w) q = Some (entry v q)).
  { intros i n v Hn Hv. rewrite <- KS, nth_error_map in Hn. destruct (nth_error effs i) as [[n' eff]|] eqn:Ei; [|discriminate]. injection Hn as <-.
    exists v. split; [eapply Gv; eassumption|]. apply nth_entry. apply nth_error_In in Hv. rewrite Forall_forall in Wv. pose proof (Wv v Hv) as V1. pose proof (Sv v Hv) as V2. unfold arr_wf in *. congruence. }
  assert (LN : List.length (map fst p) = List.length vs) by (rewrite <- KS, map_length; congruence). clear -G LN.
  revert vs G LN. induction (map fst p) as [|n ns IH]; intros [|v vs] G LN; simpl in LN; try lia; cbn [map]; constructor.
  - apply (G 0); reflexivity.
  - apply IH; [|lia]. intros i. apply (G (S i)).
Qed.
End Run.

Ltac steps H := repeat (first
  [ match type of H with context [eval ?e (pbind (lift_res ?x) ?f)] => let a := fresh "a" in let E := fresh "E" in
      destruct x as [a|] eqn:E; [|discriminate H]; cbn [lift_res pbind eval bind] in H end
  | progress cbn [lift_res pbind sample observe plate eval bind] in H ]).

Section Models.
Variables (c : config) (s : scale) (p : prepared) (t : trend) (td : tdata) (y : option arr) (data : dict edata) (e : env) (o : arr) (tr : trace).
Hypothesis HX : c_hier c = false -> p_has_exogenous p = true.
Hypothesis ND : NoDup (map fst (p_effects p)).
Hypothesis HC : forall n ef, In (n, ef) (p_effects p) -> free_name n /\ unnested ef.
Hypothesis WT : forall tv, yields e (trend_predict t td) tv -> arr_wf tv.
Hypothesis HR : run e [] (model_call c s p t td y (Some data)) = Ok (o, tr).

Lemma no_trend : ~ In "trend" (map fst (p_effects p)).
Proof. intros I. apply in_map_iff in I as ([n ef] & E & I). destruct (HC _ _ I) as [[_ F] _]. cbn [fst] in E. subst n. apply F. simpl. auto. Qed.
Lemma sites_once : NoDup (actions e (model_call c s p t td y (Some data))).
Proof. eapply model_sites; eauto. apply run_eval in HR as (l0 & E0 & _). apply eval_yields. eauto. Qed.

Definition seen_as (y : option arr) : bool := match y with Some _ => true | None => false end.

Lemma uni_law : c_hier c = false -> exists tv d, yields e (trend_predict t td) tv /\ dict_get tr "trend" = Some (SDet tv) /\ arr_wf tv /\
  noise_parameter e tr "noise_scale" (c_noise c) /\
  dict_get tr "obs" = Some (SSample d (site_value e "obs" [List.length (a_flat tv); 1] y) (seen_as y)) /\ value_shape d = Some [List.length (a_flat tv); 1] /\
  forall k, k < List.length (a_flat tv) -> exists v, level tr (map fst (p_effects p)) k v /\ law (c_likelihood c) (scale_number s) (e "noise_scale" 0%nat) d k v.
Proof.
  intros Hc. pose proof sites_once as NA. pose proof no_trend as NT. pose proof HR as H. unfold model_call in H, NA. rewrite Hc in H, NA. rewrite (HX Hc) in H, NA.
  destruct (String.eqb (c_likelihood c) "normal") eqn:L1; [|destruct (String.eqb (c_likelihood c) "gamma") eqn:L2; [|destruct (String.eqb (c_likelihood c) "negbinomial") eqn:L3; [|discriminate]]];
    unfold univariate_model, univariate_gamma_model, univariate_negbinomial_model in H, NA;
    destruct (run_levels _ _ _ _ _ ND NT WT _ _ H NA) as (tv & m & l & Yt & Gt & Wm & Sm & Wt & E & NL & IL & _ & LV); steps E; injection E as _ <-;
    assert (LM : List.length (a_flat m) = List.length (a_flat tv)) by (unfold arr_wf in *; congruence).
  - apply String.eqb_eq in L1. exists tv. eexists. split; [exact Yt|]. split; [exact Gt|]. split; [exact Wt|]. split; [apply dict_get_nodup; [exact NL|]; apply IL; now left|].
    split. { apply dict_get_nodup; [exact NL|]. apply IL. right. right. left. cbn [a_shape reshape_col]. rewrite LM. reflexivity. }
    split; [cbn [value_shape reshape_col a_shape]; now rewrite LM|].
    intros k Hk. destruct (LV k ltac:(lia)) as (v & V1 & V2). exists v. split; [exact V1|]. left. split; [exact L1|]. do 2 eexists. split; [reflexivity|]. split; [exact V2|].
    cbn [a_shape reshape_col const_arr a_flat]. unfold item0. cbn. rewrite Nat.mul_1_r. apply nth_error_repeat. lia.
  - apply String.eqb_eq in L2. exists tv. eexists. split; [exact Yt|]. split; [exact Gt|]. split; [exact Wt|]. split; [apply dict_get_nodup; [exact NL|]; apply IL; now left|].
    split. { apply dict_get_nodup; [exact NL|]. apply IL. right. right. left. cbn [a_shape reshape_col to_positive arr_map a_flat]. rewrite map_length, LM. reflexivity. }
    split; [cbn [value_shape gamma_reparametrized reshape_col arr_map to_positive a_shape a_flat]; now rewrite map_length, LM|].
    intros k Hk. destruct (LV k ltac:(lia)) as (v & V1 & V2). exists v. split; [exact V1|]. right. left. split; [exact L2|]. unfold gamma_reparametrized.
    do 4 eexists. split; [reflexivity|]. cbn [a_flat arr_map reshape_col to_positive]. rewrite !nth_error_map, V2. cbn [option_map]. do 2 (split; [reflexivity|]).
    change (item0 (site_value e "noise_scale" [] None)) with (e "noise_scale" 0%nat). intros SP. rewrite !link_positive. pose proof (to_positive1_bound v) as B. rewrite link_positive in B. assert (0 < / 10000000000)%R by lra.
    destruct (gamma_moments (link v) (e "noise_scale" 0%nat)) as (_ & _ & G1 & G2); [lra|exact SP|]. auto.
  - apply String.eqb_eq in L3. exists tv. eexists. split; [exact Yt|]. split; [exact Gt|]. split; [exact Wt|]. split; [apply dict_get_nodup; [exact NL|]; apply IL; now left|].
    split. { apply dict_get_nodup; [exact NL|]. apply IL. right. right. left. cbn [a_shape reshape_col to_positive arr_map a_flat]. rewrite !map_length, LM. reflexivity. }
    split; [cbn [value_shape reshape_col arr_map to_positive a_shape a_flat]; now rewrite !map_length, LM|].
    intros k Hk. destruct (LV k ltac:(lia)) as (v & V1 & V2). exists v. split; [exact V1|]. right. right. split; [exact L3|].
    do 4 eexists. split; [reflexivity|]. cbn [a_flat arr_map reshape_col to_positive a_shape const_arr]. rewrite !nth_error_map, V2. cbn [option_map]. split; [reflexivity|].
    split. { unfold item0. cbn. rewrite Nat.mul_1_r. apply nth_error_repeat. rewrite ?map_length. lia. }
    rewrite link_positive. unfold nb2_mean, nb2_var. change (nth 0 (a_flat (site_value e "noise_scale" [] None)) 0)%R with (e "noise_scale" 0%nat). rewrite !(Rmult_comm (link v)). split; reflexivity.
Qed.

(** hierarchical class, one series *)
Lemma single_law : c_hier c = true -> p_single p = true -> exists tv d (y' : option arr), yields e (trend_predict t td) tv /\ dict_get tr "trend" = Some (SDet tv) /\ arr_wf tv /\
  match y with None => y' = None | Some ya => exists q, squeeze_last ya = Ok q /\ y' = Some (transpose q) end /\
  noise_parameter e tr "std_observation" (c_noise c) /\
  dict_get tr "obs" = Some (SSample d (site_value e "obs" [List.length (a_flat tv); 1] y') (seen_as y)) /\ value_shape d = Some [List.length (a_flat tv); 1] /\
  forall k, k < List.length (a_flat tv) -> exists v, level tr (map fst (p_effects p)) k v /\ law "normal" 1 (e "std_observation" 0%nat) d k v.
Proof.
  intros Hc Hs. pose proof sites_once as NA. pose proof no_trend as NT. pose proof HR as H. unfold model_call in H, NA. rewrite Hc, Hs in H, NA.
  unfold multivariate_model in H, NA. destruct (run_levels _ _ _ _ _ ND NT WT _ _ H NA) as (tv & m & l & Yt & Gt & Wm & Sm & Wt & E & NL & IL & _ & LV).
  assert (LM : List.length (a_flat m) = List.length (a_flat tv)) by (unfold arr_wf in *; congruence).
  assert (Q : exists y', match y with None => y' = None | Some ya => exists q, squeeze_last ya = Ok q /\ y' = Some (transpose q) end /\ seen_as y' = seen_as y /\
    eval e (std <~ sample "std_observation" (DHalfNormal (scalar (c_noise c))) [] ;; _ <~ plate "time" 1 ;;
        observe "obs" (DNormal (reshape_col m) (const_arr (a_shape (reshape_col m)) (item0 std))) (a_shape (reshape_col m)) y') = Ok (o, l)).
  { destruct y as [ya|]; cbn [pbind] in E; [|eexists; split; [|split]; [reflexivity|reflexivity|exact E]]. destruct (squeeze_last ya) as [q|]; cbn [lift_res pbind] in E; [|discriminate]. eexists. split; [eauto|]. split; [reflexivity|exact E]. }
  destruct Q as (y' & QY & QS & QE). clear E. steps QE. injection QE as _ <-.
  exists tv. eexists. exists y'. split; [exact Yt|]. split; [exact Gt|]. split; [exact Wt|]. split; [exact QY|]. split; [apply dict_get_nodup; [exact NL|]; apply IL; now left|].
  split. { apply dict_get_nodup; [exact NL|]. apply IL. right. right. left. cbn [a_shape reshape_col]. rewrite LM, <- QS. reflexivity. }
  split; [cbn [value_shape reshape_col a_shape]; now rewrite LM|].
  intros k Hk. destruct (LV k ltac:(lia)) as (v & V1 & V2). exists v. split; [exact V1|]. left. split; [reflexivity|]. do 2 eexists. split; [reflexivity|]. split; [exact V2|].
  cbn [a_shape reshape_col const_arr a_flat]. unfold item0. cbn. rewrite Nat.mul_1_r. apply nth_error_repeat. lia.
Qed.

(** hierarchical class, several series *)
Lemma joint_laws n T : c_hier c = true -> p_single p = false -> (forall tv, yields e (trend_predict t td) tv -> a_shape tv = [n; T; 1]) ->
  exists tv d (y' : option arr) (sum : nat -> nat -> R), yields e (trend_predict t td) tv /\ dict_get tr "trend" = Some (SDet tv) /\ arr_wf tv /\
  match y with None => y' = None | Some ya => exists q, squeeze_last ya = Ok q /\ y' = Some (transpose q) end /\
  noise_parameters e tr n (c_noise c) (c_concentration c) /\
  dict_get tr "obs" = Some (SSample d (site_value e "obs" [1; T; n] y') (seen_as y)) /\
  (forall i j, i < n -> j < T -> level tr (map fst (p_effects p)) (i * T + j) (sum i j)) /\ joint_law e d n T sum.
Proof.
  intros Hc Hs SH. pose proof sites_once as NA. pose proof no_trend as NT. pose proof HR as H. unfold model_call in H, NA. rewrite Hc, Hs in H, NA.
  unfold multivariate_model in H, NA. destruct (run_levels _ _ _ _ _ ND NT WT _ _ H NA) as (tv & m & l & Yt & Gt & Wm & Sm & Wt & E & NL & IL & _ & LV).
  rewrite (SH _ Yt) in Sm. assert (LM : List.length (a_flat m) = n * T) by (unfold arr_wf in Wm; rewrite Wm, Sm; simpl; lia).
  assert (Q : exists y', match y with None => y' = None | Some ya => exists q, squeeze_last ya = Ok q /\ y' = Some (transpose q) end /\ seen_as y' = seen_as y /\
    eval e (n <~ lift_res (shape_at m 0) ;;
        std <~ sample "std_observation" (DHalfNormal (const_arr [n] (c_noise c))) [n] ;;
        corr <~ sample "corr_matrix" (DLKJCholesky n (c_concentration c)) [n; n] ;;
        half <~ lift_res (matmul (diag std) corr) ;; cov <~ lift_res (matmul half (diag std)) ;;
        t <~ lift_res (shape_at m 1) ;; _ <~ plate "time" (last (a_shape m) 0) ;;
        loc <~ lift_res (squeeze_last m) ;;
        observe "obs" (DMvNormal (transpose loc) (tile0 t cov)) (1 :: a_shape (transpose loc)) y') = Ok (o, l)).
  { destruct y as [ya|]; cbn [pbind] in E; [|eexists; split; [|split]; [reflexivity|reflexivity|exact E]]. destruct (squeeze_last ya) as [q|]; cbn [lift_res pbind] in E; [|discriminate]. eexists. split; [eauto|]. split; [reflexivity|exact E]. }
  destruct Q as (y' & QY & QS & QE). clear E. unfold shape_at, squeeze_last in QE. rewrite Sm in QE. cbn [rev app nth_error] in QE.
  cbn [lift_res pbind sample eval bind] in QE.
  set (std := site_value e "std_observation" [n] None) in QE. set (corr := site_value e "corr_matrix" [n; n] None) in QE.
  assert (Lstd : List.length (a_flat std) = n). { unfold std. cbn [site_value a_flat]. rewrite map_length, seq_length. simpl. lia. }
  destruct (diag_left std corr n n) as (half & E1 & S1 & G1); [reflexivity|assumption|]. rewrite E1 in QE.
  destruct (diag_right std half n n) as (cov & E2 & S2 & G2); [assumption|assumption|].
  set (loc := mkArr [n; T] (a_flat m)) in QE. cbn [lift_res pbind eval bind] in QE. rewrite E2 in QE. cbn [lift_res pbind plate observe eval bind] in QE. injection QE as _ <-.
  exists tv. eexists. exists y', (fun i j => entry m (i * T + j)). split; [exact Yt|]. split; [exact Gt|]. split; [exact Wt|]. split; [exact QY|].
  split. { split; (apply dict_get_nodup; [exact NL|]; apply IL).
    - left. unfold std, site_value. cbn [prod_shape fold_right]. now rewrite Nat.mul_1_r.
    - right. left. unfold corr, site_value. cbn [prod_shape fold_right]. now rewrite Nat.mul_1_r. }
  split. { apply dict_get_nodup; [exact NL|]. apply IL. right. right. right. left. cbn [a_shape]. rewrite <- QS. reflexivity. }
  split. { intros i j Hi Hj. destruct (LV (i * T + j)) as (v & V1 & V2); [nia|]. apply nth_error_nth with (d := 0%R) in V2. unfold entry. now rewrite V2. }
  assert (WL : arr_wf (transpose loc)) by (unfold transpose; apply tabulate_wf).
  assert (WC : arr_wf cov) by (eapply matmul_wf; exact E2).
  assert (WTl : arr_wf (tile0 T cov)).
  { unfold arr_wf, tile0. cbn [a_shape a_flat]. unfold arr_wf in WC. rewrite (concat_length_uniform (List.length (a_flat cov)) (repeat (a_flat cov) T)), repeat_length, WC; [reflexivity|]. intros x Hx. now apply repeat_spec in Hx as ->. }
  exists (transpose loc), (tile0 T cov). split; [reflexivity|]. split; [reflexivity|]. split; [exact WL|]. split; [unfold tile0; cbn [a_shape]; now rewrite S2|]. split; [exact WTl|]. split.
  - intros i j Hi Hj. assert (G : aget (transpose loc) [j; i] = entry m (i * T + j)).
    { unfold transpose. cbn [a_shape loc rev app]. rewrite (aget_tabulate [T; n] _ [j; i]) by (repeat constructor; assumption). cbn [rev app]. unfold aget, entry, loc. cbn [a_shape a_flat ravel prod_shape fold_right]. f_equal. lia. }
    rewrite <- G. unfold aget. cbn [transpose tabulate a_shape rev app loc ravel prod_shape fold_right]. replace (j * (n * 1) + (i * 1 + 0)) with (j * n + i) by lia. apply nth_error_nth'.
    unfold arr_wf in WL. change (a_shape (transpose loc)) with [T; n] in WL. unfold transpose, tabulate in WL. cbn [a_flat] in WL. cbn [a_flat transpose tabulate]. rewrite WL. simpl. nia.
  - intros j i k Hj Hi Hk.
    assert (G : aget (tile0 T cov) [j; i; k] = (e "std_observation" i * e "corr_matrix" (i * n + k)%nat * e "std_observation" k)%R).
    { rewrite (tile0_get T cov n n) by assumption. rewrite G2, G1 by assumption. unfold std, corr. unfold aget. cbn [site_value a_flat a_shape ravel].
      rewrite (nth_map_seq _ (prod_shape [n])) by (simpl; lia). rewrite (nth_map_seq _ (prod_shape [n])) by (simpl; lia).
      rewrite (nth_map_seq _ (prod_shape [n; n])) by (simpl; nia). simpl. replace (i * (n * 1) + (k * 1 + 0)) with (i * n + k) by lia. reflexivity. }
    rewrite <- G. unfold aget. assert (ST : a_shape (tile0 T cov) = [T; n; n]) by (unfold tile0; cbn [a_shape]; now rewrite S2). rewrite ST. cbn [ravel prod_shape fold_right].
    replace (j * (n * (n * 1)) + (i * (n * 1) + (k * 1 + 0))) with ((j * n + i) * n + k) by nia. apply nth_error_nth'. unfold arr_wf in WTl. rewrite WTl, ST. simpl. assert (j * n + i < T * n) by nia. nia.
Qed.
End Models.
