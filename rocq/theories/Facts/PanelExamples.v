(** Concrete frames used by the examples of the property files. *)
From Coq Require Import Reals Lra String Bool ZArith Lia List Arith Permutation Sorted.
From Verif.Model Require Import Base Num Arr Frame Aggregate Scale Predict.
From Verif.Spec Require Import FrameSpec ScaleSpec PredictSpec.
From Verif.Facts Require Import BaseFacts NumFacts OrderFacts FrameFacts ScaleFacts ArrFacts PredictFacts QuantileFacts.
Import ListNotations.
Local Open Scope string_scope.
Local Open Scope R_scope.

Ltac rows_cases := repeat match goal with
  | H : _ \/ _ |- _ => destruct H as [<-|H]
  | H : False |- _ => contradiction
  end.

(** two regions, three shops: an unbalanced hierarchy *)
Definition shops : frame R := mkFrame 2 ["y"]
  [mkRow ["n"; "a"] 0%Z [1]; mkRow ["n"; "a"] 1%Z [-2];
   mkRow ["n"; "b"] 0%Z [3]; mkRow ["n"; "b"] 1%Z [4];
   mkRow ["s"; "c"] 0%Z [0]; mkRow ["s"; "c"] 1%Z [0]].

Lemma shops_wf : frame_wf shops.
Proof. intros r Hr. simpl in Hr. rows_cases; split; reflexivity. Qed.
Lemma shops_one_column : one_column shops.
Proof. split; [exact shops_wf|reflexivity]. Qed.
Lemma shops_no_total r : In r (f_rows shops) -> ~ In total_name (r_path r).
Proof. intros Hr. simpl in Hr. rows_cases; simpl; intuition discriminate. Qed.
Lemma shops_sorted : sort_index shops = shops.
Proof. reflexivity. Qed.

Definition single : frame R := mkFrame 0 ["y"] [mkRow [] 0%Z [1]; mkRow [] 1%Z [-4]].
Lemma single_one_column : one_column single.
Proof. split; [intros r Hr; simpl in Hr; rows_cases; split; reflexivity|reflexivity]. Qed.

Lemma single_abs_max : is_abs_max (flat_map r_vals (f_rows single)) 4.
Proof.
  split.
  - exists (-4). split; [simpl; auto|]. rewrite Rabs_left; lra.
  - intros x Hx. simpl in Hx. rows_cases.
    + rewrite Rabs_right; lra.
    + rewrite Rabs_left; lra.
Qed.
Lemma single_scale : set_y_scales None single = Ok (SFloat 4).
Proof.
  rewrite (auto_scale_single single 4); [|apply single_one_column|reflexivity|exact single_abs_max].
  destruct (Reqb 4 0) eqn:E; [apply Reqb_true in E; lra|reflexivity].
Qed.

Definition zeros : frame R := mkFrame 0 ["y"] [mkRow [] 0%Z [0]; mkRow [] 1%Z [0]; mkRow [] 2%Z [0]].
Lemma zeros_one_column : one_column zeros.
Proof. split; [intros r Hr; simpl in Hr; rows_cases; split; reflexivity|reflexivity]. Qed.
Lemma zeros_scale : set_y_scales None zeros = Ok (SInt 1).
Proof.
  rewrite (auto_scale_single zeros 0); [|apply zeros_one_column|reflexivity|].
  - now rewrite Reqb_refl.
  - split; [exists 0; split; [simpl; auto|apply Rabs_R0]|]. intros x Hx. simpl in Hx. rows_cases; rewrite Rabs_R0; lra.
Qed.

(** labellers *)
Definition shop_index : list (path * Z) :=
  [(["__total"; "__total"], 0%Z); (["n"; "__total"], 0%Z); (["n"; "a"], 0%Z); (["n"; "b"], 0%Z); (["s"; "c"], 0%Z)].
Definition shop_lab : labeller := mkLab 2 shop_index true (STable [(["n"; "a"], 2); (["n"; "b"], 4); (["s"; "c"], 1)]) false.
Definition shop_unit (p : path) : R :=
  if path_eqb p ["n"; "a"] then 2 else if path_eqb p ["n"; "b"] then 4 else 1.

Lemma shop_index_series : index_series shop_lab = [["n"; "a"]; ["n"; "b"]; ["s"; "c"]].
Proof. vm_compute. reflexivity. Qed.
Lemma shop_units p : In p (index_series shop_lab) -> unit_of (lb_discrete shop_lab) (lb_scale shop_lab) p (shop_unit p).
Proof. rewrite shop_index_series. simpl. intros H. rows_cases; reflexivity. Qed.

(** one draw, two times, three series *)
Definition shop_obs : arr := mkArr [1%nat; 1%nat; 2%nat; 3%nat] [1; 2; 3; 4; 5; 6].
Definition shop_trend : arr := mkArr [1%nat; 3%nat; 2%nat; 1%nat] [1; 4; 2; 5; 3; 6].

(** ** lemmas closing the properties *)
Lemma round_trip_user user y s discrete ys :
  frame_wf y -> set_y_scales user y = Ok s -> scale_y discrete s y = Ok ys -> inv_scale_y discrete s ys = Ok y.
Proof. intros W H. apply scale_round_trip; [assumption|]. now apply set_y_scales_nz in H. Qed.

Lemma scaled_values y s ys p v :
  scale_y false s y = Ok ys -> (exists c, s = SFloat c) \/ (exists tab, s = STable tab) ->
  (values_of ys p v <-> exists v0 c, values_of y p v0 /\ scale_of s p = Some c /\ v = v0 / c) /\
  labels ys = labels y.
Proof.
  intros H K. unfold scale_y in H.
  set (c := fun p => match scale_of s p with Some c => c | None => 1 end).
  assert (HS : forall r, In r (f_rows y) -> scale_of s (r_path r) = Some (c (r_path r))).
  { intros r Hr. unfold c. destruct K as [[c0 ->]|[tab ->]]; [reflexivity|].
    destruct (apply_scale_ok_inv _ _ _ _ H) as [[c0 E]|[(tab' & E & HL & HT)|[tab' E]]]; try discriminate.
    injection E as ->. specialize (HT r Hr). simpl. destruct (tab_get tab' (r_path r)); congruence. }
  assert (HL : forall tab, s = STable tab -> f_levels y <> 0%nat).
  { intros tab ->. destruct (apply_scale_ok_inv _ _ _ _ H) as [[c0 E]|[(tab' & E & HL & HT)|[tab' E]]]; [discriminate|assumption|discriminate]. }
  rewrite (apply_scale_rows _ _ _ c HS HL K) in H. injection H as <-. split.
  - rewrite scale_rows_values. split.
    + intros (v0 & Hv & ->). exists v0, (c p). split; [assumption|]. split; [|reflexivity].
      destruct Hv as (r & Hr & <- & _). now apply HS.
    + intros (v0 & c0 & Hv & E & ->). exists v0. split; [assumption|]. unfold c. now rewrite E.
  - unfold labels, scale_rows. simpl. rewrite map_map. reflexivity.
Qed.

Lemma auto_panel_runs y : one_column y -> f_levels y <> 0%nat ->
  exists s ys, set_y_scales None y = Ok s /\ scale_y false s y = Ok ys.
Proof.
  intros OC L. destruct (auto_scale_panel y OC L) as (c & E & Hc). eexists. eexists. split; [exact E|].
  apply (apply_scale_rows _ _ _ c).
  - intros r Hr. simpl. apply tab_get_graph. apply series_ids_In. eauto.
  - intros; assumption.
  - eauto.
Qed.

Lemma auto_single_runs y : one_column y -> f_levels y = 0%nat -> (exists v, values_of y [] v /\ v <> 0) ->
  exists c ys, set_y_scales None y = Ok (SFloat c) /\ 0 < c /\ scale_y false (SFloat c) y = Ok ys.
Proof.
  intros [W L1] L (v & (r & Hr & _ & Hv) & Hn).
  assert (Hin : In v (flat_map r_vals (f_rows y))) by (apply in_flat_map; eauto).
  destruct (abs_max_nonempty (flat_map r_vals (f_rows y))) as (m & Em); [intros E; rewrite E in Hin; contradiction|].
  apply abs_max_spec in Em. assert (P : 0 < m) by (destruct Em as [_ B]; specialize (B v Hin); pose proof (Rabs_pos_lt v Hn); lra).
  assert (E : set_y_scales None y = Ok (SFloat m)).
  { rewrite (auto_scale_single y m W L Em). destruct (Reqb m 0) eqn:E; [apply Reqb_true in E; lra|reflexivity]. }
  exists m. eexists. split; [exact E|]. split; [exact P|reflexivity].
Qed.

Lemma float_scale_runs y c discrete : c <> 0 ->
  set_y_scales (Some (SFloat c)) y = Ok (SFloat c) /\ exists ys, scale_y discrete (SFloat c) y = Ok ys.
Proof.
  intros H. split.
  - unfold set_y_scales. simpl. destruct (Reqb c 0) eqn:E; [apply Reqb_true in E; contradiction|]. reflexivity.
  - destruct discrete; simpl; eauto.
Qed.

Lemma zeros_fail : exists y, one_column y /\ f_rows y <> [] /\
  set_y_scales None y = Ok (SInt 1) /\ scale_y false (SInt 1) y = Err AttributeError.
Proof. exists zeros. split; [exact zeros_one_column|]. split; [discriminate|]. split; [exact zeros_scale|reflexivity]. Qed.

Lemma int_scale_fails y z : z <> 0%Z ->
  set_y_scales (Some (SInt z)) y = Ok (SInt z) /\ scale_y false (SInt z) y = Err AttributeError.
Proof. intros H. split; [|reflexivity]. unfold set_y_scales. simpl. destruct (Z.eqb_spec z 0); [contradiction|reflexivity]. Qed.

Lemma series_scale_fails y tab s : one_column y -> length (f_rows y) <> 1%nat ->
  set_y_scales (Some (SSeries tab)) y = Ok s -> exists e, scale_y false s y = Err e.
Proof.
  intros [W L1] HR H. unfold set_y_scales in H. simpl in H. injection H as <-. unfold scale_y. simpl.
  destruct (scale_for_each_obs _ y) as [cs|e] eqn:E; simpl; [|eauto].
  unfold by_column. assert (length cs = length (f_rows y)).
  { unfold scale_for_each_obs in E. destruct (f_levels y); [discriminate|]. now apply mapM_length in E. }
  destruct (Nat.eqb_spec (length cs) (length (f_cols y))) as [X|X]; [|eauto]. exfalso. apply HR. congruence.
Qed.

Lemma shops_abs_max m p vs : flat_map r_vals (rows_of shops p) = vs -> is_abs_max (flat_map r_vals (rows_of shops p)) m -> is_abs_max vs m.
Proof. now intros <-. Qed.

Lemma shops_scaling_runs : exists s ys, frame_wf shops /\ set_y_scales None shops = Ok s /\
  scale_y false s shops = Ok ys /\ ys <> shops.
Proof.
  destruct (auto_scale_panel shops shops_one_column) as (c & E & Hc); [discriminate|].
  destruct (auto_panel_runs shops shops_one_column) as (s & ys & E1 & E2); [discriminate|].
  exists s, ys. split; [exact shops_wf|]. split; [assumption|]. split; [assumption|]. intros ->.
  destruct (auto_scale_attained shops shops s ["n"; "a"] 1 shops_one_column E1 E2) as (w & _ & _).
  - exists (mkRow ["n"; "a"] 0%Z [1]). simpl. auto.
  - lra.
  - assert (B : -1 <= 4 <= 1).
    { apply (auto_scale_bound shops shops s ["n"; "b"] 4 shops_one_column E1 E2).
      exists (mkRow ["n"; "b"] 1%Z [4]). simpl. auto 10. }
    lra.
Qed.

Lemma shops_c02 : exists s ys, one_column shops /\ set_y_scales None shops = Ok s /\
  scale_y false s shops = Ok ys /\ values_of shops ["n"; "b"] 4 /\
  (forall v, values_of shops ["s"; "c"] v -> v = 0).
Proof.
  destruct (auto_panel_runs shops shops_one_column) as (s & ys & E1 & E2); [discriminate|].
  exists s, ys. split; [exact shops_one_column|]. split; [assumption|]. split; [assumption|]. split.
  - exists (mkRow ["n"; "b"] 1%Z [4]). simpl. auto 10.
  - intros v (r & Hr & Hp & Hv). simpl in Hr. rows_cases; simpl in *; try discriminate; destruct Hv as [<-|[]]; reflexivity.
Qed.

Lemma c03_cases : one_column shops /\ f_levels shops <> 0%nat /\ one_column single /\
  f_levels single = 0%nat /\ (exists v, values_of single [] v /\ v <> 0).
Proof.
  split; [exact shops_one_column|]. split; [discriminate|]. split; [exact single_one_column|]. split; [reflexivity|].
  exists 1. split; [|lra]. exists (mkRow [] 0%Z [1]). simpl. auto.
Qed.
