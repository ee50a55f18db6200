(** The trend as computed by [_predict]: continuity and slopes. *)
From Coq Require Import Reals Lra List Lia.
From Verif.Model Require Import Base Num Arr Frame Trend.
From Verif.Spec Require Import TrendSpec.
From Verif.Facts Require Import TrendFacts.
Import ListNotations.
Local Open Scope R_scope.

(** [f t] is the trend of a single series computed at time [t] *)
Definition computes (cps coefs : list R) (o : R) (f : R -> R) : Prop :=
  forall t, piecewise_predict true 1 (get_changepoint_matrix true [cps] [t]) [o] coefs = Ok (mkArr [1; 1]%nat [f t]).
Lemma computes_eq cps coefs o f : length cps = length coefs -> computes cps coefs o f -> forall t, f t = o + weighted (changepoint_entry t) cps coefs.
Proof. intros L H t. specialize (H t). rewrite piecewise_predict_single in H by assumption. simpl in H. now injection H. Qed.
Lemma computes_ok cps coefs o : length cps = length coefs -> computes cps coefs o (fun t => o + weighted (changepoint_entry t) cps coefs).
Proof. intros L t. now rewrite piecewise_predict_single. Qed.
Lemma continuous_ext f g x : (forall t, f t = g t) -> continuous_at f x -> continuous_at g x.
Proof. intros E H eps He. destruct (H eps He) as (d & Hd & Q). exists d. split; [assumption|]. intros y Hy. rewrite <- !E. auto. Qed.

Lemma c12_refuted c o f : 1 <= c -> computes [c] [1] o f -> ~ continuous_at f c.
Proof.
  intros Hc Hf C. apply (trend_discontinuous c Hc). intros eps He. destruct (C eps He) as (d & Hd & Q). exists d. split; [assumption|].
  intros y Hy. specialize (Q y Hy). rewrite !(computes_eq [c] [1] o f eq_refl Hf) in Q.
  replace (weighted (changepoint_entry y) [c] [1] - weighted (changepoint_entry c) [c] [1])
    with (o + weighted (changepoint_entry y) [c] [1] - (o + weighted (changepoint_entry c) [c] [1])) by lra. exact Q.
Qed.
Lemma c12_partial cps coefs o f t : length cps = length coefs -> computes cps coefs o f ->
  (forall c, In c cps -> 1 <= c /\ c <> t) -> continuous_at f t.
Proof.
  intros L Hf H. apply (continuous_ext (fun t => o + weighted (changepoint_entry t) cps coefs)).
  - intros x. symmetry. now apply computes_eq.
  - now apply trend_continuous_elsewhere.
Qed.
Lemma c12_grid cps coefs o f : length cps = length coefs -> computes cps coefs o f ->
  (forall c, In c cps -> exists k : Z, (0 <= k)%Z /\ c = IZR k) ->
  (forall t : Z, (0 <= t)%Z -> f (IZR t) = o + weighted (fun c => pos_part (IZR t - (c - 1))) cps coefs) /\
  (forall x, continuous_at (fun x => o + weighted (fun c => pos_part (x - (c - 1))) cps coefs) x).
Proof.
  intros L Hf H. destruct (trend_grid_hinge cps coefs H) as [G C]. split.
  - intros t Ht. rewrite (computes_eq cps coefs o f L Hf), G by assumption. reflexivity.
  - intros x eps He. destruct (C x eps He) as (d & Hd & Q). exists d. split; [assumption|]. intros y Hy.
    replace (_ - _) with (weighted (fun c => pos_part (y - (c - 1))) cps coefs - weighted (fun c => pos_part (x - (c - 1))) cps coefs) by lra. auto.
Qed.

Lemma c22_after sq cps blocks offs ts a i j j' :
  Forall2 (fun cp b => length cp = length b) cps blocks -> length offs = length cps -> sq = false \/ (2 <= length cps)%nat ->
  piecewise_predict sq (length cps) (get_changepoint_matrix sq cps ts) offs (concat blocks) = Ok a ->
  (i < length cps)%nat -> (j < length ts)%nat -> (j' < length ts)%nat -> nth j ts 0 <= nth j' ts 0 ->
  (forall c, In c (nth i cps []) -> c <= nth j ts 0) ->
  aget a [i; j'; 0%nat] - aget a [i; j; 0%nat] = (nth j' ts 0 - nth j ts 0) * fold_right Rplus 0 (nth i blocks []).
Proof.
  intros F L S H Hi Hj Hj' T C. destruct (piecewise_predict_multi sq _ cps blocks offs ts F L eq_refl S) as (a' & E & _ & _ & G).
  rewrite E in H. injection H as <-. rewrite !G by assumption. apply slope_after; auto.
  clear - F Hi. revert i Hi. induction F; intros [|i] Hi; simpl in *; try lia; auto. apply IHF. lia.
Qed.
Lemma c22_between sq cps blocks offs ts a i j j' :
  Forall2 (fun cp b => length cp = length b) cps blocks -> length offs = length cps -> sq = false \/ (2 <= length cps)%nat ->
  piecewise_predict sq (length cps) (get_changepoint_matrix sq cps ts) offs (concat blocks) = Ok a ->
  (i < length cps)%nat -> (j < length ts)%nat -> (j' < length ts)%nat -> nth j ts 0 <= nth j' ts 0 ->
  (forall c, In c (nth i cps []) -> c <= nth j ts 0 \/ (1 <= c /\ nth j' ts 0 < c)) ->
  aget a [i; j'; 0%nat] - aget a [i; j; 0%nat] = (nth j' ts 0 - nth j ts 0) * active_sum (nth j ts 0) (nth i cps []) (nth i blocks []).
Proof.
  intros F L S H Hi Hj Hj' T C. destruct (piecewise_predict_multi sq _ cps blocks offs ts F L eq_refl S) as (a' & E & _ & _ & G).
  rewrite E in H. injection H as <-. rewrite !G by assumption. apply slope_between; auto.
Qed.
Lemma c22_single cps coefs o f t t' : length cps = length coefs -> computes cps coefs o f -> t <= t' ->
  (forall c, In c cps -> c <= t \/ (1 <= c /\ t' < c)) -> f t' - f t = (t' - t) * active_sum t cps coefs.
Proof. intros L Hf T C. rewrite !(computes_eq cps coefs o f L Hf). now apply slope_between. Qed.
