(** The documented link and variance. *)
From Coq Require Import Reals Lra String List.
From Verif.Model Require Import Base Num Arr Prog.
From Verif.Spec Require Import ProgSpec ObservedSpec.
Import ListNotations.
Local Open Scope R_scope.

Lemma link_documented s : 1 / 10000000000 <= documented_link s -> link s = documented_link s.
Proof. intros H. unfold link. now apply Rmax_right. Qed.
Lemma link_identity s : 1 / 100000 < s -> link s = s.
Proof. intros H. rewrite link_documented; unfold documented_link; destruct (Rle_dec s (1 / 100000)); lra. Qed.
Lemma link_floor s : s <= -100000 -> link s = 1 / 10000000000 /\ documented_link s < 1 / 10000000000.
Proof.
  intros H. assert (D : documented_link s < 1 / 10000000000).
  { unfold documented_link. destruct (Rle_dec s (1 / 100000)); [|lra]. set (x := 1 / 100000 - s). replace (s - 1 / 100000) with (- x) by (unfold x; lra). rewrite exp_Ropp.
    assert (X : 100000 < x) by (unfold x; lra). pose proof (exp_ineq1 x ltac:(lra)) as E. assert (I : / exp x < / 100000) by (apply Rinv_lt_contravar; [apply Rmult_lt_0_compat; lra|lra]). lra. }
  split; [|exact D]. unfold link. apply Rmax_left. lra.
Qed.
Lemma link_pos s : 0 < link s.
Proof. unfold link. pose proof (Rmax_l (1 / 10000000000) (documented_link s)). lra. Qed.

(** counts: the larger the noise parameter, the smaller the variance *)
Lemma counts_variance u s sigma sigma' d d' k : 0 < u -> 0 < sigma < sigma' -> law "negbinomial" u sigma d k s -> law "negbinomial" u sigma' d' k s ->
  exists a b x r a' b' x' r', d = DNegBinomial2 a b /\ nth_error (a_flat a) k = Some x /\ nth_error (a_flat b) k = Some r /\
    d' = DNegBinomial2 a' b' /\ nth_error (a_flat a') k = Some x' /\ nth_error (a_flat b') k = Some r' /\
    nb2_mean x' r' = nb2_mean x r /\ nb2_mean x' r' < nb2_var x' r' < nb2_var x r.
Proof.
  intros U S [[E _]|[[E _]|(_ & a & b & x & r & -> & A & B & M & V)]] [[E' _]|[[E' _]|(_ & a' & b' & x' & r' & -> & A' & B' & M' & V')]]; try discriminate.
  exists a, b, x, r, a', b', x', r'. do 6 (split; [reflexivity || assumption|]). split; [congruence|]. rewrite M', V, V'. pose proof (link_pos s) as P. set (w := u * link s) in *.
  assert (W : 0 < w) by (apply Rmult_lt_0_compat; assumption). assert (W2 : 0 < w * w) by (apply Rmult_lt_0_compat; assumption).
  assert (S1 : 0 < sigma * u) by (apply Rmult_lt_0_compat; lra). assert (S2 : sigma * u < sigma' * u) by (apply Rmult_lt_compat_r; lra).
  split; [assert (0 < w * w / (sigma' * u)) by (apply Rdiv_lt_0_compat; lra); lra|]. apply Rplus_lt_compat_l. unfold Rdiv. apply Rmult_lt_compat_l; [exact W2|]. apply Rinv_lt_contravar; [apply Rmult_lt_0_compat; lra|exact S2].
Qed.
