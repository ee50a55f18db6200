(** Raised inputs: effects and likelihoods. *)
From Coq Require Import Reals Lra ZArith String Bool List Lia.
From Verif.Model Require Import Base Num Frame Arr Prog Effect Forecaster.
From Verif.Spec Require Import ProgSpec EffectSpec ForecasterSpec ResponseSpec ObservedSpec ComponentSpec UpwardSpec.
From Verif.Facts Require Import BaseFacts NumFacts ArrFacts ProgFacts EffectFacts EffectPredict ResponseFacts ResponseEffects ResponseForecaster.
Import ListNotations.
Local Open Scope string_scope.

Lemma modal_le m trend a b : positive_base m trend -> (a <= b)%R -> (modal m trend a <= modal m trend b)%R.
Proof. destruct m; cbn [positive_base modal]; intros H L; [exact L|]. now apply Rmult_le_compat_l. Qed.
Lemma weighted_le x1 : forall x2 f, List.length x1 = List.length x2 -> (forall k u1 u2, nth_error x1 k = Some u1 -> nth_error x2 k = Some u2 -> favourable (f k) u1 u2) -> (weighted x1 f <= weighted x2 f)%R.
Proof.
  induction x1 as [|a x1 IH]; intros [|b x2] f L H; try discriminate; cbn [weighted]; [lra|]. apply Rplus_le_compat.
  - destruct (H 0 a b eq_refl eq_refl) as [->|[[P Q]|[P Q]]]; [lra| |].
    + now apply Rmult_le_compat_r.
    + assert (0 <= (a - b) * (- f 0%nat))%R; [|lra]. apply Rmult_le_pos; lra.
  - apply IH; [now injection L|]. intros k u1 u2 H1 H2. exact (H (S k) u1 u2 H1 H2).
Qed.
Lemma log1_le s r a b : (0 <= s)%R -> (0 <= r)%R -> (a <= b)%R -> (log1 s r a <= log1 s r b)%R.
Proof.
  intros S P L. unfold log1. apply Rmult_le_compat_l; [exact S|]. assert (Q : (r * a + 1 <= r * b + 1)%R) by (apply Rplus_le_compat_r, Rmult_le_compat_l; assumption).
  unfold clip_low. assert (M : (Rmax (/ 100000000) (r * a + 1) <= Rmax (/ 100000000) (r * b + 1))%R) by (apply Rle_max_compat_l; exact Q).
  assert (0 < Rmax (/ 100000000) (r * a + 1))%R by (apply Rlt_le_trans with (/ 100000000)%R; [lra|apply Rmax_l]).
  destruct M as [M|M]; [left; now apply ln_increasing|right; now rewrite M].
Qed.
Lemma power_le s a b : (0 <= s)%R -> (0 < a <= b)%R -> (Rpower b (- s) <= Rpower a (- s))%R.
Proof.
  intros S [A L]. unfold Rpower. assert (LN : (ln a <= ln b)%R) by (destruct L as [L| ->]; [left; now apply ln_increasing|lra]).
  assert (Q : (- s * ln b <= - s * ln a)%R) by (assert (0 <= s * (ln b - ln a))%R by (apply Rmult_le_pos; lra); lra).
  destruct Q as [Q| ->]; [left; now apply exp_increasing|lra].
Qed.
Lemma power_pos a b : (0 < Rpower a b)%R.
Proof. apply exp_pos. Qed.
Lemma hill_le h s m a b q1 q2 : (0 <= m)%R -> (0 <= s)%R -> (0 < h)%R -> (0 < a <= b)%R -> hill1 h s m a = Ok q1 -> hill1 h s m b = Ok q2 -> (q1 <= q2)%R.
Proof.
  intros M S H [A L]. rewrite !hill1_positive by lra. intros [= <-] [= <-]. apply Rmult_le_compat_l; [exact M|]. apply Rinv_le_contravar; [pose proof (power_pos (b / h) (- s)); lra|].
  apply Rplus_le_compat_l, power_le; [exact S|]. assert (0 < / h)%R by now apply Rinv_0_lt_compat. split; [now apply Rmult_lt_0_compat|]. apply Rmult_le_compat_r; lra.
Qed.
Lemma hill_start h s m u q1 q2 : (0 < m)%R -> (0 < h)%R -> (0 < u)%R -> hill1 h s m 0 = Ok q1 -> hill1 h s m u = Ok q2 -> (q2 < q1)%R.
Proof.
  intros M H U. rewrite hill1_zero, hill1_positive by lra. intros [= <-] [= <-]. pose proof (power_pos (u / h) (- s)) as P. set (p := Rpower (u / h) (- s)) in *.
  apply Rmult_lt_reg_r with (1 + p)%R; [lra|]. replace (m / (1 + p) * (1 + p))%R with m by (field; lra). assert (0 < m * p)%R by now apply Rmult_lt_0_compat. lra.
Qed.

(** replies are functions of the inputs *)
Lemma replies_functional e ef : forall z trend v1 v2, replies e ef z trend v1 -> replies e ef z trend v2 -> v1 = v2.
Proof.
  induction ef as [m p b|m p q b|m p q r b|inner IH tab ps b sc|sp terms ps m b ff y l]; intros z trend v1 v2 H1 H2; cbn [replies] in *.
  - congruence.
  - destruct H1 as (u & -> & ->). destruct H2 as (u' & [= <-] & ->). reflexivity.
  - destruct H1 as (u & q1 & -> & Q1 & ->). destruct H2 as (u' & q2 & [= <-] & Q2 & ->). congruence.
  - eapply IH; eauto.
  - destruct H1 as (m1 & b1 & -> & ->). destruct H2 as (m2 & b2 & [= <- <-] & ->). reflexivity.
Qed.
Lemma values_unique X r cols x z : values_at X r cols x -> values_at X r cols z -> x = z.
Proof. unfold values_at. intros H1 H2. apply map_Some_inj. congruence. Qed.
Lemma reads_values X cols t0 ef : forall r x z, reads X cols t0 ef r z -> values_at X r cols x -> (exists d, z = d /\ forall X' r' z', r_time r' = r_time r -> values_at X' r' cols x -> reads X' cols t0 ef r' z' -> z' = z).
Proof.
  intros r x z RD V. exists z. split; [reflexivity|]. intros X' r' z' T V' RD'. revert RD RD'. induction ef; cbn [reads]; intros R1 R2; auto.
  1-3: rewrite (values_unique _ _ _ _ _ R1 V), (values_unique _ _ _ _ _ R2 V'); reflexivity.
  subst. now rewrite T.
Qed.

Lemma raises_replies e name trend X1 X2 cols t0 ef0 : forall ef r1 r2 x1 x2 z1 z2 v1 v2, options ef0 ef -> raises e name trend ef0 x1 x2 -> r_time r1 = r_time r2 ->
  values_at X1 r1 cols x1 -> values_at X2 r2 cols x2 -> reads X1 cols t0 ef r1 z1 -> reads X2 cols t0 ef r2 z2 ->
  replies (own_env e name) ef z1 trend v1 -> replies (own_env e name) ef z2 trend v2 -> (v1 <= v2)%R.
Proof.
  assert (EQ : forall ef r1 r2 x z1 z2 v1 v2, r_time r1 = r_time r2 -> values_at X1 r1 cols x -> values_at X2 r2 cols x -> reads X1 cols t0 ef r1 z1 -> reads X2 cols t0 ef r2 z2 ->
    replies (own_env e name) ef z1 trend v1 -> replies (own_env e name) ef z2 trend v2 -> (v1 <= v2)%R).
  { intros ef r1 r2 x z1 z2 v1 v2 T V1 V2 R1 R2 P1 P2. destruct (reads_values _ _ _ _ _ _ _ R1 V1) as (_ & _ & F). rewrite (F _ _ _ (eq_sym T) V2 R2) in P2. right. eapply replies_functional; eauto. }
  induction ef0 as [m p b|m p q b|m p q r b|inner IH tab ps b sc|sp terms ps m b ff y l]; intros ef r1 r2 x1 x2 z1 z2 v1 v2 O H T V1 V2 R1 R2 P1 P2; (destruct H as [->|H]; [eapply EQ; eauto|]); destruct ef as [m' ? ?|m' ? ? ?|m' ? ? ? ?|inner' ? ? ? ?|? ? ? ? ? ? ? ?]; try contradiction O; cbn [options reads replies] in *.
  - destruct O as [<- _]. destruct H as [B H]. subst v1 v2. apply modal_le; [exact B|]. rewrite (values_unique _ _ _ _ _ R1 V1), (values_unique _ _ _ _ _ R2 V2).
    apply weighted_le; [|exact H]. unfold values_at in V1, V2. apply (f_equal (@List.length _)) in V1, V2. rewrite !map_length in *. congruence.
  - destruct O as (<- & _). destruct H as (B & S & Q & H). rewrite (values_unique _ _ _ _ _ R1 V1) in P1. rewrite (values_unique _ _ _ _ _ R2 V2) in P2. destruct P1 as (u1 & E1 & ->). destruct P2 as (u2 & E2 & ->).
    apply modal_le; [exact B|]. apply log1_le; [exact S|exact Q|]. now apply H.
  - destruct O as (<- & _). destruct H as (B & M & S & Hh & H). rewrite (values_unique _ _ _ _ _ R1 V1) in P1. rewrite (values_unique _ _ _ _ _ R2 V2) in P2. destruct P1 as (u1 & q1 & E1 & Q1 & ->). destruct P2 as (u2 & q2 & E2 & Q2 & ->).
    apply modal_le; [exact B|]. eapply hill_le; [exact M|exact S|exact Hh|apply H; eassumption|exact Q1|exact Q2].
  - eapply IH; eauto.
  - subst z1 z2. rewrite T in P1. destruct P1 as (m1 & b1 & -> & ->). destruct P2 as (m2 & b2 & [= <- <-] & ->). apply Rle_refl.
Qed.

Lemma starts_replies e name trend X1 X2 cols t0 ef0 : forall ef r1 r2 x1 x2 z1 z2 v1 v2, options ef0 ef -> starts e name trend ef0 x1 x2 ->
  values_at X1 r1 cols x1 -> values_at X2 r2 cols x2 -> reads X1 cols t0 ef r1 z1 -> reads X2 cols t0 ef r2 z2 ->
  replies (own_env e name) ef z1 trend v1 -> replies (own_env e name) ef z2 trend v2 -> (v2 < v1)%R.
Proof.
  induction ef0 as [m p b|m p q b|m p q r b|inner IH tab ps b sc|sp terms ps m b ff y l]; intros ef r1 r2 x1 x2 z1 z2 v1 v2 O H V1 V2 R1 R2 P1 P2; try contradiction H; destruct ef as [m' ? ?|m' ? ? ?|m' ? ? ? ?|inner' ? ? ? ?|? ? ? ? ? ? ? ?]; try contradiction O; cbn [options reads replies starts] in *.
  - destruct O as (<- & _). destruct H as (B & M & Hh & u & -> & -> & U). rewrite (values_unique _ _ _ _ _ R1 V1) in P1. rewrite (values_unique _ _ _ _ _ R2 V2) in P2. destruct P1 as (u1 & q1 & [= <-] & Q1 & ->). destruct P2 as (u2 & q2 & [= <-] & Q2 & ->).
    pose proof (hill_start _ _ _ _ _ _ M Hh U Q1 Q2) as L. destruct m; cbn [modal]; [exact L|]. now apply Rmult_lt_compat_l.
  - eapply IH; eauto.
Qed.

(** * Likelihoods *)
Lemma link_le a b : (a <= b -> link a <= link b)%R.
Proof.
  intros L. unfold link. apply Rle_max_compat_l. unfold documented_link. destruct (Rle_dec a (1 / 100000)) as [A|A], (Rle_dec b (1 / 100000)) as [B|B]; try lra.
  - apply Rmult_le_compat_l; [lra|]. destruct L as [L| ->]; [left; apply exp_increasing; lra|apply Rle_refl].
  - assert (exp (a - 1 / 100000) <= 1)%R; [|lra]. apply Rle_trans with (exp 0); [|rewrite exp_0; lra]. destruct A as [A| ->]; [left; apply exp_increasing; lra|right; f_equal; field].
Qed.
Lemma Rsum_le l1 : forall l2, Forall2 Rle l1 l2 -> (Rsum l1 <= Rsum l2)%R.
Proof. induction l1 as [|a l1 IH]; intros l2 F; inversion F; subst; cbn [Rsum fold_right]; [lra|]. apply Rplus_le_compat; auto. Qed.
Lemma entry_at a k v : nth_error (a_flat a) k = Some v -> entry a k = v.
Proof. intros H. unfold entry. now apply nth_error_nth. Qed.
Lemma law_expected l u sigma tr d k s x b : dict_get tr "obs" = Some (SSample d x b) -> law l u sigma d k s -> (l = "gamma" -> 0 < sigma)%R -> expected tr k (if String.eqb l "normal" then s else if String.eqb l "gamma" then link s else u * link s)%R.
Proof.
  intros D [(-> & loc & sd & -> & H & _)|[(-> & a0 & b0 & x0 & r0 & -> & H1 & H2 & H)|(-> & a0 & b0 & x0 & r0 & -> & H1 & H2 & H & _)]] S; eexists _, _, _; (split; [exact D|]); cbn.
  - symmetry. now apply entry_at.
  - rewrite (entry_at _ _ _ H1), (entry_at _ _ _ H2). symmetry. apply H. now apply S.
  - rewrite (entry_at _ _ _ H1), (entry_at _ _ _ H2). now symmetry.
Qed.
Lemma level_le tr1 tr2 names k1 k2 s1 s2 : level tr1 names k1 s1 -> level tr2 names k2 s2 ->
  (forall n v1 v2, In n ("trend" :: names) -> component_at tr1 n k1 v1 -> component_at tr2 n k2 v2 -> (v1 <= v2)%R) -> (s1 <= s2)%R.
Proof.
  intros (vs1 & F1 & ->) (vs2 & F2 & ->) H. apply Rsum_le. revert vs1 vs2 F1 F2 H. generalize ("trend" :: names). induction l as [|n l IH]; intros vs1 vs2 F1 F2 H; inversion F1 as [|? v1 ? vs1' C1 F1']; inversion F2 as [|? v2 ? vs2' C2 F2']; subst; constructor.
  - apply (H n); [now left|exact C1|exact C2].
  - apply IH; auto. intros n' w1 w2 I. apply H. now right.
Qed.
Lemma Rsum_lt l1 : forall l2 k a b, Forall2 Rle l1 l2 -> nth_error l1 k = Some a -> nth_error l2 k = Some b -> (a < b)%R -> (Rsum l1 < Rsum l2)%R.
Proof.
  induction l1 as [|x l1 IH]; intros l2 k a b F E1 E2 L; inversion F as [|? y ? l2' LE F']; subst; [destruct k; discriminate|]. cbn [Rsum fold_right].
  destruct k as [|k]; cbn in E1, E2; [injection E1 as ->; injection E2 as ->; apply Rplus_lt_le_compat; [exact L|now apply Rsum_le]|apply Rplus_le_lt_compat; [exact LE|eapply IH; eauto]].
Qed.
Lemma level_lt tr1 tr2 names k1 k2 s1 s2 name u1 u2 : level tr1 names k1 s1 -> level tr2 names k2 s2 ->
  (forall n v1 v2, In n ("trend" :: names) -> component_at tr1 n k1 v1 -> component_at tr2 n k2 v2 -> (v1 <= v2)%R) ->
  In name names -> component_at tr1 name k1 u1 -> component_at tr2 name k2 u2 -> (u1 < u2)%R -> (s1 < s2)%R.
Proof.
  intros (vs1 & F1 & ->) (vs2 & F2 & ->) H I C1 C2 L. apply (in_cons "trend") in I. apply In_nth_error in I as (k & E).
  destruct (Forall2_nth_error_l _ _ _ F1 k name E) as (a & A & (w & D & N)). destruct (Forall2_nth_error_l _ _ _ F2 k name E) as (b & B & (w' & D' & N')).
  destruct C1 as (a1 & D1 & N1). destruct C2 as (a2 & D2 & N2). rewrite D in D1. injection D1 as <-. rewrite D' in D2. injection D2 as <-. rewrite N in N1. injection N1 as ->. rewrite N' in N2. injection N2 as ->.
  refine (Rsum_lt _ _ _ _ _ _ A B L). clear -F1 F2 H. revert vs1 vs2 F1 F2 H. generalize ("trend" :: names). induction l as [|n l IH]; intros vs1 vs2 F1 F2 H; inversion F1 as [|? v1 ? vs1' C1 F1']; inversion F2 as [|? v2 ? vs2' C2 F2']; subst; constructor.
  - apply (H n); [now left|exact C1|exact C2].
  - apply IH; auto. intros n' w1 w2 I. apply H. now right.
Qed.
