(** The same dates in two horizons: model functions. *)
From Coq Require Import Reals Lra ZArith String Ascii Bool List Lia Sorted.
From Verif.Model Require Import Base Num Frame Arr Prog Likelihood Effect Trend TrendProg Scale Expand Forecaster.
From Verif.Spec Require Import FrameSpec ProgSpec EffectSpec AlignSpec ShapeSpec ForecasterSpec SiteSpec OverlapSpec.
From Verif.Facts Require Import BaseFacts FrameFacts NumFacts ArrFacts TrendFacts ProgFacts MeanFacts LikelihoodFacts PosteriorFacts ModelProps ForecasterFacts ForecasterInv SiteFacts RescaleEffects RescaleForecaster OverlapFacts OverlapFrames OverlapTrend.
Import ListNotations.
Local Open Scope string_scope.

Section Model.
Variables (e : env) (n : nat) (ts1 ts2 : list Z) (sh1 sh2 : list nat).
Notation T1 := (List.length ts1).
Notation T2 := (List.length ts2).
Hypothesis P1 : prod_shape sh1 = n * T1.
Hypothesis P2 : prod_shape sh2 = n * T2.
Hypothesis D1 : List.length sh1 <> 1.
Hypothesis D2 : List.length sh2 <> 1.
Notation there := (same_there n ts1 ts2).
Notation S := (same_then n ts1 ts2).
Notation same_a := (same_arr n ts1 ts2 sh1 sh2).

Lemma in_then s1 s2 : same_in n ts1 ts2 s1 s2 -> fst s1 <> "obs" -> S s1 s2.
Proof.
  intros [E H] N. split; [exact E|]. destruct (snd s1) as [d v o|a|k], (snd s2) as [d' v' o'|a'|k']; auto. destruct H as [<- H]. split; [reflexivity|].
  replace (String.eqb (fst s1) "obs") with false by (symmetry; now apply String.eqb_neq). cbn [orb]. destruct o; [|exact H]. destruct H. auto.
Qed.
Lemma slash_obs a b : a ++ "/" ++ b <> "obs".
Proof. intros E. pose proof (app_slash_has a b) as N. rewrite E in N. discriminate. Qed.
Lemma related_scope {A} (RA : A -> A -> Prop) name p1 p2 : related (own_env e name) (same_in n ts1 ts2) RA p1 p2 -> related e S RA (scope name p1) (scope name p2).
Proof.
  intros H a1 l1 a2 l2 H1 H2. rewrite eval_scope in H1, H2. destruct (eval (own_env e name) p1) as [[b1 u1]|] eqn:E1; [|discriminate]. destruct (eval (own_env e name) p2) as [[b2 u2]|] eqn:E2; [|discriminate].
  cbn [bind] in *. injection H1 as <- <-. injection H2 as <- <-. destruct (H _ _ _ _ E1 E2) as [R F]. split; [exact R|]. clear -F.
  induction F as [|s1 s2 l1 l2 H F IH]; cbn [map]; constructor; [|exact IH]. apply in_then; [|apply slash_obs]. destruct H as [E H]. split; [cbn [prefixed fst]; now rewrite E|exact H].
Qed.
Lemma related_names {A} (RA : A -> A -> Prop) p1 p2 : (forall a l, eval e p1 = Ok (a, l) -> ~ In "obs" (map fst l)) -> related e (same_in n ts1 ts2) RA p1 p2 -> related e S RA p1 p2.
Proof.
  intros N H a1 l1 a2 l2 H1 H2. specialize (N _ _ H1). destruct (H _ _ _ _ H1 H2) as [R F]. split; [exact R|]. clear -F N. induction F as [|s1 s2 l1 l2 H F IH]; constructor.
  - apply in_then; [exact H|]. intros E. apply N. left. exact E.
  - apply IH. intros I. apply N. now right.
Qed.
Lemma related_det name a1 a2 : same_a a1 a2 -> related e S same_a (deterministic name a1) (deterministic name a2).
Proof.
  intros H b1 l1 b2 l2 H1 H2. cbn [deterministic eval bind] in *. injection H1 as <- <-. injection H2 as <- <-. split; [exact H|]. constructor; [|constructor]. split; [reflexivity|]. apply H.
Qed.

Definition related_data (effs : dict effect) (data1 data2 : dict edata) : Prop := forall name ef x1 x2, In (name, ef) effs -> dict_get data1 name = Some x1 -> dict_get data2 name = Some x2 -> same_data n ts1 ts2 ef x1 x2.

Definition same_pd (pd1 pd2 : dict arr) : Prop := forall v1 v2, dict_get pd1 "trend" = Some v1 -> dict_get pd2 "trend" = Some v2 -> same_a v1 v2.
Lemma effects_same data1 data2 effs : related_data effs data1 data2 -> forall mp1 mp2, same_a (fst mp1) (fst mp2) -> same_pd (snd mp1) (snd mp2) ->
  related e S (fun r1 r2 => same_a (fst r1) (fst r2)) (apply_effects data1 mp1 (effect_fns effs)) (apply_effects data2 mp2 (effect_fns effs)).
Proof.
  induction effs as [|[name ef] effs IH]; intros HD [m1 pd1] [m2 pd2] HM HP; [now apply related_ret|]. cbn [effect_fns map apply_effects fst snd] in *.
  apply (related_bind _ _ (fun r1 r2 => same_a (fst r1) (fst r2) /\ same_pd (snd r1) (snd r2))).
  - unfold apply_effect. apply (related_bind _ _ (same_data n ts1 ts2 ef)).
    { apply related_lift. intros x1 x2 H1 H2. unfold dict_item in *. destruct (dict_get data1 name) eqn:G1; [|discriminate]. destruct (dict_get data2 name) eqn:G2; [|discriminate]. injection H1 as <-. injection H2 as <-. eapply HD; eauto. now left. }
    intros x1 x2 X. apply (related_bind _ _ same_a). { apply related_scope. now apply predict_same. }
    intros v1 v2 V. apply (related_bind _ _ same_a); [now apply related_det|]. intros w1 w2 W. apply (related_bind _ _ same_a); [apply related_lift; intros z1 z2; now apply zip_same|].
    intros z1 z2 Z. apply related_ret. cbn [fst snd]. split; [exact Z|]. intros u1 u2. rewrite !dict_get_set. destruct (String.eqb "trend" name); [intros [= <-] [= <-]; exact W|apply HP].
  - intros r1 r2 [HR1 HR2]. apply IH; auto. intros nm g y1 y2 I. apply HD. now right.
Qed.
Lemma mean_same tp1 tp2 data1 data2 effs : related e S same_a tp1 tp2 -> related_data effs data1 data2 ->
  related e S same_a (compute_mean tp1 (Some data1) (Some (effect_fns effs))) (compute_mean tp2 (Some data2) (Some (effect_fns effs))).
Proof.
  intros HT HD. unfold compute_mean. apply (related_bind _ _ same_a); [exact HT|]. intros t1 t2 HTT. apply (related_bind _ _ same_a); [now apply related_det|]. intros _ _ _.
  destruct (effect_fns effs) eqn:E; [now apply related_ret|]. rewrite <- E. apply (related_bind _ _ (fun r1 r2 => same_a (fst r1) (fst r2))).
  - apply effects_same; [exact HD|exact HTT|]. intros v1 v2 [= <-] [= <-]. exact HTT.
  - intros r1 r2 H. now apply related_ret.
Qed.

(** * The likelihoods *)
Lemma then_sample name d v : name <> "obs" -> S (name, SSample d v false) (name, SSample d v false).
Proof. intros N. apply in_then; [apply in_sample|exact N]. Qed.
Lemma related_obs d1 d2 s1 s2 : same_distr n ts1 ts2 d1 d2 -> related e S (fun _ _ => True) (observe "obs" d1 s1 None) (observe "obs" d2 s2 None).
Proof.
  intros H b1 l1 b2 l2 H1 H2. unfold observe in *. cbn [eval bind] in *. injection H1 as <- <-. injection H2 as <- <-. split; [exact I|]. constructor; [|constructor]. split; [reflexivity|]. cbn [snd fst]. split; [reflexivity|].
  cbn [String.eqb Ascii.eqb Bool.eqb orb]. split; [exact H|discriminate].
Qed.
Lemma const_same m1 m2 c : same_a m1 m2 -> there (a_flat (const_arr (a_shape (reshape_col m1)) c)) (a_flat (const_arr (a_shape (reshape_col m2)) c)).
Proof.
  intros (_ & _ & L1 & L2 & _). unfold const_arr, reshape_col. cbn [a_flat a_shape]. unfold prod_shape. cbn [fold_right]. rewrite !Nat.mul_1_r, L1, L2. apply there_repeat.
Qed.
Lemma univariate_tail_same (d : arr -> arr -> distr) (g : arr -> arr) noise mean1 mean2 : (forall m1 m2, same_a m1 m2 -> same_a (g m1) (g m2)) -> (forall m1 m2 z, same_a m1 m2 -> same_distr n ts1 ts2 (d (reshape_col m1) z) (d (reshape_col m2) z)) -> same_a mean1 mean2 ->
  related e S (fun _ _ => True)
    (let mean := g mean1 in noise <~ sample "noise_scale" (DHalfNormal (scalar noise)) [] ;; k <~ lift_res (len mean) ;; _ <~ plate "data" k ;; let m := reshape_col mean in observe "obs" (d m noise) (a_shape m) None)
    (let mean := g mean2 in noise <~ sample "noise_scale" (DHalfNormal (scalar noise)) [] ;; k <~ lift_res (len mean) ;; _ <~ plate "data" k ;; let m := reshape_col mean in observe "obs" (d m noise) (a_shape m) None).
Proof.
  intros HG HD HM. cbv zeta. apply (related_bind _ _ eq); [apply related_sample, then_sample; discriminate|]. intros z ? <-. apply (related_bind _ _ (fun _ _ => True)); [now apply related_lift|]. intros k1 k2 _.
  apply (related_bind _ _ eq); [apply related_plate; split; [reflexivity|now left]|]. intros [] [] _. apply related_obs. apply HD. now apply HG.
Qed.

Lemma univariate_same c s p t td1 td2 data1 data2 : c_hier c = false -> p_has_exogenous p = true ->
  related e S same_a (trend_predict t td1) (trend_predict t td2) -> related_data (p_effects p) data1 data2 ->
  related e S (fun _ _ => True) (model_call c s p t td1 None (Some data1)) (model_call c s p t td2 None (Some data2)).
Proof.
  intros Hc Hx HT HD. unfold model_call. rewrite Hc, Hx. pose proof (mean_same _ _ _ _ _ HT HD) as HM.
  destruct (String.eqb (c_likelihood c) "normal"); [|destruct (String.eqb (c_likelihood c) "gamma"); [|destruct (String.eqb (c_likelihood c) "negbinomial"); [|apply related_raise]]].
  - unfold univariate_model. apply (related_bind _ _ same_a); [exact HM|]. intros m1 m2 M. apply (univariate_tail_same (fun m z => DNormal m (const_arr (a_shape m) (item0 z))) (fun m => m)); auto.
    intros a b z H. split; [apply H|now apply const_same].
  - unfold univariate_gamma_model. apply (related_bind _ _ same_a); [exact HM|]. intros m1 m2 M. apply (univariate_tail_same (fun m z => gamma_reparametrized m (item0 z)) to_positive); auto.
    + intros a b H. now apply map_same.
    + intros a b z (_ & _ & _ & _ & H). split; now apply there_map.
  - unfold univariate_negbinomial_model. apply (related_bind _ _ same_a); [exact HM|]. intros m1 m2 M. apply (univariate_tail_same (fun m z => DNegBinomial2 m (const_arr (a_shape m) (item0 z * scale_number s)%R)) (fun m => arr_map (fun x => x * scale_number s)%R (to_positive m))); auto.
    + intros a b H. now apply map_same, map_same.
    + intros a b z H. split; [apply H|now apply const_same].
Qed.

Lemma transpose_nth a T j r x : a_shape a = [n; T] -> r < n -> j < T -> nth_error (a_flat a) (r * T + j) = Some x -> nth_error (a_flat (transpose a)) (j * n + r) = Some x.
Proof.
  intros E Hr Hj H. unfold transpose, tabulate. rewrite E. cbn [rev app a_flat all_idx]. rewrite (nth_error_map_some _ _ _ [j; r]).
  - unfold aget. rewrite E. cbn [rev app ravel]. f_equal. apply nth_error_nth. unfold prod_shape. cbn [fold_right]. rewrite !Nat.mul_1_r, Nat.add_0_r. exact H.
  - rewrite flat_map_concat_map. rewrite (fun F => nth_error_concat n _ (j * n + r) F j r Hr eq_refl).
    + rewrite (nth_error_map_some _ _ _ j) by now apply nth_seq. apply nth_error_map_some. rewrite flat_map_concat_map.
      rewrite concat_singles by (apply Forall_forall; intros l Hl; apply in_map_iff in Hl as (k & <- & _); reflexivity). rewrite (nth_error_map_some _ _ _ r) by now apply nth_seq. reflexivity.
    + apply Forall_forall. intros l Hl. apply in_map_iff in Hl as (i & <- & _). rewrite map_length, flat_map_concat_map, (concat_length 1); [rewrite map_length, seq_length; lia|].
      apply Forall_forall. intros l Hl. apply in_map_iff in Hl as (k & <- & _). reflexivity.
Qed.
Lemma transpose_same m1 m2 : there (a_flat m1) (a_flat m2) ->
  same_blocks ts1 ts2 n (a_flat (transpose (mkArr [n; T1] (a_flat m1)))) (a_flat (transpose (mkArr [n; T2] (a_flat m2)))).
Proof.
  intros H j1 j2 t J1 J2 r Hr. destruct (H (r * T1 + j1) (r * T2 + j2)) as (x & E1 & E2); [now exists r, j1, j2, t|].
  exists x. split; [apply (transpose_nth _ T1)|apply (transpose_nth _ T2)]; auto; apply nth_error_Some; congruence.
Qed.
Lemma tile_same cov T : List.length (a_flat cov) = n * n -> forall j r, j < T -> r < n * n -> nth_error (a_flat (tile0 T cov)) (j * (n * n) + r) = nth_error (a_flat cov) r.
Proof.
  intros L j r Hj Hr. unfold tile0. cbn [a_flat]. rewrite (fun F => nth_error_concat (n * n) _ (j * (n * n) + r) F j r Hr eq_refl); [now rewrite nth_error_repeat|]. apply Forall_forall. intros l Hl. apply repeat_spec in Hl. now subst l.
Qed.
Lemma matmul_square a b d : a_shape b = [n; n] -> a_shape a = [n; n] -> matmul a b = Ok d -> a_shape d = [n; n] /\ List.length (a_flat d) = n * n.
Proof.
  intros Eb Ea H. unfold matmul in H. rewrite Ea, Eb, Nat.eqb_refl in H. injection H as <-. split; [reflexivity|]. cbn [a_flat]. rewrite flat_map_concat_map, (concat_length n).
  - now rewrite map_length, seq_length.
  - apply Forall_forall. intros l Hl. apply in_map_iff in Hl as (i & <- & _). now rewrite map_length, seq_length.
Qed.

Lemma multivariate_same c s p t td1 td2 data1 data2 : c_hier c = true -> (p_single p = false -> sh1 = [n; T1; 1] /\ sh2 = [n; T2; 1]) ->
  related e S same_a (trend_predict t td1) (trend_predict t td2) -> related_data (p_effects p) data1 data2 ->
  related e S (fun _ _ => True) (model_call c s p t td1 None (Some data1)) (model_call c s p t td2 None (Some data2)).
Proof.
  intros Hc HS HT HD. unfold model_call. rewrite Hc. pose proof (mean_same _ _ _ _ _ HT HD) as HM. unfold multivariate_model. apply (related_bind _ _ same_a); [exact HM|]. intros m1 m2 M. cbn [pbind].
  destruct (p_single p).
  - cbv zeta. apply (related_bind _ _ eq); [apply related_sample, then_sample; discriminate|]. intros z ? <-. apply (related_bind _ _ eq); [apply related_plate; split; [reflexivity|now right]|]. intros [] [] _.
    apply related_obs. split; [apply M|now apply const_same].
  - destruct (HS eq_refl) as [E1 E2]. destruct M as (A1 & A2 & A3 & A4 & A5). rewrite E1 in A1. rewrite E2 in A2. unfold shape_at. rewrite A1, A2. cbn [nth_error lift_res pbind last].
    apply (related_bind _ _ (fun a b => a = b /\ List.length (a_flat a) = n)).
    { intros b1 l1 b2 l2 H1 H2. cbn [sample eval bind] in *. injection H1 as <- <-. injection H2 as <- <-. split; [split; [reflexivity|]|constructor; [apply then_sample; discriminate|constructor]].
      cbn [site_value a_flat]. rewrite map_length, seq_length. unfold prod_shape. cbn [fold_right]. lia. }
    intros std ? [<- LS]. apply (related_bind _ _ (fun a b => a = b /\ a_shape a = [n; n])).
    { intros b1 l1 b2 l2 H1 H2. cbn [sample eval bind] in *. injection H1 as <- <-. injection H2 as <- <-. split; [split; reflexivity|constructor; [apply then_sample; discriminate|constructor]]. }
    intros corr ? [<- LC]. assert (SD : a_shape (diag std) = [n; n]) by (unfold diag; cbn [a_shape]; now rewrite LS).
    apply (related_bind _ _ (fun a b => a = b /\ a_shape a = [n; n])). { apply related_lift. intros x y H1 H2. split; [congruence|]. now apply (matmul_square (diag std) corr x). }
    intros half ? [<- LH]. apply (related_bind _ _ (fun a b => a = b /\ List.length (a_flat a) = n * n)). { apply related_lift. intros x y H1 H2. split; [congruence|]. now apply (matmul_square half (diag std) x). }
    intros cov ? [<- LV]. apply (related_bind _ _ eq); [apply related_plate; split; [reflexivity|now right]|]. intros [] [] _.
    unfold squeeze_last. rewrite A1, A2. cbn [rev app lift_res pbind]. apply related_obs. split; [now apply transpose_same|].
    intros j1 j2 t0 J1 J2 r Hr. destruct (nth_error (a_flat cov) r) as [x|] eqn:X; [|apply nth_error_None in X; lia]. exists x. rewrite !tile_same by (auto; apply nth_error_Some; congruence). auto.
Qed.
End Model.

(** * Traces *)
Lemma then_get n ts1 ts2 tr1 tr2 name : Forall2 (same_then n ts1 ts2) tr1 tr2 -> (dict_get tr1 name = None <-> dict_get tr2 name = None).
Proof.
  induction 1 as [|[a s] [b s'] l l' [E H] F IH]; [reflexivity|]. cbn [fst] in E. subst b. cbn [dict_get]. destruct (String.eqb name a); [split; discriminate|exact IH].
Qed.
Lemma then_set n ts1 ts2 tr1 tr2 name s1 s2 : Forall2 (same_then n ts1 ts2) tr1 tr2 -> same_then n ts1 ts2 (name, s1) (name, s2) -> Forall2 (same_then n ts1 ts2) (dict_set tr1 name s1) (dict_set tr2 name s2).
Proof.
  intros F H. induction F as [|[a s] [b s'] l l' [E H'] F IH]; [constructor; [exact H|constructor]|]. cbn [fst] in E. subst b. cbn [dict_set]. destruct (String.eqb_spec name a) as [->|NE]; constructor; auto. split; [reflexivity|exact H'].
Qed.
Lemma record_same n ts1 ts2 l1 l2 : Forall2 (same_then n ts1 ts2) l1 l2 -> forall tr1 tr2 r1 r2, Forall2 (same_then n ts1 ts2) tr1 tr2 -> record_all tr1 l1 = Ok r1 -> record_all tr2 l2 = Ok r2 -> Forall2 (same_then n ts1 ts2) r1 r2.
Proof.
  induction 1 as [|[a s] [b s'] l1 l2 H F IH]; intros tr1 tr2 r1 r2 FT H1 H2; [unfold record_all in *; cbn in *; congruence|]. rewrite record_all_cons in H1, H2.
  destruct (record tr1 a s) as [u1|] eqn:E1; [|discriminate]. destruct (record tr2 b s') as [u2|] eqn:E2; [|discriminate]. cbn [bind] in *. apply (IH u1 u2); auto.
  assert (G : forall tr m st u, record tr m st = Ok u -> u = dict_set tr m st) by (intros tr m st u; unfold record; destruct st, (dict_get tr m); congruence).
  apply G in E1. apply G in E2. subst. pose proof (proj1 H) as EN. cbn [fst] in EN. subst b. now apply then_set.
Qed.
Lemma related_runs n ts1 ts2 e (m1 m2 : prog arr) o1 o2 tr1 tr2 : related e (same_then n ts1 ts2) (fun _ _ => True) m1 m2 -> run e [] m1 = Ok (o1, tr1) -> run e [] m2 = Ok (o2, tr2) -> same_overlap n ts1 ts2 tr1 tr2.
Proof.
  intros H R1 R2. apply run_eval in R1 as (l1 & E1 & A1). apply run_eval in R2 as (l2 & E2 & A2). destruct (H _ _ _ _ E1 E2) as [_ F]. unfold same_overlap. eapply record_same; [exact F|constructor|eassumption..].
Qed.
