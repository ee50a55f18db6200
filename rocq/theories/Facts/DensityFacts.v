(** The joint density of the fitted programs. *)
From Coq Require Import Reals Lra ZArith String Ascii Bool List Lia.
From Verif.Model Require Import Base Num Frame Arr Prog Likelihood Effect Trend TrendProg Scale Expand Forecaster.
From Verif.Spec Require Import FrameSpec ProgSpec EffectSpec ForecasterSpec SiteSpec ComponentSpec CounterSpec DensitySpec.
From Verif.Facts Require Import BaseFacts FrameFacts NumFacts ProgFacts MeanFacts LikelihoodFacts ModelProps EffectPredict ForecasterInv SiteFacts PosteriorFacts ComponentFacts CounterFacts.
Import ListNotations.
Local Open Scope string_scope.

Section Density.
Variable logpdf : distr -> arr -> R.
Notation log_joint := (log_joint logpdf).
Notation has_density := (has_density logpdf).

Lemma log_joint_app a b : log_joint (a ++ b)%list = (log_joint a + log_joint b)%R.
Proof. unfold Prog.log_joint. now rewrite map_app, Rsum_app. Qed.
Lemma log_joint_cons n s l : log_joint ((n, s) :: l) = ((match s with SSample d v _ => logpdf d v | _ => 0 end) + log_joint l)%R.
Proof. reflexivity. Qed.
Lemma log_joint_nil : log_joint [] = 0%R.
Proof. reflexivity. Qed.
Lemma log_joint_prefixed name l : log_joint (map (prefixed name) l) = log_joint l.
Proof. unfold Prog.log_joint. now rewrite map_map. Qed.

Lemma density_eval {A} e (p : prog A) v l : eval e p = Ok (v, l) -> NoDup (actions e p) -> has_density e p v (log_joint l).
Proof.
  intros E N. exists l. split; [|reflexivity]. apply run_eval. exists l. split; [exact E|]. rewrite (actions_eval _ _ _ _ E) in N. now apply record_all_fresh.
Qed.
Lemma density_inv {A} e (p : prog A) v r : has_density e p v r -> NoDup (actions e p) -> exists l, eval e p = Ok (v, l) /\ r = log_joint l.
Proof. intros (tr & H & <-) N. destruct (run_nodup_trace _ _ _ _ H N) as (l & E & -> & _). eauto. Qed.
Lemma density_unique {A} e (p : prog A) v v' r r' : has_density e p v r -> has_density e p v' r' -> v = v' /\ r = r'.
Proof. intros (tr & H & <-) (tr' & H' & <-). rewrite H in H'. injection H' as <- <-. auto. Qed.

(** * The end of the model functions *)
Definition tail_ok (c : config) (p : prepared) (k : arr -> prog arr) : Prop :=
  forall e m o l, eval e (k m) = Ok (o, l) -> exists n d v b,
    (c_hier c = true -> p_single p = false -> nth_error (a_shape m) 0 = Some n) /\
    dict_get l "obs" = Some (SSample d v b) /\ incl (map fst l) (tl reserved) /\
    log_joint l = (noise_prior logpdf c (p_single p) n e + logpdf d v)%R.

Ltac steps H := repeat (first
  [ match type of H with context [eval ?e (pbind (lift_res ?x) ?f)] => let a := fresh "a" in let E := fresh "E" in
      destruct x as [a|] eqn:E; [|discriminate H]; cbn [lift_res pbind eval bind] in H end
  | progress cbn [lift_res pbind sample observe plate eval bind] in H ]).
Lemma model_tail c s p t td y data : exists k,
  (model_call c s p t td y data = pbind (compute_mean (trend_predict t td) data (if c_hier c then Some (effect_fns (p_effects p)) else if p_has_exogenous p then Some (effect_fns (p_effects p)) else None)) k /\
   tail_ok c p k) \/ model_call c s p t td y data = Raise KeyError.
Proof.
  unfold model_call. destruct (c_hier c) eqn:Hc.
  - unfold multivariate_model. eexists. left. split; [reflexivity|]. intros e m o l H.
    assert (Hy : exists y', eval e (if p_single p then
        std <~ sample "std_observation" (DHalfNormal (scalar (c_noise c))) [] ;; _ <~ plate "time" 1 ;;
        observe "obs" (DNormal (reshape_col m) (const_arr (a_shape (reshape_col m)) (item0 std))) (a_shape (reshape_col m)) y'
      else n <~ lift_res (shape_at m 0) ;;
        std <~ sample "std_observation" (DHalfNormal (const_arr [n] (c_noise c))) [n] ;;
        corr <~ sample "corr_matrix" (DLKJCholesky n (c_concentration c)) [n; n] ;;
        half <~ lift_res (matmul (diag std) corr) ;; cov <~ lift_res (matmul half (diag std)) ;;
        t <~ lift_res (shape_at m 1) ;; _ <~ plate "time" (last (a_shape m) 0) ;;
        loc <~ lift_res (squeeze_last m) ;;
        observe "obs" (DMvNormal (transpose loc) (tile0 t cov)) (1 :: a_shape (transpose loc)) y') = Ok (o, l)).
    { destruct y as [ya|]; cbn [pbind] in H; [|eexists; exact H]. destruct (squeeze_last ya) as [sq|]; cbn [lift_res pbind] in H; [|discriminate]. eexists. exact H. }
    clear H. destruct Hy as (y' & H). destruct (p_single p) eqn:Hs.
    + steps H. injection H as <- <-. exists 0. do 3 eexists. split; [intros; discriminate|]. split; [cbn [dict_get]; reflexivity|].
      split; [intros x Ix; simpl in Ix; unfold reserved; simpl; tauto|]. rewrite !log_joint_cons, log_joint_nil. unfold noise_prior. rewrite Hc. rewrite ?Rplus_0_l, ?Rplus_0_r, ?Rplus_assoc. reflexivity.
    + steps H. injection H as <- <-. eexists a, _, _, _. split.
      { intros _ _. unfold shape_at in E. destruct (nth_error (a_shape m) 0); [now injection E as ->|discriminate]. }
      split; [cbn [dict_get]; reflexivity|]. split; [intros x Ix; simpl in Ix; unfold reserved; simpl; tauto|].
      rewrite !log_joint_cons, log_joint_nil. unfold noise_prior. rewrite Hc. rewrite ?Rplus_0_l, ?Rplus_0_r, ?Rplus_assoc. reflexivity.
  - destruct (String.eqb (c_likelihood c) "normal"); [|destruct (String.eqb (c_likelihood c) "gamma"); [|destruct (String.eqb (c_likelihood c) "negbinomial"); [|exists (fun _ => Raise KeyError); now right]]].
    all: unfold univariate_model, univariate_gamma_model, univariate_negbinomial_model; eexists; left; split; [reflexivity|]; intros e m o l H; steps H; injection H as <- <-;
      exists 0; do 3 eexists; split; [intros; congruence|]; split; [cbn [dict_get]; reflexivity|]; split; [intros x Ix; simpl in Ix; unfold reserved; simpl; tauto|];
      rewrite !log_joint_cons, log_joint_nil; unfold noise_prior; rewrite Hc; rewrite ?Rplus_0_l, ?Rplus_0_r, ?Rplus_assoc; reflexivity.
Qed.

(** * One run *)
Section Runs.
Variables (c : config) (s : scale) (p : prepared) (t : trend) (td : tdata) (y : option arr) (data : dict edata).
Hypothesis HX : c_hier c = false -> p_has_exogenous p = true.
Hypothesis ND : NoDup (map fst (p_effects p)).
Hypothesis HC : forall n ef, In (n, ef) (p_effects p) -> free_name n /\ unnested ef.
Notation model := (model_call c s p t td y (Some data)).
Notation mean := (compute_mean (trend_predict t td) (Some data) (Some (effect_fns (p_effects p)))).
Notation group e tv := (fun (ne : string * effect) (r : arr * list (string * site)) => exists x, dict_get data (fst ne) = Some x /\
   eval (own_env e (fst ne)) (predict (snd ne) x [("trend", tv)]) = Ok r).
Definition own_sites (ne : string * effect) (r : arr * list (string * site)) : list (string * site) :=
  (map (prefixed (fst ne)) (snd r) ++ [(fst ne, SDet (fst r))])%list.

Lemma groups_forward e tv : forall effs rs,
  Forall2 (fun (ne : string * effect_fn edata) (r : arr * list (string * site)) => exists d l, dict_get data (fst ne) = Some d /\ eval (own_env e (fst ne)) (snd ne d [("trend", tv)]) = Ok (fst r, l) /\
        snd r = (map (prefixed (fst ne)) l ++ [(fst ne, SDet (fst r))])%list) (effect_fns effs) rs ->
  exists gs, Forall2 (group e tv) effs gs /\ map fst rs = map fst gs /\ map snd rs = map (fun ng => own_sites (fst ng) (snd ng)) (combine effs gs).
Proof.
  induction effs as [|[n ef] effs IH]; intros rs F; inversion F as [|? r ? rs0 G F0]; subst.
  - exists []. repeat split; constructor.
  - destruct (IH _ F0) as (gs & H1 & H2 & H3). destruct G as (d & l & D & E & S). cbn [fst snd] in *.
    exists ((fst r, l) :: gs). split; [constructor; eauto|]. cbn [map combine fst snd]. rewrite H2, H3, S. auto.
Qed.

Lemma one_run : exists k, tail_ok c p k /\ forall e o tr, run e [] model = Ok (o, tr) -> exists m tv lt gs l2,
  NoDup (map fst tr) /\ eval e (trend_predict t td) = Ok (tv, lt) /\ Forall2 (group e tv) (p_effects p) gs /\
  foldM (arr_zip Rplus) tv (map fst gs) = Ok m /\ eval e (k m) = Ok (o, l2) /\
  tr = (lt ++ ("trend", SDet tv) :: concat (map (fun ng => own_sites (fst ng) (snd ng)) (combine (p_effects p) gs)) ++ l2)%list.
Proof.
  destruct (model_tail c s p t td y (Some data)) as (k & [(M & K)|M]).
  2:{ exists (fun _ => Raise KeyError). split; [discriminate|]. rewrite M. discriminate. }
  exists k. split; [exact K|]. intros e o tr R. assert (Y : yields e model o) by (apply run_eval in R as (l0 & E0 & _); apply eval_yields; eauto).
  pose proof (model_sites _ _ _ _ _ _ _ _ _ HX ND HC Y) as N. destruct (run_nodup_trace _ _ _ _ R N) as (L & EL & -> & NL).
  assert (EF : (if c_hier c then Some (effect_fns (p_effects p)) else if p_has_exogenous p then Some (effect_fns (p_effects p)) else None) = Some (effect_fns (p_effects p))).
  { destruct (c_hier c); [reflexivity|]. now rewrite (HX eq_refl). }
  rewrite EF in M. rewrite M in EL. apply eval_split in EL as (m & l & l2 & E1 & E2 & ->).
  pose proof (proj1 (eval_compute_mean _ _ _ _ _ _) E1) as (tv & lt & vs & gs & T & C & -> & F).
  apply (chain_indep e data tv) in C; [|exact (effect_fns_only _ HC)|reflexivity]. destruct C as (rs & G & -> & ->).
  destruct (groups_forward _ _ _ _ G) as (gs & H1 & H2 & H3). rewrite H2 in F. rewrite H3 in NL.
  exists m, tv, lt, gs, l2. rewrite H3, <- app_assoc in *. repeat (split; [assumption|]). cbn [app]. reflexivity.
Qed.

Lemma sites_joint effs : forall gs, List.length effs = List.length gs ->
  log_joint (concat (map (fun ng => own_sites (fst ng) (snd ng)) (combine effs gs))) = Rsum (map (fun g => log_joint (snd g)) gs).
Proof.
  induction effs as [|ne effs IH]; intros [|g gs] L; try discriminate; [reflexivity|]. cbn [combine map concat Rsum fst snd].
  rewrite log_joint_app, IH by (now injection L). unfold own_sites. rewrite log_joint_app, log_joint_prefixed, log_joint_cons, log_joint_nil. rewrite !Rplus_0_r. reflexivity.
Qed.

Lemma value_site e tv gs : Forall2 (group e tv) (p_effects p) gs -> forall tr, NoDup (map fst tr) ->
  incl (concat (map (fun ng => own_sites (fst ng) (snd ng)) (combine (p_effects p) gs))) tr ->
  Forall2 (fun ne (g : arr * list (string * site)) => dict_get tr (fst ne) = Some (SDet (fst g))) (p_effects p) gs.
Proof.
  intros F tr N. clear HC ND. induction F as [|ne g effs gs G F IH]; intros I; [constructor|]. cbn [combine map concat fst snd] in I. constructor.
  - apply dict_get_nodup; [exact N|]. apply I. apply in_app_iff. left. apply in_app_iff. right. left. reflexivity.
  - apply IH. intros x Hx. apply I. apply in_app_iff. now right.
Qed.

Lemma run_decomposes e o tr : run e [] model = Ok (o, tr) -> decomposes logpdf c p t td data e tr.
Proof.
  intros R. destruct one_run as (k & K & ONE). destruct (ONE _ _ _ R) as (m & tv & lt & gs & l2 & N & T & G & F & E2 & ->).
  destruct (K _ _ _ _ E2) as (n & d & v & b & Sh & O & _ & J).
  exists tv, (log_joint lt), (map (fun g => log_joint (snd g)) gs), n, d, v, b.
  assert (IO : In ("obs", SSample d v b) l2) by (now apply dict_get_In).
  split. { apply dict_get_nodup; [exact N|]. apply in_app_iff. right. left. reflexivity. }
  split. { apply density_eval; [exact T|]. eapply trend_clean. apply eval_yields. eauto. }
  split.
  { assert (V := value_site e tv gs G _ N). specialize (V ltac:(intros x Hx; apply in_app_iff; right; right; apply in_app_iff; now left)).
    match type of N with NoDup (map fst ?T) => set (TR := T) in *; clearbody TR end.
    clear -G V HC. induction G as [|ne g effs gs (x & D & E) G IH] in HC, V |- *; [constructor|]. inversion V; subst. destruct ne as [n0 ef0]. cbn [map]. constructor.
    - exists x, (fst g). split; [exact D|]. split; [assumption|]. destruct g as [w lw]. apply density_eval; [exact E|]. apply predict_nodup. exact (proj2 (HC n0 ef0 (or_introl eq_refl))).
    - apply IH; auto. intros n1 ef1 I1. apply HC. now right. }
  split. { intros H1 H2. rewrite <- (Sh H1 H2). apply sum_entries in F as [F _]. now rewrite F. }
  split. { apply dict_get_nodup; [exact N|]. apply in_app_iff. right. right. apply in_app_iff. now right. }
  rewrite log_joint_app, log_joint_cons, log_joint_app, J, sites_joint by (eapply Forall2_len; exact G). lra.
Qed.

(** * Two runs which differ in the parameters of one effect *)
Lemma groups_two e e' tv name : agree_outside name e e' -> no_slash name = true ->
  forall effs gs gs', (forall n ef, In (n, ef) effs -> no_slash n = true) -> NoDup (map fst effs) -> Forall2 (group e tv) effs gs -> Forall2 (group e' tv) effs gs' ->
  (forall ef, In (name, ef) effs -> exists x w l l' , dict_get data name = Some x /\ eval (own_env e name) (predict ef x [("trend", tv)]) = Ok (w, l) /\ eval (own_env e' name) (predict ef x [("trend", tv)]) = Ok (w, l')) ->
  map fst gs = map fst gs' /\
  (~ In name (map fst effs) -> gs = gs') /\
  (forall ef, In (name, ef) effs -> exists x w l l', dict_get data name = Some x /\ eval (own_env e name) (predict ef x [("trend", tv)]) = Ok (w, l) /\ eval (own_env e' name) (predict ef x [("trend", tv)]) = Ok (w, l') /\
     (Rsum (map (fun g => log_joint (snd g)) gs) - Rsum (map (fun g => log_joint (snd g)) gs') = log_joint l - log_joint l')%R).
Proof.
  intros A NS. induction effs as [|[n ef] effs IH]; intros gs gs' FS N F F' HV; inversion F as [|? g ? gs0 G F0]; inversion F' as [|? g' ? gs0' G' F0']; subst.
  - repeat split; auto. intros ef [].
  - inversion N as [|? ? N1 N2]. subst.
    destruct (IH gs0 gs0' (fun n0 ef0 I0 => FS n0 ef0 (or_intror I0)) N2 F0 F0' (fun ef0 I0 => HV ef0 (or_intror I0))) as (H1 & H2 & H3).
    destruct G as (x & D & E), G' as (x' & D' & E'). cbn [fst snd] in *. rewrite D in D'. injection D' as <-.
    destruct (String.eqb_spec n name) as [->|NE].
    + rewrite (H2 N1) in *. clear H2 H3. destruct (HV ef (or_introl eq_refl)) as (x1 & w & l & l' & D1 & E1 & E1'). rewrite D in D1. injection D1 as <-.
      rewrite E in E1. rewrite E' in E1'. injection E1 as ->. injection E1' as ->. split; [reflexivity|]. split; [intros B; exfalso; apply B; now left|].
      intros ef0 [[= <-]|I0]; [|exfalso; apply N1; now apply (in_map fst) in I0]. exists x, w, l, l'. repeat (split; [assumption|]). cbn [map Rsum snd]. ring.
    + assert (g = g'); [|subst g'].
      { assert (E2 : eval (own_env e' n) (predict ef x [("trend", tv)]) = Ok g).
        { destruct g as [w l]. eapply eval_agree; [exact E|]. intros n0 d v _ j. unfold own_env. apply A. intros x0 B. apply NE.
          exact (proj1 (app_inv_slash _ _ _ _ (FS n ef (or_introl eq_refl)) NS B)). }
        rewrite E' in E2. now injection E2. }
      cbn [map]. rewrite H1. split; [reflexivity|]. split; [intros B; rewrite H2; [reflexivity|]; intros I0; apply B; now right|].
      intros ef0 [[= B _]|I0]; [contradiction|]. destruct (H3 ef0 I0) as (x1 & w & l & l' & D1 & E1 & E1' & S). exists x1, w, l, l'. repeat (split; [assumption|]).
      cbn [map Rsum]. rewrite <- S. ring.
Qed.

Lemma agree_plain name e e' n : agree_outside name e e' -> no_slash n = true -> forall j, e n j = e' n j.
Proof. intros A N. apply A. intros x ->. now rewrite app_slash_has in N. Qed.

Lemma runs_two e e' o tr o' tr' name ef : run e [] model = Ok (o, tr) -> run e' [] model = Ok (o', tr') -> agree_outside name e e' ->
  In (name, ef) (p_effects p) -> dict_get tr name = dict_get tr' name ->
  exists x tv w r r', dict_get data name = Some x /\ dict_get tr "trend" = Some (SDet tv) /\ dict_get tr name = Some (SDet w) /\
    has_density (own_env e name) (predict ef x [("trend", tv)]) w r /\ has_density (own_env e' name) (predict ef x [("trend", tv)]) w r' /\
    (log_joint tr - log_joint tr' = r - r')%R.
Proof.
  intros R R' A I V. destruct one_run as (k & K & ONE).
  destruct (ONE _ _ _ R) as (m & tv & lt & gs & l2 & N & T & G & F & E2 & Etr). destruct (ONE _ _ _ R') as (m' & tv' & lt' & gs' & l2' & N' & T' & G' & F' & E2' & Etr').
  assert (NS : forall n ef0, In (n, ef0) (p_effects p) -> no_slash n = true) by (intros n ef0 I0; exact (proj1 (proj1 (HC _ _ I0)))).
  assert (T2 : eval e' (trend_predict t td) = Ok (tv, lt)).
  { eapply eval_agree; [exact T|]. intros n d v In_ j. apply (agree_plain _ _ _ _ A).
    assert (S : In n trend_sites).
    { assert (YT : yields e (trend_predict t td) tv) by (apply eval_yields; eauto). apply (proj2 (trend_clean _ _ _ _ YT)). rewrite (actions_eval _ _ _ _ T). now apply (in_map fst) in In_. }
    simpl in S. intuition (subst; reflexivity). }
  rewrite T' in T2. injection T2 as -> ->.
  assert (HV : forall e0 gs0 tr0, Forall2 (group e0 tv) (p_effects p) gs0 -> NoDup (map fst tr0) -> incl (concat (map (fun ng => own_sites (fst ng) (snd ng)) (combine (p_effects p) gs0))) tr0 ->
     forall ef0, In (name, ef0) (p_effects p) -> exists x w l, dict_get data name = Some x /\ eval (own_env e0 name) (predict ef0 x [("trend", tv)]) = Ok (w, l) /\ dict_get tr0 name = Some (SDet w)).
  { intros e0 gs0 tr0 G0 N0 I0 ef0 If. pose proof (value_site e0 tv gs0 G0 tr0 N0 I0) as VS. clear -G0 VS If.
    induction G0 as [|ne g effs gs0 (x & D & E) G0 IH]; [contradiction|]. inversion VS; subst. destruct If as [->|If]; [|auto].
    destruct g as [w l]. cbn [fst snd] in *. exists x, w, l. auto. }
  assert (I1 : incl (concat (map (fun ng => own_sites (fst ng) (snd ng)) (combine (p_effects p) gs))) tr) by (rewrite Etr; intros x Hx; apply in_app_iff; right; right; apply in_app_iff; now left).
  assert (I1' : incl (concat (map (fun ng => own_sites (fst ng) (snd ng)) (combine (p_effects p) gs'))) tr') by (rewrite Etr'; intros x Hx; apply in_app_iff; right; right; apply in_app_iff; now left).
  assert (HV2 : forall ef0, In (name, ef0) (p_effects p) -> exists x w l l', dict_get data name = Some x /\ eval (own_env e name) (predict ef0 x [("trend", tv)]) = Ok (w, l) /\ eval (own_env e' name) (predict ef0 x [("trend", tv)]) = Ok (w, l')).
  { intros ef0 If. destruct (HV e gs tr G N I1 ef0 If) as (x & w & l & D & E & W). destruct (HV e' gs' tr' G' N' I1' ef0 If) as (x' & w' & l' & D' & E' & W').
    rewrite D in D'. injection D' as <-. rewrite V, W' in W. injection W as <-. exists x, w', l, l'. auto. }
  destruct (groups_two e e' tv name A (NS _ _ I) (p_effects p) gs gs' NS ND G G' HV2) as (H1 & _ & H3).
  destruct (H3 ef I) as (x & w & l & l' & D & E & E' & S).
  rewrite <- H1, F in F'. injection F' as <-.
  assert (E3 : eval e' (k m) = Ok (o, l2)).
  { eapply eval_agree; [exact E2|]. intros n d v In_ j. apply (agree_plain _ _ _ _ A). destruct (K _ _ _ _ E2) as (_ & _ & _ & _ & _ & _ & S2 & _).
    assert (B : In n (tl reserved)) by (apply S2; now apply (in_map fst) in In_). simpl in B. intuition (subst; reflexivity). }
  rewrite E2' in E3. injection E3 as -> ->.
  exists x, tv, w, (log_joint l), (log_joint l'). split; [exact D|].
  split. { rewrite Etr. apply dict_get_nodup; [now rewrite <- Etr|]. apply in_app_iff. right. left. reflexivity. }
  split. { destruct (HV e gs tr G N I1 ef I) as (x1 & w1 & l1 & D1 & E1 & W1). rewrite D in D1. injection D1 as <-. rewrite E in E1. now injection E1 as -> _. }
  split; [apply density_eval; [exact E|]; apply predict_nodup; exact (proj2 (HC _ _ I))|]. split; [apply density_eval; [exact E'|]; apply predict_nodup; exact (proj2 (HC _ _ I))|].
  rewrite Etr, Etr', !log_joint_app, !log_joint_cons, !log_joint_app, !sites_joint by (eapply Forall2_len; eassumption). rewrite <- S. ring.
Qed.
End Runs.
End Density.
