(** Two scenarios: programs whose prepared data differ for some effects only. *)
From Coq Require Import Reals Lra ZArith String Ascii Bool List Lia.
From Verif.Model Require Import Base Num Frame Arr Prog Likelihood Effect Trend TrendProg Scale Expand Forecaster.
From Verif.Spec Require Import FrameSpec ProgSpec EffectSpec ForecasterSpec SiteSpec ComponentSpec CounterSpec.
From Verif.Facts Require Import BaseFacts FrameFacts NumFacts ProgFacts MeanFacts LikelihoodFacts ModelProps EffectPredict ForecasterInv SiteFacts PosteriorFacts ComponentFacts.
Import ListNotations.
Local Open Scope string_scope.

(** * Lookups *)
Lemma dict_get_app {V} (a b : dict V) n : dict_get (a ++ b)%list n = match dict_get a n with Some v => Some v | None => dict_get b n end.
Proof. induction a as [|[k v] a IH]; simpl; [reflexivity|]. destruct (String.eqb n k); auto. Qed.
Lemma dict_get_named {V} (a : dict V) n v : dict_get a n = Some v -> In n (map fst a).
Proof. induction a as [|[k w] a IH]; simpl; [discriminate|]. destruct (String.eqb_spec n k); auto. Qed.

(** * The end of the model functions *)
Inductive tails : prog arr -> prog arr -> Prop :=
| tl_left x p : tails (Raise x) p
| tl_right x p : tails p (Raise x)
| tl_sample n d sh k k' : (forall v, tails (k v) (k' v)) -> tails (Sample n d sh None k) (Sample n d sh None k')
| tl_plate n s k k' : tails k k' -> tails (Plate n s k) (Plate n s k')
| tl_target d sh o d' sh' o' : tails (observe "obs" d sh o) (observe "obs" d' sh' o').
Lemma tails_lift {A} (m m' : res A) f f' : (forall a a', m = Ok a -> m' = Ok a' -> tails (f a) (f' a')) -> tails (pbind (lift_res m) f) (pbind (lift_res m') f').
Proof. intros H. destruct m, m'; simpl; [now apply H|constructor..]. Qed.
Lemma tails_eval e p p' : tails p p' -> forall a a' l l', eval e p = Ok (a, l) -> eval e p' = Ok (a', l') ->
  forall n, n <> "obs" -> dict_get l n = dict_get l' n.
Proof.
  induction 1 as [x p|x p|n d sh k k' Hk IH|n s k k' Hk IH|d sh o d' sh' o']; intros a a' l l' H H' m N; cbn [eval] in H, H'; try discriminate.
  - destruct (eval e (k _)) as [[a1 l1]|] eqn:E1; [|discriminate]. destruct (eval e (k' _)) as [[a2 l2]|] eqn:E2; [|discriminate].
    cbn [bind] in H, H'. injection H as <- <-. injection H' as <- <-. cbn [dict_get]. destruct (String.eqb m n); [reflexivity|]. eapply IH; eauto.
  - destruct (eval e k) as [[a1 l1]|] eqn:E1; [|discriminate]. destruct (eval e k') as [[a2 l2]|] eqn:E2; [|discriminate].
    cbn [bind] in H, H'. injection H as <- <-. injection H' as <- <-. cbn [dict_get]. destruct (String.eqb m n); [reflexivity|]. eapply IH; eauto.
  - unfold observe in H, H'. cbn [eval bind] in H, H'. injection H as <- <-. injection H' as <- <-. cbn [dict_get].
    destruct (String.eqb_spec m "obs"); [contradiction|reflexivity].
Qed.

Lemma model_tails c s p t td data data' : exists k, 
  (model_call c s p t td None data = pbind (compute_mean (trend_predict t td) data (if c_hier c then Some (effect_fns (p_effects p)) else if p_has_exogenous p then Some (effect_fns (p_effects p)) else None)) k /\
   model_call c s p t td None data' = pbind (compute_mean (trend_predict t td) data' (if c_hier c then Some (effect_fns (p_effects p)) else if p_has_exogenous p then Some (effect_fns (p_effects p)) else None)) k /\
   forall m m', a_shape m = a_shape m' -> tails (k m) (k m'))
  \/ model_call c s p t td None data = Raise KeyError.
Proof.
  unfold model_call. destruct (c_hier c).
  - unfold multivariate_model. eexists. left. split; [reflexivity|]. split; [reflexivity|]. intros m m' E. cbn [pbind]. destruct (p_single p).
    + constructor. intros v. cbn [pbind]. constructor. apply tl_target.
    + apply tails_lift. intros n n' En En'. unfold shape_at in En, En'. rewrite E, En' in En. injection En as ->.
      constructor. intros v. cbn [pbind]. constructor. intros w. cbn [pbind].
      do 2 (apply tails_lift; intros ? ? ? ?). apply tails_lift. intros ? ? Et Et'. rewrite E. constructor. apply tails_lift. intros. apply tl_target.
  - destruct (String.eqb (c_likelihood c) "normal"); [|destruct (String.eqb (c_likelihood c) "gamma"); [|destruct (String.eqb (c_likelihood c) "negbinomial"); [|exists (fun _ => Raise KeyError); now right]]].
    all: unfold univariate_model, univariate_gamma_model, univariate_negbinomial_model; eexists; left; split; [reflexivity|]; split; [reflexivity|]; intros m m' E;
      constructor; intros v; cbn [pbind]; apply tails_lift; intros n n' En En'; unfold len in En, En'; cbn [a_shape to_positive arr_map] in En, En';
      rewrite E in En; rewrite En in En'; injection En' as ->; constructor; apply tl_target.
Qed.

(** * The groups of sites of the effects *)
Section Groups.
Context {D : Type}.
Variables (e : env) (t : arr).
Notation group data := (fun (ne : string * effect_fn D) (r : arr * list (string * site)) => exists d l, dict_get data (fst ne) = Some d /\
        eval (own_env e (fst ne)) (snd ne d [("trend", t)]) = Ok (fst r, l) /\
        snd r = (map (prefixed (fst ne)) l ++ [(fst ne, SDet (fst r))])%list).

Lemma groups_get (data data' : dict D) n effs : forall rs rs', Forall2 (group data) effs rs -> Forall2 (group data') effs rs' ->
  (forall name, In name (map fst effs) -> site_of name n -> dict_get data name = dict_get data' name) ->
  dict_get (concat (map snd rs)) n = dict_get (concat (map snd rs')) n.
Proof.
  induction effs as [|[name eff] effs IH]; intros rs rs' F F' S; inversion F as [|? r ? rs0 G F0]; inversion F' as [|? r' ? rs0' G' F0']; subst; [reflexivity|].
  cbn [map concat]. rewrite !dict_get_app. rewrite (IH rs0 rs0' F0 F0') by (intros nm I; apply S; simpl; auto).
  assert (Q : dict_get (snd r) n = dict_get (snd r') n); [|now rewrite Q].
  assert (SO : site_of name n -> dict_get (snd r) n = dict_get (snd r') n).
  { intros SO. specialize (S name (or_introl eq_refl) SO). destruct G as (d & l & G1 & G2 & ->), G' as (d' & l' & G1' & G2' & ->). cbn [fst snd] in *.
    rewrite S, G1' in G1. injection G1 as ->. rewrite G2' in G2. injection G2 as -> ->. reflexivity. }
  destruct (dict_get (snd r) n) as [v|] eqn:E.
  { apply SO. apply dict_get_named in E. exact (group_names e data t _ _ _ G E). }
  destruct (dict_get (snd r') n) as [v|] eqn:E'; [|reflexivity].
  apply SO. apply dict_get_named in E'. exact (group_names e data' t _ _ _ G' E').
Qed.

Lemma group_value (data : dict D) ne r : group data ne r -> no_slash (fst ne) = true -> dict_get (snd r) (fst ne) = Some (SDet (fst r)).
Proof.
  intros (d & l & _ & _ & ->) NS. rewrite dict_get_app. destruct (dict_get _ _) eqn:E.
  - exfalso. apply dict_get_named in E. rewrite map_map in E. apply in_map_iff in E as ([x s0] & E & _). cbn [fst prefixed] in E.
    assert (B : no_slash (fst ne) = false) by (rewrite <- E; apply app_slash_has). congruence.
  - cbn [dict_get]. now rewrite String.eqb_refl.
Qed.

Lemma groups_other (data : dict D) effs rs n : Forall2 (group data) effs rs -> no_slash n = true -> ~ In n (map fst effs) ->
  dict_get (concat (map snd rs)) n = None.
Proof.
  induction 1 as [|ne r effs rs G F IH]; intros NS N; [reflexivity|]. cbn [map concat]. rewrite dict_get_app.
  destruct (dict_get (snd r) n) eqn:E.
  - exfalso. apply dict_get_named in E. destruct (group_names e data t _ _ _ G E) as [->|(x & ->)]; [apply N; simpl; auto|]. now rewrite app_slash_has in NS.
  - apply IH; [exact NS|]. intros I. apply N. simpl. auto.
Qed.

(** only the effect called [name] differs: so does the sum, by the change of its component *)
Lemma groups_sum (data data' : dict D) name effs : forall rs rs', Forall2 (group data) effs rs -> Forall2 (group data') effs rs' ->
  NoDup (map fst effs) -> (forall n, In n (map fst effs) -> no_slash n = true) ->
  (forall n, In n (map fst effs) -> n <> name -> dict_get data n = dict_get data' n) -> In name (map fst effs) ->
  exists v v', dict_get (concat (map snd rs)) name = Some (SDet v) /\ dict_get (concat (map snd rs')) name = Some (SDet v') /\ In v (map fst rs) /\ In v' (map fst rs') /\
    forall k, (Rsum (map (fun x => entry x k) (map fst rs)) - Rsum (map (fun x => entry x k) (map fst rs')) = entry v k - entry v' k)%R.
Proof.
  assert (SAME : forall effs rs rs', Forall2 (group data) effs rs -> Forall2 (group data') effs rs' ->
    (forall n, In n (map fst effs) -> dict_get data n = dict_get data' n) -> rs = rs').
  { clear. induction effs as [|ne effs IH]; intros rs rs' F F' S; inversion F as [|? r ? rs0 G F0]; inversion F' as [|? r' ? rs0' G' F0']; subst; [reflexivity|].
    f_equal; [|apply IH; auto; intros; apply S; simpl; auto]. destruct G as (d & l & G1 & G2 & G3), G' as (d' & l' & G1' & G2' & G3').
    specialize (S (fst ne) (or_introl eq_refl)). rewrite S, G1' in G1. injection G1 as ->. rewrite G2' in G2. injection G2 as E1 E2. subst l'.
    destruct r, r'. cbn [fst snd] in *. subst. reflexivity. }
  induction effs as [|[nm eff] effs IH]; intros rs rs' F F' ND NS S I; [contradiction|].
  inversion F as [|? r ? rs0 G F0]; inversion F' as [|? r' ? rs0' G' F0']; subst. inversion ND as [|? ? N1 N2]. subst. cbn [map fst concat] in *.
  destruct (String.eqb_spec nm name) as [->|NE].
  - assert (E : rs0 = rs0') by (refine (SAME effs _ _ F0 F0' _); intros n In_; apply S; [now right|intros ->; contradiction]). subst rs0'.
    exists (fst r), (fst r'). rewrite !dict_get_app. pose proof (group_value data (name, eff) r G (NS _ (or_introl eq_refl))) as A. pose proof (group_value data' (name, eff) r' G' (NS _ (or_introl eq_refl))) as A'. cbn [fst] in A, A'. rewrite A, A'.
    repeat split; auto; try (now left). intros k. cbn [map Rsum]. ring.
  - destruct I as [I|I]; [contradiction|]. destruct (IH rs0 rs0' F0 F0' N2 (fun n In_ => NS n (or_intror In_)) (fun n In_ => S n (or_intror In_)) I) as (v & v' & A & A' & I1 & I1' & Sm).
    assert (r = r').
    { destruct G as (d & l & G1 & G2 & G3), G' as (d' & l' & G1' & G2' & G3'). cbn [fst snd] in *.
      rewrite (S nm (or_introl eq_refl) NE), G1' in G1. injection G1 as ->. rewrite G2' in G2. injection G2 as E1 E2. subst l'. destruct r, r'. cbn [fst snd] in *. subst. reflexivity. }
    subst r'. exists v, v'. rewrite !dict_get_app.
    assert (No : dict_get (snd r) name = None).
    { destruct (dict_get (snd r) name) eqn:E; [|reflexivity]. exfalso. apply dict_get_named in E. destruct (group_names e data t (nm, eff) _ _ G E) as [E1|(x & E1)].
      - cbn [fst] in E1. congruence.
      - pose proof (NS name (or_intror I)) as B. rewrite E1 in B. cbn [fst] in B. now rewrite app_slash_has in B. }
    rewrite No. split; [exact A|]. split; [exact A'|]. split; [now right|]. split; [now right|]. intros k. cbn [map Rsum]. specialize (Sm k). lra.
Qed.
End Groups.

Lemma effect_fns_only p : (forall n ef, In (n, ef) p -> free_name n /\ unnested ef) ->
  Forall (fun ne => trend_only (snd ne) /\ fst ne <> "trend") (effect_fns p).
Proof.
  intros H. unfold effect_fns. apply Forall_forall. intros ne I. apply in_map_iff in I as ([n ef] & <- & I). cbn [fst snd]. split; [apply predict_trend_only|].
  intros ->. destruct (H _ _ I) as [[_ F] _]. apply F. simpl. auto.
Qed.

Lemma effect_fns_keys p : map fst (effect_fns p) = map fst p.
Proof. unfold effect_fns. now rewrite map_map. Qed.

(** * Two runs of the model *)
Section Runs.
Variables (c : config) (s : scale) (p : prepared) (t : trend) (td : tdata) (data data' : dict edata).
Hypothesis HX : c_hier c = false -> p_has_exogenous p = true.
Hypothesis ND : NoDup (map fst (p_effects p)).
Hypothesis HC : forall n ef, In (n, ef) (p_effects p) -> free_name n /\ unnested ef.
Notation model d := (model_call c s p t td None (Some d)).
Notation mean d := (compute_mean (trend_predict t td) (Some d) (Some (effect_fns (p_effects p)))).

Lemma two_runs e o tr o' tr' : run e [] (model data) = Ok (o, tr) -> run e [] (model data') = Ok (o', tr') ->
  exists m m' l l' tv lt rs rs' l2 l2' k,
    tr = (l ++ l2)%list /\ tr' = (l' ++ l2')%list /\ NoDup (map fst tr) /\ NoDup (map fst tr') /\
    eval e (mean data) = Ok (m, l) /\ eval e (mean data') = Ok (m', l') /\ model data = pbind (mean data) k /\ model data' = pbind (mean data') k /\
    l = (lt ++ ("trend", SDet tv) :: concat (map snd rs))%list /\ l' = (lt ++ ("trend", SDet tv) :: concat (map snd rs'))%list /\
    (incl (map fst lt) trend_sites) /\
    foldM (arr_zip Rplus) tv (map fst rs) = Ok m /\ foldM (arr_zip Rplus) tv (map fst rs') = Ok m' /\
    (forall n, n <> "obs" -> dict_get l2 n = dict_get l2' n) /\
    Forall2 (fun ne r => exists d l, dict_get data (fst ne) = Some d /\ eval (own_env e (fst ne)) (snd ne d [("trend", tv)]) = Ok (fst r, l) /\
        snd r = (map (prefixed (fst ne)) l ++ [(fst ne, SDet (fst r))])%list) (effect_fns (p_effects p)) rs /\
    Forall2 (fun ne r => exists d l, dict_get data' (fst ne) = Some d /\ eval (own_env e (fst ne)) (snd ne d [("trend", tv)]) = Ok (fst r, l) /\
        snd r = (map (prefixed (fst ne)) l ++ [(fst ne, SDet (fst r))])%list) (effect_fns (p_effects p)) rs'.
Proof.
  intros R R'.
  assert (Y : yields e (model data) o) by (apply run_eval in R as (l0 & E0 & _); apply eval_yields; eauto).
  assert (Y' : yields e (model data') o') by (apply run_eval in R' as (l0 & E0 & _); apply eval_yields; eauto).
  pose proof (model_sites _ _ _ _ _ _ _ _ _ HX ND HC Y) as N. pose proof (model_sites _ _ _ _ _ _ _ _ _ HX ND HC Y') as N'.
  destruct (run_nodup_trace _ _ _ _ R N) as (L & EL & -> & NL). destruct (run_nodup_trace _ _ _ _ R' N') as (L' & EL' & -> & NL').
  destruct (model_tails c s p t td (Some data) (Some data')) as (k & [(M & M' & K)|M]); [|rewrite M in EL; discriminate].
  assert (EF : (if c_hier c then Some (effect_fns (p_effects p)) else if p_has_exogenous p then Some (effect_fns (p_effects p)) else None) = Some (effect_fns (p_effects p))).
  { destruct (c_hier c); [reflexivity|]. now rewrite (HX eq_refl). }
  rewrite EF in M, M'. pose proof EL as EL0. pose proof EL' as EL0'. rewrite M in EL. rewrite M' in EL'.
  apply eval_split in EL as (m & l & l2 & E1 & E2 & ->). apply eval_split in EL' as (m' & l' & l2' & E1' & E2' & ->).
  pose proof (proj1 (eval_compute_mean _ _ _ _ _ _) E1) as (tv & lt & vs & gs & T & C & El & F).
  pose proof (proj1 (eval_compute_mean _ _ _ _ _ _) E1') as (tv' & lt' & vs' & gs' & T' & C' & El' & F').
  rewrite T in T'. injection T' as <- <-. pose proof (effect_fns_only _ HC) as ON.
  apply (chain_indep e data tv) in C; [|exact ON|reflexivity]. apply (chain_indep e data' tv) in C'; [|exact ON|reflexivity].
  destruct C as (rs & G & -> & ->), C' as (rs' & G' & -> & ->).
  exists m, m', l, l', tv, lt, rs, rs', l2, l2', k. repeat (split; [solve [auto]|]).
  split.
  { rewrite <- (actions_eval _ _ _ _ T). eapply trend_clean. apply eval_yields. eauto. }
  split; [exact F|]. split; [exact F'|]. split; [|split; [exact G|exact G']].
  intros n Nn. refine (tails_eval e _ _ (K m m' _) _ _ _ _ E2 E2' n Nn).
  apply sum_entries in F as [F _]. apply sum_entries in F' as [F' _]. congruence.
Qed.

Lemma runs_elsewhere e o tr o' tr' n : run e [] (model data) = Ok (o, tr) -> run e [] (model data') = Ok (o', tr') ->
  n <> "obs" -> (forall name, site_of name n -> dict_get data name = dict_get data' name) -> dict_get tr n = dict_get tr' n.
Proof.
  intros R R' Nn S. destruct (two_runs _ _ _ _ _ R R') as (m & m' & l & l' & tv & lt & rs & rs' & l2 & l2' & k & -> & -> & _ & _ & _ & _ & _ & _ & -> & -> & _ & _ & _ & T & G & G').
  rewrite !dict_get_app. destruct (dict_get lt n); [reflexivity|]. cbn [dict_get]. destruct (String.eqb n "trend"); [reflexivity|].
  rewrite (groups_get e tv data data' n _ _ _ G G') by auto. now rewrite (T n Nn).
Qed.

(** the location changes by the change of the only component that does *)
Lemma runs_location e o tr o' tr' name : run e [] (model data) = Ok (o, tr) -> run e [] (model data') = Ok (o', tr') ->
  In name (map fst (p_effects p)) -> (forall n, n <> name -> dict_get data n = dict_get data' n) ->
  exists m m' tr1 tr1' v v', run e [] (mean data) = Ok (m, tr1) /\ run e [] (mean data') = Ok (m', tr1') /\
    dict_get tr name = Some (SDet v) /\ dict_get tr' name = Some (SDet v') /\ a_shape v = a_shape m /\ a_shape v' = a_shape m /\ a_shape m' = a_shape m /\
    forall k, k < List.length (a_flat m) -> k < List.length (a_flat m') -> (entry m k - entry m' k = entry v k - entry v' k)%R.
Proof.
  intros R R' I S. pose proof (two_runs _ _ _ _ _ R R') as (m & m' & l & l' & tv & lt & rs & rs' & l2 & l2' & k & -> & -> & NL & NL' & E & E' & M & M' & -> & -> & ILT & F & F' & _ & G & G').
  destruct (groups_sum e tv data data' name _ _ _ G G') as (v & v' & A & A' & Iv & Iv' & Sm).
  { now rewrite effect_fns_keys. }
  { rewrite effect_fns_keys. intros n In_. apply in_map_iff in In_ as ([x ef] & <- & In_). exact (proj1 (proj1 (HC _ _ In_))). }
  { intros n _. apply S. } { now rewrite effect_fns_keys. }
  apply sum_entries in F as (S1 & S2 & _ & S3 & _). apply sum_entries in F' as (S1' & S2' & _ & S3' & _).
  rewrite Forall_forall in S2, S2'. pose proof (S2 v Iv) as Sv. pose proof (S2' v' Iv') as Sv'.
  pose proof R as R0. pose proof R' as R0'. rewrite M, run_bind in R. rewrite M', run_bind in R'.
  destruct (run e [] (mean data)) as [[m1 tr1]|] eqn:Q; [|discriminate]. destruct (run e [] (mean data')) as [[m1' tr1']|] eqn:Q'; [|discriminate].
  assert (m1 = m). { apply run_eval in Q as (lx & Q & _). rewrite E in Q. congruence. }
  assert (m1' = m'). { apply run_eval in Q' as (lx & Q' & _). rewrite E' in Q'. congruence. } subst m1 m1'.
  exists m, m', tr1, tr1', v, v'. split; [reflexivity|]. split; [reflexivity|].
  assert (FN : ~ In name ("trend" :: trend_sites)).
  { apply in_map_iff in I as ([x ef] & <- & I). destruct (HC _ _ I) as [[_ B] _]. intros J. apply B. destruct J as [J|J]; apply in_app_iff; [left; cbn [fst] in J; rewrite <- J; simpl; auto|right; exact J]. }
  assert (NT : dict_get lt name = None) by (destruct (dict_get lt name) eqn:B; [|reflexivity]; exfalso; apply dict_get_named in B; apply ILT in B; apply FN; now right).
  assert (NE : String.eqb name "trend" = false) by (apply String.eqb_neq; intros ->; apply FN; now left).
  split. { rewrite !dict_get_app, NT. cbn [dict_get]. now rewrite NE, A. }
  split. { rewrite !dict_get_app, NT. cbn [dict_get]. now rewrite NE, A'. }
  split; [congruence|]. split; [congruence|]. split; [congruence|].
  intros j L1 L2. rewrite S3, S3' by assumption. specialize (Sm j). lra.
Qed.
End Runs.
