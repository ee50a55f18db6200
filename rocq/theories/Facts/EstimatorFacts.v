(** Constructors keep their arguments. *)
From Coq Require Import Reals String Bool ZArith List Lia Lra.
From Verif.Model Require Import Base Num XFloat Prog Arr Engine Params Estimator.
From Verif.Spec Require Import ParamsSpec EstimatorSpec.
From Verif.Facts Require Import BaseFacts ParamsFacts.
Import ListNotations.
Local Open Scope string_scope.

Lemma given_get kw n d : match dict_get kw n with Some v => v | None => d end = given kw n d.
Proof. induction kw as [|[m v] kw IH]; [reflexivity|]. cbn. destruct (String.eqb n m); auto. Qed.

Lemma bind_args_known ps kw : (forall n v, In (n, v) kw -> In n (map fst ps)) -> bind_args ps false kw = Ok (map (fun pd => (fst pd, given kw (fst pd) (snd pd))) ps).
Proof.
  intros H. unfold bind_args. replace (forallb _ kw) with true.
  - cbn [orb]. f_equal. apply map_ext. intros [p d]. cbn. now rewrite given_get.
  - symmetry. apply forallb_forall. intros [n v] Hn. apply str_in_iff. exact (H n v Hn).
Qed.
Lemma bind_args_unknown ps kw n v : In (n, v) kw -> ~ In n (map fst ps) -> bind_args ps false kw = Err TypeError.
Proof.
  intros H N. unfold bind_args. replace (forallb _ kw) with false; [reflexivity|]. symmetry. apply not_true_iff_false. intros F.
  apply (proj1 (forallb_forall _ _) F) in H. apply str_in_iff in H. now apply N.
Qed.


Fixpoint nodupb (l : list string) : bool := match l with [] => true | x :: tl => negb (str_in x tl) && nodupb tl end.
Lemma nodupb_nodup l : nodupb l = true -> NoDup l.
Proof. induction l as [|x l IH]; cbn; intros H; constructor; apply andb_true_iff in H as [H1 H2]; [|auto]. intros I. apply str_in_iff in I. rewrite I in H1. discriminate. Qed.
Lemma classes_nodup hier k : In (hier, k) user_classes -> NoDup (map fst (params k)).
Proof. intros H. apply nodupb_nodup. repeat (destruct H as [[= <- <-]|H]; [vm_compute; reflexivity|]). destruct H. Qed.
Lemma classes_strict hier k : In (hier, k) user_classes -> exists sets base passes, k = Class (params k) false sets base passes.
Proof. intros H. repeat (destruct H as [[= <- <-]|H]; [eexists _, _, _; reflexivity|]). destruct H. Qed.

(** the attributes, computed *)
Lemma init_classes hier k kw : In (hier, k) user_classes -> known_keywords k kw -> exists attrs, init k kw [] = Ok attrs /\
  (forall p d, In (p, d) (params k) -> dict_get attrs p = Some (given kw p d)).
Proof.
  intros H K. repeat (destruct H as [[= <- <-]|H]; [
    eexists; split; [cbn [init prophetverse prophet prophet_gamma prophet_negbinomial legacy hierarchical_prophet]; rewrite bind_args_known by exact K; cbv -[given num]; reflexivity
    | intros p d HP; repeat (destruct HP as [[= <- <-]|HP]; [reflexivity|]); destruct HP]|]). destruct H.
Qed.

(** * C80 *)
Lemma construct_inv hier k kw attrs : construct hier k kw = Ok attrs -> init k kw [] = Ok attrs /\ check_attrs hier attrs = Ok tt.
Proof. unfold construct. destruct (init k kw []) as [a|]; [|discriminate]. cbn [bind]. destruct (check_attrs hier a) as [[]|] eqn:E; [|discriminate]. intros [= <-]. auto. Qed.
Lemma c80_unknown hier k kw n v : In (hier, k) user_classes -> In (n, v) kw -> ~ In n (map fst (params k)) -> construct hier k kw = Err TypeError.
Proof.
  intros H I N. destruct (classes_strict _ _ H) as (sets & b & ps & E). unfold construct. rewrite E. cbn [init]. rewrite (bind_args_unknown _ _ _ _ I N). reflexivity.
Qed.
Lemma construct_known hier k kw attrs : In (hier, k) user_classes -> construct hier k kw = Ok attrs -> known_keywords k kw.
Proof.
  intros H E n v I. destruct (in_dec string_dec n (map fst (params k))) as [Y|N]; [exact Y|]. rewrite (c80_unknown _ _ _ _ _ H I N) in E. discriminate.
Qed.
Lemma c80_stored hier k kw attrs : In (hier, k) user_classes -> construct hier k kw = Ok attrs ->
  forall p d, In (p, d) (params k) -> dict_get attrs p = Some (given kw p d).
Proof.
  intros H E p d I. destruct (init_classes _ _ _ H (construct_known _ _ _ _ H E)) as (a & Ea & G). apply construct_inv in E as [E _]. rewrite Ea in E. injection E as <-. auto.
Qed.

Lemma init_given k kw kw' a : (exists sets b ps, k = Class (params k) false sets b ps) -> known_keywords k kw -> known_keywords k kw' ->
  (forall p d, In (p, d) (params k) -> given kw p d = given kw' p d) -> init k kw a = init k kw' a.
Proof.
  intros (sets & b & ps & E) K K' G. rewrite E. cbn [init]. rewrite (bind_args_known _ _ K), (bind_args_known _ _ K').
  replace (map (fun pd : string * pyval => (fst pd, given kw' (fst pd) (snd pd))) (params k)) with (map (fun pd : string * pyval => (fst pd, given kw (fst pd) (snd pd))) (params k)); [reflexivity|].
  apply map_ext_in. intros [p d] I. cbn. now rewrite (G p d I).
Qed.

Lemma given_map (ps : list (string * pyval)) f p d d' : NoDup (map fst ps) -> In (p, d) ps -> given (map (fun pd => (fst pd, f pd)) ps) p d' = f (p, d).
Proof.
  induction ps as [|[q e] ps IH]; intros N I; [contradiction|]. cbn in *. inversion N; subst. destruct I as [[= -> ->]|I]; [now rewrite String.eqb_refl|].
  destruct (String.eqb_spec p q) as [->|NE]; [|auto]. exfalso. apply H1. apply in_map_iff. now exists (q, d).
Qed.
Lemma get_params_stored k attrs kw : (forall p d, In (p, d) (params k) -> dict_get attrs p = Some (given kw p d)) ->
  get_params k attrs = Ok (map (fun pd => (fst pd, given kw (fst pd) (snd pd))) (params k)).
Proof.
  unfold get_params. induction (params k) as [|[p d] ps IH]; intros H; [reflexivity|]. cbn [mapM fst snd map]. unfold attribute at 1. rewrite (H p d) by (simpl; auto). cbn [bind].
  rewrite IH; [reflexivity|]. intros; apply H; simpl; auto.
Qed.
Lemma c80_clone hier k kw attrs : In (hier, k) user_classes -> construct hier k kw = Ok attrs -> clone_of hier k attrs = Ok attrs.
Proof.
  intros H E. pose proof (construct_known _ _ _ _ H E) as K. unfold clone_of. rewrite (get_params_stored _ _ kw (c80_stored _ _ _ _ H E)). cbn [bind].
  unfold construct in *. rewrite <- (init_given k kw); [exact E|exact (classes_strict _ _ H)|exact K| |].
  - intros n v I. apply in_map_iff in I as ([q e] & [= <- <-] & I). apply in_map_iff. now exists (q, e).
  - intros p d I. rewrite (given_map _ (fun pd => given kw (fst pd) (snd pd)) p d) by (try exact (classes_nodup _ _ H); exact I). reflexivity.
Qed.

(** the checks in terms of the given values *)
Lemma check_attr_iff attrs n v : dict_get attrs n = Some v -> (check_attr attrs n = Ok tt <-> exists x, v = PNum x /\ (positive x \/ x = XNaN)).
Proof.
  intros E. unfold check_attr, number_attr, attribute. rewrite E. cbn [bind]. destruct v as [|x| | | |]; cbn [bind]; try (split; [discriminate|intros (x & [=] & _)]).
  rewrite check_positive_ok. split; [eauto|]. intros (x' & [= <-] & H). exact H.
Qed.
Lemma bind_unit (m : res unit) {A} (q : res A) : (_ <- m ;; q) = match m with Ok _ => q | Err e => Err e end.
Proof. destruct m; reflexivity. Qed.
Lemma bind_tt (m : res unit) (q : res unit) : (_ <- m ;; q) = Ok tt <-> m = Ok tt /\ q = Ok tt.
Proof. destruct m as [[]|]; cbn; intuition congruence. Qed.
Lemma check_attrs_iff hier attrs (get : string -> pyval) : (forall n, In n positive_params -> (hier = false -> n <> "correlation_matrix_concentration") -> dict_get attrs n = Some (get n)) ->
  dict_get attrs "trend" = Some (get "trend") -> (hier = false -> dict_get attrs "likelihood" = Some (get "likelihood")) ->
  (check_attrs hier attrs = Ok tt <->
   (forall n, In n positive_params -> (hier = false -> n <> "correlation_matrix_concentration") -> exists x, get n = PNum x /\ (positive x \/ x = XNaN)) /\
   ((exists s, get "trend" = PStr s /\ In s ["linear"; "linear_raw"; "logistic"; "flat"]) \/ exists i, get "trend" = PEffect i) /\
   (hier = false -> exists s, get "likelihood" = PStr s /\ In s ["normal"; "gamma"; "negbinomial"])).
Proof.
  intros HP HT HL. unfold check_attrs, check_base. rewrite !bind_tt.
  assert (C : forall n, In n positive_params -> (hier = false -> n <> "correlation_matrix_concentration") -> (check_attr attrs n = Ok tt <-> exists x, get n = PNum x /\ (positive x \/ x = XNaN)))
    by (intros n Hn Hh; apply check_attr_iff; apply HP; assumption).
  assert (T : (t <- attribute attrs "trend" ;; match trend_attr t with TVName s => if str_in s trend_names then Ok tt else Err ValueError | TVEffect => Ok tt | TVOther => Err ValueError end) = Ok tt <->
     (exists s, get "trend" = PStr s /\ In s ["linear"; "linear_raw"; "logistic"; "flat"]) \/ exists i, get "trend" = PEffect i).
  { unfold attribute. rewrite HT. cbn [bind]. destruct (get "trend") as [| |s| |i|]; cbn [trend_attr]; try (split; [discriminate|intros [(s' & [=] & _)|(i & [=])]]).
    - destruct (str_in s trend_names) eqn:Q.
      + split; [|reflexivity]. intros _. left. exists s. split; [reflexivity|]. now apply str_in_iff in Q.
      + split; [discriminate|]. intros [(s' & [= <-] & I)|(i & [=])]. exfalso. change ["linear"; "linear_raw"; "logistic"; "flat"] with trend_names in I. apply str_in_iff in I. congruence.
    - split; [|reflexivity]. eauto. }
  rewrite T. rewrite (C "changepoint_interval"), (C "changepoint_prior_scale"), (C "capacity_prior_scale"), (C "capacity_prior_loc"), (C "offset_prior_scale"), (C "noise_scale")
    by (first [cbn; tauto | discriminate]).
  assert (L : (if hier then check_attr attrs "correlation_matrix_concentration" else l <- attribute attrs "likelihood" ;; match l with PStr s => if str_in s likelihood_names then Ok tt else Err ValueError | _ => Err ValueError end) = Ok tt <->
    if hier then exists x, get "correlation_matrix_concentration" = PNum x /\ (positive x \/ x = XNaN) else exists s, get "likelihood" = PStr s /\ In s ["normal"; "gamma"; "negbinomial"]).
  { destruct hier; [apply C; [cbn; tauto|discriminate]|]. unfold attribute. rewrite (HL eq_refl). cbn [bind]. destruct (get "likelihood") as [| |s| | |]; try (split; [discriminate|intros (s' & [=] & _)]).
    destruct (str_in s likelihood_names) eqn:Q.
    - split; [|reflexivity]. intros _. exists s. split; [reflexivity|]. now apply str_in_iff in Q.
    - split; [discriminate|]. intros (s' & [= <-] & I). exfalso. change ["normal"; "gamma"; "negbinomial"] with likelihood_names in I. apply str_in_iff in I. congruence. }
  rewrite L. clear C T L HP HT HL. split.
  - intros ((H1 & H2 & H3 & H4 & H5 & H6) & H7 & H8). split; [|split; [exact H6|intros ->; exact H8]].
    intros n Hn Hh. repeat (destruct Hn as [<-|Hn]; [assumption || (destruct hier; [assumption|destruct (Hh eq_refl eq_refl)])|]). destruct Hn.
  - intros (HN & H6 & H8). repeat split; try assumption; try (apply HN; [cbn; tauto|discriminate]). destruct hier; [apply HN; [cbn; tauto|discriminate]|exact (H8 eq_refl)].
Qed.

Definition default_in (k : class) (n : string) : pyval := given (params k) n PNone.
Lemma default_in_In k n d : NoDup (map fst (params k)) -> In (n, d) (params k) -> default_in k n = d.
Proof.
  unfold default_in. induction (params k) as [|[q e] ps IH]; intros N I; [contradiction|]. cbn in *. inversion N; subst. destruct I as [[= -> ->]|I]; [now rewrite String.eqb_refl|].
  destruct (String.eqb_spec n q) as [->|NE]; [|auto]. exfalso. apply H1. apply in_map_iff. now exists (q, d).
Qed.

Lemma c80_accepts hier k kw : In (hier, k) user_classes -> known_keywords k kw -> ((exists attrs, construct hier k kw = Ok attrs) <-> acceptable k kw).
Proof.
  intros H K. destruct (init_classes _ _ _ H K) as (a & Ea & G). pose proof (classes_nodup _ _ H) as ND.
  assert (E : (exists attrs, construct hier k kw = Ok attrs) <-> check_attrs hier a = Ok tt).
  { unfold construct. rewrite Ea. cbn [bind]. destruct (check_attrs hier a) as [[]|]; cbn; split; eauto; intros; try discriminate. now destruct H0. }
  rewrite E. clear E.
  assert (PI : forall n, In n positive_params -> (hier = false -> n <> "correlation_matrix_concentration") -> exists d, In (n, d) (params k)).
  { intros n Hn Hh. assert (B : str_in n (map fst (params k)) = true).
    { clear -H Hn Hh. repeat (destruct H as [[= <- <-]|H]; [repeat (destruct Hn as [<-|Hn]; [first [reflexivity | exfalso; exact (Hh eq_refl eq_refl)]|]); destruct Hn|]). destruct H. }
    apply str_in_iff in B. apply in_map_iff in B as ([q d] & <- & I). eauto. }
  assert (PT : exists d, In ("trend", d) (params k)).
  { clear -H. repeat (destruct H as [[= <- <-]|H]; [eexists; cbn; tauto|]). destruct H. }
  assert (PC : forall d, In ("correlation_matrix_concentration", d) (params k) -> hier = true).
  { intros d I. clear -H I. apply (in_map fst) in I. apply str_in_iff in I. cbn [fst] in I. repeat (destruct H as [[= <- <-]|H]; [first [reflexivity | discriminate I]|]). destruct H. }
  set (get := fun n => match dict_get a n with Some v => v | None => PNone end).
  assert (GG : forall n d, In (n, d) (params k) -> dict_get a n = Some (get n) /\ get n = given kw n d).
  { intros n d I. unfold get. rewrite (G _ _ I). auto. }
  assert (LK : hier = false -> dict_get a "likelihood" = Some (get "likelihood") /\ ((forall d, In ("likelihood", d) (params k) -> exists s, given kw "likelihood" d = PStr s /\ In s ["normal"; "gamma"; "negbinomial"]) <->
     exists s, get "likelihood" = PStr s /\ In s ["normal"; "gamma"; "negbinomial"])).
  { intros ->. destruct H as [[= <-]|[[= <-]|[[= <-]|[[= <-]|[[=]|[]]]]]].
    - destruct (GG "likelihood" (PStr "normal")) as [G1 G2]; [cbn; tauto|]. split; [exact G1|]. rewrite G2. split; [intros X; apply X; cbn; tauto|]. intros X d I.
      rewrite <- (default_in_In prophetverse "likelihood" d ND I). exact X.
    - cbn [init prophet legacy] in Ea. rewrite bind_args_known in Ea by exact K. cbv -[given num] in Ea. injection Ea as <-. split; [reflexivity|]. split; [|intros _ d I; apply (in_map fst), str_in_iff in I; discriminate I].
      intros _. exists "normal". split; [reflexivity|cbn; tauto].
    - cbn [init prophet_gamma legacy] in Ea. rewrite bind_args_known in Ea by exact K. cbv -[given num] in Ea. injection Ea as <-. split; [reflexivity|]. split; [|intros _ d I; apply (in_map fst), str_in_iff in I; discriminate I].
      intros _. exists "gamma". split; [reflexivity|cbn; tauto].
    - cbn [init prophet_negbinomial legacy] in Ea. rewrite bind_args_known in Ea by exact K. cbv -[given num] in Ea. injection Ea as <-. split; [reflexivity|]. split; [|intros _ d I; apply (in_map fst), str_in_iff in I; discriminate I].
      intros _. exists "negbinomial". split; [reflexivity|cbn; tauto]. }
  rewrite (check_attrs_iff hier a get).
  - unfold acceptable. split.
    + intros (A & B & C). split; [|split].
      * intros n d I Hn. destruct (A n Hn) as (x & E & P); [intros Hh ->; rewrite (PC _ I) in Hh; discriminate|]. rewrite <- (proj2 (GG n d I)). eauto.
      * intros d I. rewrite <- (proj2 (GG _ _ I)). exact B.
      * destruct hier; [|now apply (LK eq_refl), C]. intros d I. exfalso. destruct H as [[=]|[[=]|[[=]|[[=]|[[= <-]|[]]]]]]. apply (in_map fst), str_in_iff in I. discriminate I.
    + intros (A & B & C). split; [|split].
      * intros n Hn Hh. destruct (PI n Hn Hh) as (d & I). rewrite (proj2 (GG n d I)). eauto.
      * destruct PT as (d & I). rewrite (proj2 (GG _ _ I)). eauto.
      * intros Hh. now apply (LK Hh).
  - intros n Hn Hh. destruct (PI n Hn Hh) as (d & I). apply (GG n d I).
  - destruct PT as (d & I). apply (GG _ _ I).
  - intros Hh. now apply LK.
Qed.

(** the older classes *)
Lemma c80_legacy l kw : known_keywords (legacy l) kw ->
  construct false (legacy l) kw = construct false prophetverse (("likelihood", PStr l) :: ("trend", given kw "trend" (PStr "logistic")) :: kw).
Proof.
  intros K. unfold construct. f_equal. cbn [init legacy]. rewrite bind_args_known by exact K.
  assert (K2 : known_keywords prophetverse (("likelihood", PStr l) :: ("trend", given kw "trend" (PStr "logistic")) :: kw)).
  { intros n v [[= <- <-]|[[= <- <-]|I]]; [cbn; tauto|cbn; tauto|]. apply K in I. cbn in I |- *. tauto. }
  cbn [init prophetverse]. rewrite bind_args_known by exact K2. cbv -[given num]. unfold given. cbn. reflexivity.
Qed.

(** * The optimiser *)
Lemma prefix_app p s : String.prefix p s = true <-> exists r, s = p ++ r.
Proof.
  revert s. induction p as [|a p IH]; intros s.
  - split; [exists s; reflexivity|intros _; destruct s; reflexivity].
  - destruct s as [|b s]; [split; [discriminate|intros [r [=]]]|]. cbn [String.prefix String.append]. destruct (Ascii.ascii_dec a b) as [<-|NE].
    + rewrite IH. split; intros [r E]; exists r; [now rewrite E|now injection E].
    + split; [discriminate|]. intros [r [= E _]]. congruence.
Qed.
Lemma given_absent kw n d : (forall v, ~ In (n, v) kw) -> given kw n d = d.
Proof.
  induction kw as [|[m v] kw IH]; intros H; [reflexivity|]. cbn. destruct (String.eqb_spec n m) as [<-|NE]; [destruct (H v); simpl; auto|]. apply IH. intros w I. apply (H w). simpl; auto.
Qed.
Section Optimizers.
Variable numpyro_optim : string -> option (dict pyval -> res nat).
Variable cosine_decay_schedule : dict pyval -> res nat.
Variable adam_chain : nat -> nat.
Context {P : Type}.
Variable svi_run : Z -> nat -> nat -> prog arr -> res (list xr * P).
Variable nuts_run : Z -> nat -> nat -> nat -> prog arr -> res (nat -> nat -> env).
Variable latent_sites : prog arr -> list string.
Notation optimizer := (optimizer numpyro_optim cosine_decay_schedule adam_chain).
Notation infer_with := (infer_with numpyro_optim cosine_decay_schedule adam_chain svi_run nuts_run latent_sites).

Lemma opt_params hier k : In (hier, k) user_classes -> In ("optimizer_name", PStr "Adam") (params k) /\ In ("optimizer_kwargs", PNone) (params k).
Proof. intros H. repeat (destruct H as [[= <- <-]|H]; [cbn; tauto|]). destruct H. Qed.
Lemma c81_default hier k kw attrs : In (hier, k) user_classes -> construct hier k kw = Ok attrs ->
  (forall v, ~ In ("optimizer_name", v) kw) -> (forall v, ~ In ("optimizer_kwargs", v) kw) ->
  optimizer attrs = match numpyro_optim "Adam" with Some mk => mk [("step_size", num (1 / 10000))] | None => Err AttributeError end.
Proof.
  intros H E N1 N2. destruct (opt_params _ _ H) as [I1 I2]. unfold Estimator.optimizer, attribute.
  rewrite (c80_stored _ _ _ _ H E _ _ I1), (c80_stored _ _ _ _ H E _ _ I2), (given_absent _ _ _ N1), (given_absent _ _ _ N2). reflexivity.
Qed.
Lemma c81_optax_default hier k kw attrs rest : In (hier, k) user_classes -> construct hier k kw = Ok attrs ->
  (forall d, given kw "optimizer_name" d = PStr ("optax" ++ rest)) -> (forall v, ~ In ("optimizer_kwargs", v) kw) ->
  (forall a, In "step_size" (map fst a) -> cosine_decay_schedule a = Err TypeError) ->
  forall key steps samples warmup chains m, infer_with "map" key steps samples warmup chains attrs m = Err TypeError.
Proof.
  intros H E N1 N2 HC key steps samples warmup chains m. destruct (opt_params _ _ H) as [I1 I2]. unfold Estimator.infer_with. cbn [String.eqb Ascii.eqb Bool.eqb].
  assert (O : optimizer attrs = Err TypeError).
  { unfold Estimator.optimizer, attribute. rewrite (c80_stored _ _ _ _ H E _ _ I1), (c80_stored _ _ _ _ H E _ _ I2), N1, (given_absent _ _ _ N2). cbn [bind].
    replace (String.prefix "optax" ("optax" ++ rest)) with true by (symmetry; apply prefix_app; eauto). rewrite HC by (cbn; auto). reflexivity. }
  change (String.eqb "map" "map") with true. cbv iota. rewrite O. reflexivity.
Qed.
End Optimizers.

(** acceptable values *)
Ltac accept := split; [|split];
  [ intros n d I Q; repeat (destruct Q as [<-|Q]; [repeat (destruct I as [I|I]; [first [discriminate I | injection I as <-; cbn; eexists; split; [reflexivity|left; cbn; lra]]|]); destruct I|]); destruct Q
  | intros d I; repeat (destruct I as [I|I]; [first [discriminate I | injection I as <-; cbn; first [right; eexists; reflexivity | left; eexists; split; [reflexivity|cbn; tauto]]]|]); destruct I
  | intros d I; repeat (destruct I as [I|I]; [first [discriminate I | injection I as <-; cbn; eexists; split; [reflexivity|cbn; tauto]]|]); destruct I ].
Lemma test_params_known hier k kw : In (hier, k) user_classes -> In kw test_params -> known_keywords k kw.
Proof.
  intros H T n v I. apply str_in_iff. apply (in_map fst) in I. cbn [fst] in I. revert n I. 
  destruct H as [E|[E|[E|[E|[E|[]]]]]]; injection E as <- <-; destruct T as [<-|[<-|[]]]; intros n I; repeat (destruct I as [<-|I]; [reflexivity|]); destruct I.
Qed.
Lemma test_params_acceptable hier k kw : In (hier, k) user_classes -> In kw test_params -> acceptable k kw.
Proof. intros H T. destruct H as [E|[E|[E|[E|[E|[]]]]]]; injection E as <- <-; destruct T as [<-|[<-|[]]]; accept. Qed.

Definition ex_kwargs : list (string * pyval) := [("noise_scale", num (1 / 2)); ("trend", PEffect 7); ("exogenous_effects", PObj 3)].
Lemma ex_kwargs_ok hier k : In (hier, k) user_classes -> known_keywords k ex_kwargs /\ acceptable k ex_kwargs.
Proof.
  intros H. split.
  - intros n v I. apply str_in_iff. apply (in_map fst) in I. cbn [fst] in I. revert n I.
    destruct H as [E|[E|[E|[E|[E|[]]]]]]; injection E as <- <-; intros n I; repeat (destruct I as [<-|I]; [reflexivity|]); destruct I.
  - destruct H as [E|[E|[E|[E|[E|[]]]]]]; injection E as <- <-; accept.
Qed.
Definition optax_kwargs : list (string * pyval) := [("optimizer_name", PStr "optax_cosine")].
Lemma optax_example : exists attrs, construct false prophetverse optax_kwargs = Ok attrs /\
  dict_get attrs "optimizer_name" = Some (PStr ("optax" ++ "_cosine")) /\ dict_get attrs "optimizer_kwargs" = Some PNone.
Proof.
  assert (U : In (false, prophetverse) user_classes) by (cbn; tauto).
  destruct (proj2 (c80_accepts false prophetverse optax_kwargs U ltac:(intros n v [[= <- <-]|[]]; cbn; tauto))) as [attrs E]; [accept|].
  exists attrs. split; [exact E|]. destruct (opt_params _ _ U) as [I1 I2]. rewrite (c80_stored _ _ _ _ U E _ _ I1), (c80_stored _ _ _ _ U E _ _ I2). split; reflexivity.
Qed.
