(** Properties C80 (constructors keep their arguments), C81 (choice of the optimiser) and C82 (trace
    plots). *)
From Coq Require Import Reals String Bool ZArith List Lra.
From Verif.Model Require Import Base Num XFloat Arr Prog Engine Params Estimator.
From Verif.Spec Require Import ParamsSpec EstimatorSpec.
From Verif.Facts Require Import EstimatorFacts.
Import ListNotations.
Local Open Scope string_scope.

(** * C80 *)
(** Every parameter of the constructor is afterwards the attribute of that name, with the given value or
    the default. *)
Theorem C80_stored : forall hier k kw attrs, In (hier, k) user_classes -> construct hier k kw = Ok attrs ->
  forall p d, In (p, d) (params k) -> dict_get attrs p = Some (given kw p d).
Proof. exact c80_stored. Qed.
Print Assumptions C80_stored.

(** An unknown keyword is a TypeError. *)
Theorem C80_unknown : forall hier k kw n v, In (hier, k) user_classes -> In (n, v) kw -> ~ In n (map fst (params k)) ->
  construct hier k kw = Err TypeError.
Proof. exact c80_unknown. Qed.
Print Assumptions C80_unknown.

(** With known keywords the object is constructed exactly if the values are acceptable. *)
Theorem C80_accepts : forall hier k kw, In (hier, k) user_classes -> known_keywords k kw ->
  ((exists attrs, construct hier k kw = Ok attrs) <-> acceptable k kw).
Proof. exact c80_accepts. Qed.
Print Assumptions C80_accepts.

(** A clone has the same attributes. *)
Theorem C80_clone : forall hier k kw attrs, In (hier, k) user_classes -> construct hier k kw = Ok attrs -> clone_of hier k attrs = Ok attrs.
Proof. exact c80_clone. Qed.
Print Assumptions C80_clone.

(** [Prophet], [ProphetGamma] and [ProphetNegBinomial] are [Prophetverse] with a fixed likelihood and
    another default trend. *)
Theorem C80_legacy : forall l kw, known_keywords (legacy l) kw ->
  construct false (legacy l) kw = construct false prophetverse (("likelihood", PStr l) :: ("trend", given kw "trend" (PStr "logistic")) :: kw).
Proof. exact c80_legacy. Qed.
Print Assumptions C80_legacy.

(** The parameters for sktime's tests are accepted by all classes. *)
Theorem C80_test_params : forall hier k kw, In (hier, k) user_classes -> In kw test_params -> exists attrs, construct hier k kw = Ok attrs.
Proof. intros hier k kw H T. apply (C80_accepts hier k kw H); [exact (test_params_known _ _ _ H T)|exact (test_params_acceptable _ _ _ H T)]. Qed.
Print Assumptions C80_test_params.

(** The docstrings of the three older classes say that "linear" is the default trend (univariate.py:432,
    587, 715); it is "logistic". *)
Theorem C80_documented_trend_refuted : forall l kw attrs, In l ["normal"; "gamma"; "negbinomial"] -> construct false (legacy l) kw = Ok attrs ->
  (forall v, ~ In ("trend", v) kw) -> dict_get attrs "trend" = Some (PStr "logistic").
Proof.
  intros l kw attrs L E N. rewrite (C80_stored false (legacy l) kw attrs) with (d := PStr "logistic").
  - f_equal. apply given_absent. exact N.
  - repeat (destruct L as [<-|L]; [cbn; tauto|]). destruct L.
  - exact E.
  - cbn; tauto.
Qed.
Print Assumptions C80_documented_trend_refuted.

(** The documented parameter default_exogenous_prior (univariate.py:129, 460, 616, 744) does not exist; the
    scale of the base class (base.py:55-57) cannot be given to HierarchicalProphet. *)
Theorem C80_documented_parameters_refuted :
  (forall hier k kw v, In (hier, k) user_classes -> In ("default_exogenous_prior", v) kw -> construct hier k kw = Err TypeError) /\
  (forall kw v, In ("scale", v) kw -> construct true hierarchical_prophet kw = Err TypeError).
Proof.
  split.
  - intros hier k kw v H I. apply (C80_unknown hier k kw _ _ H I). intros F. apply BaseFacts.str_in_iff in F. repeat (destruct H as [[= <- <-]|H]; [discriminate F|]). destruct H.
  - intros kw v I. apply (C80_unknown true hierarchical_prophet kw _ _ ltac:(cbn; tauto) I). intros F. apply BaseFacts.str_in_iff in F. discriminate F.
Qed.
Print Assumptions C80_documented_parameters_refuted.

Example C80_nonvacuous : forall hier k, In (hier, k) user_classes ->
  known_keywords k ex_kwargs /\ acceptable k ex_kwargs /\ given ex_kwargs "noise_scale" (num (1 / 20)) <> num (1 / 20).
Proof. intros hier k H. destruct (ex_kwargs_ok _ _ H) as [H1 H2]. split; [exact H1|]. split; [exact H2|]. cbn. unfold num. intros [= E]. lra. Qed.

(** * C81 *)
Section Optimizers.
Variable numpyro_optim : string -> option (dict pyval -> res nat).
Variable cosine_decay_schedule : dict pyval -> res nat.
Variable adam_chain : nat -> nat.
Context {P : Type}.
Variable svi_run : Z -> nat -> nat -> prog arr -> res (list xr * P).
Variable nuts_run : Z -> nat -> nat -> nat -> prog arr -> res (nat -> nat -> env).
Variable latent_sites : prog arr -> list string.
Notation optimizer := (optimizer numpyro_optim cosine_decay_schedule adam_chain).
Notation infer_with := (infer_with numpyro_optim cosine_decay_schedule adam_chain svi_run nuts_run latent_sites).

(** A name that does not start with "optax" is looked up in numpyro.optim and called with the given
    keyword arguments (step_size=0.0001 without any). *)
Theorem C81_numpyro : forall attrs name kw, dict_get attrs "optimizer_name" = Some (PStr name) -> (forall rest, name <> "optax" ++ rest) ->
  dict_get attrs "optimizer_kwargs" = Some kw -> kw = PNone \/ (exists d, kw = PDict d) ->
  optimizer attrs = match numpyro_optim name with
                    | Some mk => mk (match kw with PDict d => d | _ => [("step_size", num (1 / 10000))] end)
                    | None => Err AttributeError
                    end.
Proof.
  intros attrs name kw HN NP HK HD. unfold Estimator.optimizer, attribute. rewrite HN, HK. cbn [bind].
  replace (String.prefix "optax" name) with false; [destruct HD as [->|[d ->]]; reflexivity|]. symmetry. apply not_true_iff_false. intros F. apply EstimatorFacts.prefix_app in F as [r F]. exact (NP r F).
Qed.

(** A forecaster constructed without choosing an optimiser uses Adam(step_size=0.0001). *)
Theorem C81_default : forall hier k kw attrs, In (hier, k) user_classes -> construct hier k kw = Ok attrs ->
  (forall v, ~ In ("optimizer_name", v) kw) -> (forall v, ~ In ("optimizer_kwargs", v) kw) ->
  optimizer attrs = match numpyro_optim "Adam" with Some mk => mk [("step_size", num (1 / 10000))] | None => Err AttributeError end.
Proof. exact (c81_default numpyro_optim cosine_decay_schedule adam_chain). Qed.

(** Every name that starts with "optax" means Adam with a cosine decay schedule, made from the keyword
    arguments. *)
Theorem C81_optax : forall attrs rest kw, dict_get attrs "optimizer_name" = Some (PStr ("optax" ++ rest)) -> dict_get attrs "optimizer_kwargs" = Some (PDict kw) ->
  optimizer attrs = (s <- cosine_decay_schedule kw ;; Ok (adam_chain s)).
Proof.
  intros attrs rest kw HN HK. unfold Estimator.optimizer, attribute. rewrite HN, HK. cbn [bind].
  replace (String.prefix "optax" ("optax" ++ rest)) with true; [reflexivity|]. symmetry. apply EstimatorFacts.prefix_app. eauto.
Qed.

(** MCMC does not make an optimiser, so a wrong name or wrong arguments do not matter. *)
Theorem C81_mcmc : forall key steps samples warmup chains attrs m,
  infer_with "mcmc" key steps samples warmup chains attrs m = infer svi_run nuts_run latent_sites (mkEngine "mcmc" key steps 0 samples warmup chains) m.
Proof. reflexivity. Qed.

(** "optax uses a cosine decay schedule" (base.py:52): not with the default keyword arguments, because a
    schedule that does not know step_size (optax's takes init_value, decay_steps, alpha and exponent)
    rejects them, in every MAP fit. *)
Theorem C81_optax_default_refuted : forall hier k kw attrs rest, In (hier, k) user_classes -> construct hier k kw = Ok attrs ->
  (forall d, given kw "optimizer_name" d = PStr ("optax" ++ rest)) -> (forall v, ~ In ("optimizer_kwargs", v) kw) ->
  (forall a, In "step_size" (map fst a) -> cosine_decay_schedule a = Err TypeError) ->
  forall key steps samples warmup chains m, infer_with "map" key steps samples warmup chains attrs m = Err TypeError.
Proof. exact (c81_optax_default numpyro_optim cosine_decay_schedule adam_chain svi_run nuts_run latent_sites). Qed.
End Optimizers.
Print Assumptions C81_numpyro.
Print Assumptions C81_default.
Print Assumptions C81_optax.
Print Assumptions C81_mcmc.
Print Assumptions C81_optax_default_refuted.

Example C81_nonvacuous : exists attrs, construct false prophetverse optax_kwargs = Ok attrs /\
  dict_get attrs "optimizer_name" = Some (PStr ("optax" ++ "_cosine")) /\ dict_get attrs "optimizer_kwargs" = Some PNone.
Proof. exact optax_example. Qed.

(** * C82 *)
(** [plot_trace] never gets to plot: the engines do not keep the sampler it asks for. *)
Theorem C82_plot_trace_refuted : forall keys_of hier mcmc names, plot_trace keys_of hier mcmc names = Err AttributeError.
Proof. intros keys_of hier mcmc names. unfold plot_trace. destruct mcmc; reflexivity. Qed.
(** and [var_names] is empty after every fit *)
Theorem C82_var_names_refuted : forall keys_of hier, var_names keys_of hier = [].
Proof. intros keys_of hier. unfold var_names. destruct hier; reflexivity. Qed.
Print Assumptions C82_plot_trace_refuted.
Print Assumptions C82_var_names_refuted.
