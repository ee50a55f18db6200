(** Properties C04, C36, C37, C46-C49, C71: the numpyro model functions. *)
From Coq Require Import Reals String Bool List Permutation.
From Verif.Model Require Import Base Num Arr Prog Likelihood Frame Scale.
From Verif.Spec Require Import ProgSpec.
From Verif.Facts Require Import MeanFacts LikelihoodFacts ModelProps ScaleFacts PanelExamples.
Import ListNotations.
Local Open Scope string_scope.

(** * C04 count likelihoods work in original units: the target is neither scaled nor scaled back,
    and the mean of the observations is the stored scale times the positive part of trend plus
    effects (whose decomposition is [additive_mean]). *)
Theorem C04_target_unscaled : forall s y, scale_y true s y = Ok y /\ inv_scale_y true s y = Ok y.
Proof. intros s y. exact (conj eq_refl eq_refl). Qed.
Print Assumptions C04_target_unscaled.

Theorem C04_negbinomial_mean : forall D e (trend : prog arr) (data : dict D) effs,
  NoDup (map fst effs) -> ~ In "trend" (map fst effs) ->
  forall y ns scale tr o tr', run e tr (univariate_negbinomial_model y trend (Some data) (Some effs) ns scale) = Ok (o, tr') ->
  exists t vs m mu c, additive_mean e trend data effs t vs m /\ obs_distr tr' (DNegBinomial2 mu c) /\
    forall k, k < List.length (a_flat m) ->
      nb2_mean (entry mu k) (entry c k) = (scale * to_positive1 (/ 100000) (/ 10000000000) (entry m k))%R.
Proof. intros D e trend data effs. exact (c36_negbinomial e trend data effs). Qed.
Print Assumptions C04_negbinomial_mean.

Example C04_nonvacuous : exists o tr,
  run ex_env [] (univariate_negbinomial_model None ex_trend (Some ex_data) (Some ex_effs) (1 / 2) 10) = Ok (o, tr).
Proof. exact ex_negbinomial_runs. Qed.

(** * C36 the mean is trend plus effects *)
Theorem C36_normal : forall D e (trend : prog arr) (data : dict D) effs,
  NoDup (map fst effs) -> ~ In "trend" (map fst effs) ->
  forall y ns tr o tr', run e tr (univariate_model y trend (Some data) (Some effs) ns) = Ok (o, tr') ->
  exists t vs m s, additive_mean e trend data effs t vs m /\ obs_distr tr' (DNormal (reshape_col m) s).
Proof. intros D e trend data effs. exact (c36_normal e trend data effs). Qed.
Print Assumptions C36_normal.

Theorem C36_gamma : forall D e (trend : prog arr) (data : dict D) effs,
  NoDup (map fst effs) -> ~ In "trend" (map fst effs) ->
  forall y ns tr o tr', run e tr (univariate_gamma_model y trend (Some data) (Some effs) ns) = Ok (o, tr') ->
  (0 < e "noise_scale" 0%nat)%R ->
  exists t vs m c r, additive_mean e trend data effs t vs m /\ obs_distr tr' (DGamma c r) /\
    forall k, k < List.length (a_flat m) ->
      gamma_mean (entry c k) (entry r k) = to_positive1 (/ 100000) (/ 10000000000) (entry m k) /\
      gamma_var (entry c k) (entry r k) = (e "noise_scale" 0%nat * e "noise_scale" 0%nat)%R.
Proof. intros D e trend data effs. exact (c36_gamma e trend data effs). Qed.
Print Assumptions C36_gamma.

Theorem C36_hierarchical : forall D e (trend : prog arr) (data : dict D) effs,
  NoDup (map fst effs) -> ~ In "trend" (map fst effs) ->
  forall y ns conc tr o tr', run e tr (multivariate_model y trend (Some data) (Some effs) ns conc false) = Ok (o, tr') ->
  exists t vs m, additive_mean e trend data effs t vs m /\
    forall n T, a_shape m = [n; T; 1] -> exists loc tril, obs_distr tr' (DMvNormal loc tril) /\ a_shape loc = [T; n] /\
      forall i j, i < n -> j < T -> aget loc [j; i] = aget m [i; j; 0].
Proof. intros D e trend data effs. exact (c36_multivariate e trend data effs). Qed.
Print Assumptions C36_hierarchical.

Theorem C36_hierarchical_single_series : forall D e (trend : prog arr) (data : dict D) effs,
  NoDup (map fst effs) -> ~ In "trend" (map fst effs) ->
  forall y ns conc tr o tr', run e tr (multivariate_model y trend (Some data) (Some effs) ns conc true) = Ok (o, tr') ->
  exists t vs m s, additive_mean e trend data effs t vs m /\ obs_distr tr' (DNormal (reshape_col m) s).
Proof. intros D e trend data effs. exact (single_obs e trend data effs). Qed.
Print Assumptions C36_hierarchical_single_series.

(** without effects the mean is the trend *)
Theorem C36_no_effects : forall D e tr (trend : prog arr) data m tr',
  run e tr (compute_mean (D := D) trend data None) = Ok (m, tr') -> yields e trend m.
Proof. intros D. exact (@c36_no_effects D). Qed.
Print Assumptions C36_no_effects.

(** the recorded components add up to the mean, for any continuation [f] (any likelihood) *)
Theorem C36_recorded_components : forall D B e (trend : prog arr) (data : dict D) effs (f : arr -> prog B) o tr,
  run e [] (pbind (compute_mean trend (Some data) (Some effs)) f) = Ok (o, tr) ->
  NoDup (actions e (pbind (compute_mean trend (Some data) (Some effs)) f)) ->
  NoDup (map fst effs) -> ~ In "trend" (map fst effs) ->
  exists t vs m, additive_mean e trend data effs t vs m /\ yields e (f m) o /\ dict_get tr "trend" = Some (SDet t) /\
    forall i name eff v, nth_error effs i = Some (name, eff) -> nth_error vs i = Some v -> dict_get tr name = Some (SDet v).
Proof. intros D B. exact (@c36_components D B). Qed.
Print Assumptions C36_recorded_components.

Example C36_nonvacuous : exists o tr,
  run ex_env [] (univariate_model None ex_trend (Some ex_data) (Some ex_effs) (1 / 2)) = Ok (o, tr) /\
  map fst tr = ["offset"; "trend"; "promo/coefs"; "promo"; "price/coefs"; "price"; "noise_scale"; "data"; "obs"] /\
  exists s, obs_distr tr (DNormal (mkArr [2; 1] [2 + 2 * 1 + 2 * (2 * 5); 2 + 1 + 2 * 3 + (2 + 1) * (2 * 7)]%R) s).
Proof. exact ex_runs. Qed.

(** * C37 permuting effects which only look at the trend changes neither the success of the model,
    nor any site: value, distribution, location.  Hence the joint density is the same. *)
Theorem C37_normal : forall D e (trend : prog arr) (data : dict D) effs effs' y ns o tr,
  Permutation effs effs' -> NoDup (map fst effs) -> (forall n, In n (map fst effs) -> no_slash n = true /\ n <> "trend") ->
  (forall ne, In ne effs -> trend_only (snd ne)) ->
  run e [] (univariate_model y trend (Some data) (Some effs) ns) = Ok (o, tr) ->
  exists tr', run e [] (univariate_model y trend (Some data) (Some effs') ns) = Ok (o, tr') /\ Permutation tr tr'.
Proof. intros D. exact (@c37_normal D). Qed.
Print Assumptions C37_normal.

Theorem C37_gamma : forall D e (trend : prog arr) (data : dict D) effs effs' y ns o tr,
  Permutation effs effs' -> NoDup (map fst effs) -> (forall n, In n (map fst effs) -> no_slash n = true /\ n <> "trend") ->
  (forall ne, In ne effs -> trend_only (snd ne)) ->
  run e [] (univariate_gamma_model y trend (Some data) (Some effs) ns) = Ok (o, tr) ->
  exists tr', run e [] (univariate_gamma_model y trend (Some data) (Some effs') ns) = Ok (o, tr') /\ Permutation tr tr'.
Proof. intros D. exact (@c37_gamma D). Qed.
Print Assumptions C37_gamma.

Theorem C37_negbinomial : forall D e (trend : prog arr) (data : dict D) effs effs' y ns s o tr,
  Permutation effs effs' -> NoDup (map fst effs) -> (forall n, In n (map fst effs) -> no_slash n = true /\ n <> "trend") ->
  (forall ne, In ne effs -> trend_only (snd ne)) ->
  run e [] (univariate_negbinomial_model y trend (Some data) (Some effs) ns s) = Ok (o, tr) ->
  exists tr', run e [] (univariate_negbinomial_model y trend (Some data) (Some effs') ns s) = Ok (o, tr') /\ Permutation tr tr'.
Proof. intros D. exact (@c37_negbinomial D). Qed.
Print Assumptions C37_negbinomial.

Theorem C37_hierarchical : forall D e (trend : prog arr) (data : dict D) effs effs' y ns c b o tr,
  Permutation effs effs' -> NoDup (map fst effs) -> (forall n, In n (map fst effs) -> no_slash n = true /\ n <> "trend") ->
  (forall ne, In ne effs -> trend_only (snd ne)) ->
  run e [] (multivariate_model y trend (Some data) (Some effs) ns c b) = Ok (o, tr) ->
  exists tr', run e [] (multivariate_model y trend (Some data) (Some effs') ns c b) = Ok (o, tr') /\ Permutation tr tr'.
Proof. intros D. exact (@c37_multivariate D). Qed.
Print Assumptions C37_hierarchical.

Theorem C37_same_density : forall logpdf tr tr', Permutation tr tr' -> log_joint logpdf tr = log_joint logpdf tr'.
Proof. exact log_joint_perm. Qed.
Print Assumptions C37_same_density.

Example C37_nonvacuous : (forall ne, In ne ex_effs -> trend_only (snd ne)) /\ Permutation ex_effs (rev ex_effs) /\ ex_effs <> rev ex_effs.
Proof. split; [exact ex_trend_only|]. split; [apply Permutation_rev|discriminate]. Qed.

(** the condition on slashes is needed: one order runs (and loses the parameter of "x"), the other fails *)
Example C37_slash_needed :
  (exists o tr, run ex_env [] (univariate_model None ex_trend (Some slash_data) (Some slash_effs) (1 / 2)) = Ok (o, tr) /\
     exists v, dict_get tr "x/coefs" = Some (SDet v)) /\
  run ex_env [] (univariate_model None ex_trend (Some slash_data) (Some (rev slash_effs)) (1 / 2)) = Err AssertionError.
Proof. exact slash_order. Qed.

(** * C46 positive locations *)
Theorem C46_bounded_below : forall x, (/ 10000000000 <= to_positive1 (/ 100000) (/ 10000000000) x)%R.
Proof. exact to_positive1_bound. Qed.
Print Assumptions C46_bounded_below.

Theorem C46_identity : forall x, (/ 100000 <= x)%R -> to_positive1 (/ 100000) (/ 10000000000) x = x.
Proof. exact to_positive1_id. Qed.
Print Assumptions C46_identity.

(** non-decreasing and continuous (with Lipschitz constant one) *)
Theorem C46_monotone_continuous : forall x y, (x <= y)%R ->
  (0 <= to_positive1 (/ 100000) (/ 10000000000) y - to_positive1 (/ 100000) (/ 10000000000) x <= y - x)%R.
Proof. exact to_positive1_lip. Qed.
Print Assumptions C46_monotone_continuous.

(** the location of the gamma model, through the whole model *)
Theorem C46_model_location : forall D e (trend : prog arr) (data : dict D) effs,
  NoDup (map fst effs) -> ~ In "trend" (map fst effs) ->
  forall y ns tr o tr', run e tr (univariate_gamma_model y trend (Some data) (Some effs) ns) = Ok (o, tr') ->
  (0 < e "noise_scale" 0%nat)%R ->
  exists t vs m c r, additive_mean e trend data effs t vs m /\ obs_distr tr' (DGamma c r) /\
    forall k, k < List.length (a_flat m) ->
      gamma_mean (entry c k) (entry r k) = to_positive1 (/ 100000) (/ 10000000000) (entry m k) /\
      gamma_var (entry c k) (entry r k) = (e "noise_scale" 0%nat * e "noise_scale" 0%nat)%R.
Proof. intros D e trend data effs. exact (c36_gamma e trend data effs). Qed.
Print Assumptions C46_model_location.

Example C46_nonvacuous : exists o tr,
  run ex_env [] (univariate_gamma_model None ex_trend (Some ex_data) (Some ex_effs) (1 / 2)) = Ok (o, tr).
Proof. exact ex_gamma_runs. Qed.

(** * C47 gamma by mean and standard deviation *)
Theorem C47_moments : forall l s, (0 < l)%R -> (0 < s)%R ->
  (0 < gamma_concentration l s)%R /\ (0 < gamma_rate l s)%R /\
  gamma_mean (gamma_concentration l s) (gamma_rate l s) = l /\
  gamma_var (gamma_concentration l s) (gamma_rate l s) = (s * s)%R.
Proof. exact gamma_moments. Qed.
Print Assumptions C47_moments.

Theorem C47_injective : forall l s l' s', (0 < l)%R -> (0 < s)%R -> (0 < l')%R -> (0 < s')%R ->
  gamma_concentration l s = gamma_concentration l' s' -> gamma_rate l s = gamma_rate l' s' -> l = l' /\ s = s'.
Proof. exact gamma_injective. Qed.
Print Assumptions C47_injective.

Example C47_nonvacuous : (0 < 3)%R /\ (0 < / 2)%R.
Proof. split; [now apply IZR_lt|]. apply Rinv_0_lt_compat. now apply IZR_lt. Qed.

(** * C48 valid observation distributions, one per time point *)
Theorem C48_normal : forall D e (trend : prog arr) (data : option (dict D)) effs y ns tr o tr',
  run e tr (univariate_model y trend data effs ns) = Ok (o, tr') -> (0 < e "noise_scale" 0%nat)%R ->
  exists m tr1 d, run e tr (compute_mean trend data effs) = Ok (m, tr1) /\ obs_distr tr' d /\ valid_distr d /\
    batch_shape d = [List.length (a_flat m); 1].
Proof. intros D. exact (@c48_normal D). Qed.
Print Assumptions C48_normal.

Theorem C48_gamma : forall D e (trend : prog arr) (data : option (dict D)) effs y ns tr o tr',
  run e tr (univariate_gamma_model y trend data effs ns) = Ok (o, tr') -> (0 < e "noise_scale" 0%nat)%R ->
  exists m tr1 d, run e tr (compute_mean trend data effs) = Ok (m, tr1) /\ obs_distr tr' d /\ valid_distr d /\
    batch_shape d = [List.length (a_flat m); 1].
Proof. intros D. exact (@c48_gamma D). Qed.
Print Assumptions C48_gamma.

Theorem C48_negbinomial : forall D e (trend : prog arr) (data : option (dict D)) effs y ns s tr o tr',
  run e tr (univariate_negbinomial_model y trend data effs ns s) = Ok (o, tr') -> (0 < e "noise_scale" 0%nat)%R -> (0 < s)%R ->
  exists m tr1 d, run e tr (compute_mean trend data effs) = Ok (m, tr1) /\ obs_distr tr' d /\ valid_distr d /\
    batch_shape d = [List.length (a_flat m); 1].
Proof. intros D. exact (@c48_negbinomial D). Qed.
Print Assumptions C48_negbinomial.

(** once the mean is computed (and its sites have other names) none of the likelihoods fails *)
Theorem C48_never_fails : forall D e (trend : prog arr) (data : option (dict D)) effs m tr tr1 n rest,
  run e tr (compute_mean trend data effs) = Ok (m, tr1) -> a_shape m = n :: rest ->
  ~ In "noise_scale" (map fst tr1) -> ~ In "obs" (map fst tr1) ->
  (forall y ns, exists o tr', run e tr (univariate_model y trend data effs ns) = Ok (o, tr')) /\
  (forall y ns, exists o tr', run e tr (univariate_gamma_model y trend data effs ns) = Ok (o, tr')) /\
  (forall y ns s, exists o tr', run e tr (univariate_negbinomial_model y trend data effs ns s) = Ok (o, tr')).
Proof. intros D. exact (@c48_total D). Qed.
Print Assumptions C48_never_fails.

Example C48_nonvacuous : (0 < ex_env "noise_scale" 0%nat)%R /\ exists o tr,
  run ex_env [] (univariate_gamma_model None ex_trend (Some ex_data) (Some ex_effs) (1 / 2)) = Ok (o, tr).
Proof. split; [exact Rlt_0_1|exact ex_gamma_runs]. Qed.

(** * C49.  Full statement: the noise covariance is D L L' D (D the sampled standard deviations, L
    the sampled Cholesky factor).  False: the code passes D L D as [scale_tril], so the covariance
    is D L D D L' D.  In particular the standard deviations are not the sampled ones. *)
Theorem C49_standard_deviation_refuted : exists o tr loc tril,
  run c49_env [] (multivariate_model (D := arr) None two_trend None None (1 / 2) 1 false) = Ok (o, tr) /\
  obs_distr tr (DMvNormal loc tril) /\
  (forall i, i < 2 -> (0 < c49_env "std_observation" i)%R) /\
  (forall i, i < 2 -> Rsum (map (fun k => (c49_env "corr_matrix" (i * 2 + k)%nat * c49_env "corr_matrix" (i * 2 + k)%nat)%R) (seq 0 2)) = 1%R) /\
  mvn_cov (fun i k => aget tril [0; i; k]) 2 0 0 <> (c49_env "std_observation" 0%nat * c49_env "std_observation" 0%nat)%R.
Proof. exact c49_counterexample. Qed.
Print Assumptions C49_standard_deviation_refuted.

(** what the covariance really is, and when it is the intended one *)
Theorem C49_actual_covariance_partial : forall D e (trend : prog arr) (data : option (dict D)) effs y ns conc tr o tr',
  run e tr (multivariate_model y trend data effs ns conc false) = Ok (o, tr') ->
  exists m tr1, run e tr (compute_mean trend data effs) = Ok (m, tr1) /\
  forall n t, a_shape m = [n; t; 1] -> exists loc tril, obs_distr tr' (DMvNormal loc tril) /\
  forall l i j, l < t -> i < n -> j < n ->
    mvn_cov (fun i k => aget tril [l; i; k]) n i j =
    (e "std_observation" i * e "std_observation" j *
     Rsum (map (fun k => e "corr_matrix" (i * n + k)%nat * e "corr_matrix" (j * n + k)%nat *
                         (e "std_observation" k * e "std_observation" k)) (seq 0 n)))%R.
Proof. intros D. exact (@c49_formula D). Qed.
Print Assumptions C49_actual_covariance_partial.

Theorem C49_unit_deviations_partial : forall D e (trend : prog arr) (data : option (dict D)) effs y ns conc tr o tr',
  run e tr (multivariate_model y trend data effs ns conc false) = Ok (o, tr') ->
  (forall i, e "std_observation" i = 1%R) ->
  exists m tr1, run e tr (compute_mean trend data effs) = Ok (m, tr1) /\
  forall n t, a_shape m = [n; t; 1] -> exists loc tril, obs_distr tr' (DMvNormal loc tril) /\
  forall l i j, l < t -> i < n -> j < n ->
    mvn_cov (fun i k => aget tril [l; i; k]) n i j =
    (e "std_observation" i * e "std_observation" j * mvn_cov (fun i k => e "corr_matrix" (i * n + k)%nat) n i j)%R.
Proof. intros D. exact (@c49_unit D). Qed.
Print Assumptions C49_unit_deviations_partial.

(** * C71 site names *)
Theorem C71_effects_disjoint : forall A B e e' a b (p : prog A) (q : prog B) x,
  a <> b -> (forall n, In n (actions (own_env e a) p) -> no_slash n = true) ->
  (forall n, In n (actions (own_env e' b) q) -> no_slash n = true) ->
  In x (actions e (scope a p)) -> ~ In x (actions e' (scope b q)).
Proof. intros A B. exact (@c71_disjoint A B). Qed.
Print Assumptions C71_effects_disjoint.

Theorem C71_all_distinct : forall D e (trend : prog arr) (data : dict D) effs,
  clean_trend e trend -> clean_names e trend effs ->
  (forall n eff d pe, In (n, eff) effs -> NoDup (actions (own_env e n) (eff d pe))) ->
  (forall y ns o, yields e (univariate_model y trend (Some data) (Some effs) ns) o ->
     NoDup (actions e (univariate_model y trend (Some data) (Some effs) ns))) /\
  (forall y ns o, yields e (univariate_gamma_model y trend (Some data) (Some effs) ns) o ->
     NoDup (actions e (univariate_gamma_model y trend (Some data) (Some effs) ns))) /\
  (forall y ns s o, yields e (univariate_negbinomial_model y trend (Some data) (Some effs) ns s) o ->
     NoDup (actions e (univariate_negbinomial_model y trend (Some data) (Some effs) ns s))) /\
  (forall y ns c b o, yields e (multivariate_model y trend (Some data) (Some effs) ns c b) o ->
     NoDup (actions e (multivariate_model y trend (Some data) (Some effs) ns c b))).
Proof. intros D. exact (@c71_all D). Qed.
Print Assumptions C71_all_distinct.

(** distinct names: the model runs, and every site is in the trace *)
Theorem C71_distinct_names_run : forall A e (p : prog A) v, yields e p v -> NoDup (actions e p) ->
  exists tr, run e [] p = Ok (v, tr) /\ map fst tr = actions e p.
Proof. intros A. exact (@distinct_runs A). Qed.
Print Assumptions C71_distinct_names_run.

Example C71_nonvacuous : clean_trend ex_env ex_trend /\ clean_names ex_env ex_trend ex_effs /\
  (forall n eff d pe, In (n, eff) ex_effs -> NoDup (actions (own_env ex_env n) (eff d pe))).
Proof. exact ex_clean. Qed.

(** the conditions are needed: an effect called "offset" hides the parameter of the trend *)
Example C71_reserved_needed : exists o tr,
  run ex_env [] (univariate_model None ex_trend (Some [("offset", mkArr [2; 1] [1; 3]%R)]) (Some [("offset", ex_add)]) (1 / 2)) = Ok (o, tr) /\
  (exists v, dict_get tr "offset" = Some (SDet v)) /\
  forall d v b, ~ In ("offset", SSample d v b) tr.
Proof. exact offset_overwritten. Qed.
