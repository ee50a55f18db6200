(** The documented observation model (docs/the-theory.md:57-80 and 245-253). *)
From Coq Require Import Reals ZArith String Bool List Permutation.
From Verif.Model Require Import Base Num Frame Arr Prog.
From Verif.Spec Require Import FrameSpec ProgSpec OverlapSpec ResponseSpec.
Import ListNotations.
Local Open Scope string_scope.

(** entry [k] of what a run recorded as trend and as effects [names]: their sum is [s] *)
Definition level (tr : trace) (names : list string) (k : nat) (s : R) : Prop :=
  exists vs, Forall2 (fun n v => exists w, dict_get tr n = Some (SDet w) /\ nth_error (a_flat w) k = Some v) ("trend" :: names) vs /\ s = Rsum vs.

(** the map to positive numbers of the documentation, with its threshold 1e-5 (in the documentation the first case reads
    "k > 10^5", where the threshold must be meant) *)
Definition documented_link (k : R) : R := if Rle_dec k (1 / 100000) then (1 / 100000 * exp (k - 1 / 100000))%R else k.
(** the code never goes below 1e-10 *)
Definition link (k : R) : R := Rmax (1 / 10000000000) (documented_link k).

(** entry [k] of the distribution [d] of the observations is the named likelihood around [s], with noise [sigma]; [u] is the
    scale of the target, which counts keep *)
Definition law (likelihood : string) (u sigma : R) (d : distr) (k : nat) (s : R) : Prop :=
  (likelihood = "normal" /\ exists loc sd, d = DNormal loc sd /\ nth_error (a_flat loc) k = Some s /\ nth_error (a_flat sd) k = Some sigma) \/
  (likelihood = "gamma" /\ exists a b x r, d = DGamma a b /\ nth_error (a_flat a) k = Some x /\ nth_error (a_flat b) k = Some r /\
     ((0 < sigma)%R -> gamma_mean x r = link s /\ gamma_var x r = (sigma * sigma)%R)) \/
  (likelihood = "negbinomial" /\ exists a b x r, d = DNegBinomial2 a b /\ nth_error (a_flat a) k = Some x /\ nth_error (a_flat b) k = Some r /\
     nb2_mean x r = (u * link s)%R /\ nb2_var x r = (u * link s + u * link s * (u * link s) / (sigma * u))%R).

(** the noise parameter of one series, with its prior *)
Definition noise_parameter (e : env) (tr : trace) (site : string) (hyper : R) : Prop :=
  dict_get tr site = Some (SSample (DHalfNormal (scalar hyper)) (scalar (e site 0%nat)) false).

(** the noise parameters of [n] series: a standard deviation for each, and a correlation matrix *)
Definition noise_parameters (e : env) (tr : trace) (n : nat) (hyper concentration : R) : Prop :=
  dict_get tr "std_observation" = Some (SSample (DHalfNormal (const_arr [n] hyper)) (mkArr [n] (map (e "std_observation") (seq 0 n))) false) /\
  dict_get tr "corr_matrix" = Some (SSample (DLKJCholesky n concentration) (mkArr [n; n] (map (e "corr_matrix") (seq 0 (n * n)))) false).

(** at the date [j] of [t] dates the [n] series have a joint normal distribution: series [i] has mean [s i], and the scale
    factor is [std_i * L_ik * std_k] with the recorded matrix [L] *)
Definition joint_law (e : env) (d : distr) (n t : nat) (s : nat -> nat -> R) : Prop :=
  exists loc tril, d = DMvNormal loc tril /\ a_shape loc = [t; n] /\ arr_wf loc /\ a_shape tril = [t; n; n] /\ arr_wf tril /\
    (forall i j, i < n -> j < t -> nth_error (a_flat loc) (j * n + i) = Some (s i j)) /\
    forall j i k, j < t -> i < n -> k < n ->
      nth_error (a_flat tril) ((j * n + i) * n + k) = Some (e "std_observation" i * e "corr_matrix" (i * n + k)%nat * e "std_observation" k)%R.

(** the labels of [y] are all pairs of the series [ids] and the dates [ts], which are in order *)
Definition crossing (ids : list path) (ts : list Z) : list (path * Z) := flat_map (fun p => map (fun t => (p, t)) ts) ids.
Definition rectangle (y : frame R) (ids : list path) (ts : list Z) : Prop :=
  NoDup ids /\ in_order ts /\ sorted_labels (crossing ids ts) /\ Permutation (labels y) (crossing ids ts).
