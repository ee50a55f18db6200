(** Property C85, continued: trends, broadcasting, stacked posterior samples and component tables. *)
From Coq Require Import Reals String Bool ZArith List.
From Verif.Model Require Import Base Num XFloat Arr Frame Expand Aggregate Scale Predict Prog Likelihood Trend Engine Params.
From Verif.Facts Require Import RaiseMore.
Import ListNotations.
Local Open Scope string_scope.

(** base.py:1026-1066: exactly the unknown names, and values that are neither names nor effects *)
Theorem C85_build_trend : forall h e, build_trend h = Err e <->
  e = ValueError /\ h_trend h <> TVEffect /\ forall s, h_trend h = TVName s -> s <> "linear" /\ s <> "linear_raw" /\ s <> "logistic" /\ s <> "flat".
Proof. exact raise_build_trend. Qed.

(** numpy broadcasting: neither equal lengths nor a length of one *)
Theorem C85_broadcast : forall (a b : list R) e, broadcast2 a b = Err e <->
  e = TypeError /\ List.length a <> List.length b /\ List.length a <> 1%nat /\ List.length b <> 1%nat.
Proof. exact raise_broadcast. Qed.

(** [len] of an array without axes *)
Theorem C85_len : forall a e, len a = Err e <-> e = TypeError /\ a_shape a = [].
Proof. exact raise_len. Qed.

(** one site of several samples: a sample without the site (KeyError), or arrays of different shapes (TypeError) *)
Theorem C85_stack_site : forall ds ka e, stack_site ds ka = Err e <->
  (e = KeyError /\ exists d, In d ds /\ dict_get d (fst ka) = None) \/
  (e = TypeError /\ (forall d, In d ds -> dict_get d (fst ka) <> None) /\
     exists d v, In d ds /\ dict_get d (fst ka) = Some v /\ a_shape v <> a_shape (snd ka)).
Proof. exact raise_stack_site. Qed.
(** all sites: no samples at all, or the error of the first site that fails *)
Theorem C85_stack : forall ds e, stack ds = Err e <-> (ds = [] /\ e = ValueError) \/
  exists d tl l1 ka l2 vs, ds = d :: tl /\ d = (l1 ++ ka :: l2)%list /\ mapM (stack_site ds) l1 = Ok vs /\ stack_site ds ka = Err e.
Proof. exact raise_stack. Qed.

(** base.py:324: the mean over the samples of a component without a sample axis *)
Theorem C85_mean : forall a e, mean0 a = Err e <-> e = ValueError /\ a_shape a = [].
Proof. exact raise_mean. Qed.

(** base.py:319-330: a component with another number of values than the table has rows *)
Theorem C85_all_sites : forall lb times draws index name a n sh, periodindex_to_multiindex lb times = Ok index ->
  (forall k v, In (k, v) draws -> a_shape v <> []) -> In (name, a) draws -> a_shape a = n :: sh -> prod_shape sh <> List.length index ->
  predict_all_sites lb times draws = Err ValueError.
Proof. exact raise_all_sites. Qed.

Print Assumptions C85_build_trend.
Print Assumptions C85_broadcast.
Print Assumptions C85_len.
Print Assumptions C85_stack_site.
Print Assumptions C85_stack.
Print Assumptions C85_mean.
Print Assumptions C85_all_sites.

Example C85_stack_nonvacuous :
  stack [[("a", mkArr [1] [1]%R)]; [("b", mkArr [1] [1]%R)]] = Err KeyError /\
  stack [[("a", mkArr [1] [1]%R)]; [("a", mkArr [2] [1; 2]%R)]] = Err TypeError /\ stack [] = Err ValueError /\
  stack [[("a", mkArr [1] [1]%R)]; [("a", mkArr [1] [2]%R)]] = Ok [("a", mkArr [2; 1] [1; 2]%R)] /\
  broadcast2 [1; 2]%R [1; 2; 3]%R = Err TypeError /\ broadcast2 [1]%R [2; 3]%R = Ok [(1, 2); (1, 3)]%R /\ len (scalar 1) = Err TypeError.
Proof. repeat split. Qed.
Example C85_mean_nonvacuous : mean0 (scalar 1) = Err ValueError /\ exists b, mean0 (mkArr [2; 1] [1; 3]%R) = Ok b.
Proof. split; [reflexivity|]. eexists. reflexivity. Qed.
(** one label, but two values in the mean of the component *)
Example C85_all_sites_nonvacuous : exists lb index, periodindex_to_multiindex lb [0%Z] = Ok index /\ List.length index = 1%nat /\
  predict_all_sites lb [0%Z] [("obs", mkArr [1; 2] [1; 2]%R)] = Err ValueError.
Proof. exists (mkLab 0 [([], 0%Z)] false (SFloat 1) false). eexists. split; [reflexivity|]. split; reflexivity. Qed.
Example C85_build_trend_nonvacuous : exists h, build_trend h = Err ValueError /\ h_trend h = TVName "cubic".
Proof. exists (mkHyper (XF 1) (XF 1) (XF 1) (XF 1) (XF 1) (TVName "cubic") (XF 1) "normal" (XF 1)). split; reflexivity. Qed.
