(** Concrete forecasters sharing objects. *)
From Coq Require Import Reals String Bool ZArith List Lra.
From Verif.Model Require Import Base Num XFloat Regex Frame Arr Expand Aggregate Scale Predict Prog Likelihood Trend Effect
  TrendProg Engine Forecaster History Shared.
From Verif.Spec Require Import FrameSpec ForecasterSpec HistorySpec SharedSpec.
From Verif.Facts Require Import NumFacts EffectExamples ForecasterExamples EngineExamples HistoryExamples.
Import ListNotations.
Local Open Scope string_scope.

(** * Effects: the same object listed twice, with different columns *)
Definition one_linear : effect_heap := [Linear Additive (DUser 0) base_init].
Definition listed_twice : list listed_ref := [("a", 0, Some "tv"); ("b", 0, Some "web")].
Definition cols_of_cells (h : effect_heap) : list (option (list string)) := map (fun e => b_cols (get_base e)) h.
Lemma ex_heap : let '(h', r) := fit_effects_ref sorted_sets one_linear None listed_twice (Some Xu) 1 in
  cols_of_cells h' = [Some []; Some ["tv"]; Some ["web"]] /\ r = Ok [("a", 1, ["tv"]); ("b", 2, ["web"])].
Proof. vm_compute. auto. Qed.

(** * Two univariate forecasters of counts *)
Definition count_config (t : trend_arg) : config :=
  mkConfig false t 25 (4 / 5) (1 / 1000) (1 / 10) (1 / 5) (11 / 10) (Some []) None (1 / 20) "negbinomial" (Some (SInt 1)) None 1
    "mcmc" None 10 0 3 5 2.
Definition obj_config := count_config TrendObject.
Definition name_config := count_config (TrendName "flat").
Definition X_one (c : string) : frame R := mkFrame 0 [c] [mkRow [] 0 [1]; mkRow [] 1 [2]; mkRow [] 7 [3]; mkRow [] 8 [4]]%R.
Definition X_tv := X_one "tv".
Definition X_web := X_one "web".

(** a transformer that accepts only the columns it was fitted on *)
Definition memo_transform (s : option (list string)) (X : frame R) : res (frame R) :=
  match s with None => Err ValueError | Some cs => if path_eqb cs (f_cols X) then Ok X else Err ValueError end.
Definition memo_world_step := world_step ex_ns sorted_sets keep_all memo_fit memo_transform ex_svi ex_nuts ex_latent ex_guide ex_complete.
Definition memo_world_calls := world_calls ex_ns sorted_sets keep_all memo_fit memo_transform ex_svi ex_nuts ex_latent ex_guide ex_complete.
Definition memo_step := step ex_ns sorted_sets keep_all memo_fit memo_transform ex_svi ex_nuts ex_latent ex_guide ex_complete.
Definition memo_calls := calls ex_ns sorted_sets keep_all memo_fit memo_transform ex_svi ex_nuts ex_latent ex_guide ex_complete.

Definition new_member (c : config) (t tr : option nat) : member (P := unit) :=
  mkMember c t tr (TFlat 1 base_init None) (mkFrame 0 [] []) None None.
(** [members]: the forecasters' addresses of trend object and transformer *)
Definition new_world (c : config) (t tr : nat -> option nat) : world (TS := option (list string)) (P := unit) :=
  mkWorld (fun _ => TFlat 1 base_init None) (fun _ => None) (fun i => new_member c (t i) (tr i)).

(** all share the trend object 0 and have no transformer *)
Definition shared_trend := new_world obj_config (fun _ => Some 0) (fun _ => None).
(** all make their own trend and share the transformer 0 *)
Definition shared_transformer := new_world name_config (fun _ => None) (fun _ => Some 0).
(** each has its own objects *)
Definition separate := new_world obj_config (fun i => Some i) (fun i => Some i).

Definition two_fits : list (nat * call) := [(0, Fit ex_y (Some X_tv)); (1, Fit ex_y (Some X_web))].
Definition then_predict : call := Predict Samples (Some X_tv) (Absolute [8%Z]).
Definition ok_of {A} (r : res A) : bool := match r with Ok _ => true | Err _ => false end.
Definition err_of {A} (r : res A) : option exn := match r with Ok _ => None | Err e => Some e end.

Lemma ex_trend_shared : err_of (snd (memo_world_step (memo_world_calls shared_trend two_fits) 0 then_predict)) = Some KeyError.
Proof. vm_compute. reflexivity. Qed.
Lemma ex_trend_alone : ok_of (snd (memo_step obj_config (memo_calls obj_config (view shared_trend (w_members shared_trend 0)) (calls_to 0 two_fits)) then_predict)) = true.
Proof. vm_compute. reflexivity. Qed.
Lemma ex_transformer_shared : err_of (snd (memo_world_step (memo_world_calls shared_transformer two_fits) 0 then_predict)) = Some ValueError.
Proof. vm_compute. reflexivity. Qed.
Lemma ex_transformer_alone : ok_of (snd (memo_step name_config (memo_calls name_config (view shared_transformer (w_members shared_transformer 0)) (calls_to 0 two_fits)) then_predict)) = true.
Proof. vm_compute. reflexivity. Qed.

Lemma ex_separate_alone : alone separate 0.
Proof. intros j Hj. cbn. split; intros a E; injection E as <-; congruence. Qed.
Lemma ex_separate : ok_of (snd (memo_world_step (memo_world_calls separate two_fits) 0 then_predict)) = true.
Proof. vm_compute. reflexivity. Qed.
(** the object given as trend is fitted in place *)
Definition is_fitted (t : trend) : option bool := match t with TFlat _ b _ | TPiecewise _ _ b _ => b_fitted b | TEffect _ => None end.
Lemma ex_trend_changed : w_trends (fst (memo_world_step separate 0 (Fit ex_y (Some X_tv)))) 0 <> w_trends separate 0.
Proof.
  intros H. apply (f_equal is_fitted) in H.
  assert (E : is_fitted (w_trends (fst (memo_world_step separate 0 (Fit ex_y (Some X_tv)))) 0) = Some true) by (vm_compute; reflexivity).
  assert (F : is_fitted (w_trends separate 0) = Some false) by reflexivity. rewrite E, F in H. discriminate.
Qed.
