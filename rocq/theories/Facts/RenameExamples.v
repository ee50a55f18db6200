(** An effect with another name in a concrete forecaster. *)
From Coq Require Import Reals String Bool ZArith List.
From Verif.Model Require Import Base Num XFloat Regex Frame Arr Expand Aggregate Scale Prog Likelihood Effect Trend TrendProg Engine Predict Forecaster.
From Verif.Spec Require Import ProgSpec ForecasterSpec SiteSpec ShiftSpec RelistSpec RenameSpec.
From Verif.Facts Require Import BaseFacts EffectExamples ForecasterExamples EngineExamples RenameFacts RenameModel RenameForecaster.
Import ListNotations.
Local Open Scope string_scope.

(** "tv" and "television" exchanged *)
Definition swap (s : string) : string := if String.eqb s "tv" then "television" else if String.eqb s "television" then "tv" else s.
Lemma swap_swap s : swap (swap s) = s.
Proof.
  unfold swap. destruct (String.eqb_spec s "tv") as [->|N]; [reflexivity|]. destruct (String.eqb_spec s "television") as [->|N']; [reflexivity|]. destruct (String.eqb_spec s "tv"); [congruence|]. destruct (String.eqb_spec s "television"); [congruence|reflexivity].
Qed.
Lemma swap_renaming : renaming swap.
Proof.
  split; [|split].
  - intros a b H. rewrite <- (swap_swap a), <- (swap_swap b), H. reflexivity.
  - intros a H. unfold swap. destruct (String.eqb a "tv"); [reflexivity|]. destruct (String.eqb a "television"); [reflexivity|exact H].
  - apply Forall_forall. repeat constructor.
Qed.

Definition renamed_config : config := with_effects (run_config "mcmc") (map (rename_listed swap) (effects_of (run_config "mcmc"))).
Definition renamed_latent (m : prog arr) : list string := ["noise_scale"; "television/coefs"; "exogenous_variables_effect/coefs"].
Definition renamed_fit := fit_forecaster ex_ns sorted_sets keep_all ex_fit_transform ex_svi ex_nuts renamed_latent renamed_config (no_objects None) ex_y (Some Xu).

Lemma renamed_values (l : list env) m : (forall e, In e l -> forall n j, e n j = 1%R) -> forall k, Forall2 (same_values (site_name swap)) (map (fun se => ex_complete (snd se) 0 (fst se) m) (combine (seq k (List.length l)) l)) (map (fun se => ex_complete (snd se) 0 (fst se) (rename_sites (site_name swap) m)) (combine (seq k (List.length l)) l)).
Proof.
  intros H. induction l as [|e l IH]; intros k; cbn [List.length seq combine map]; constructor; [|apply IH; intros; apply H; [now right]]. intros n j. cbn [fst snd]. unfold ex_complete.
  pose proof (eqb_inj (site_name swap) n "obs" (sigma_inj swap swap_renaming)) as Q. rewrite (kept swap swap_renaming "obs") in Q by (cbn; tauto). rewrite Q. destruct (String.eqb n "obs"); [reflexivity|]. now rewrite !(H e (or_introl eq_refl)).
Qed.

Lemma rename_example : exists ob f f', run_fit "mcmc" (Some Xu) = (ob, Ok f) /\ renamed_fit = (ob, Ok f') /\ ft_scale f' = ft_scale f /\ ft_prepared f' = rename_prepared swap (ft_prepared f) /\
  map fe_name (p_fitted (ft_prepared f)) = ["tv"; "exogenous_variables_effect"] /\ map fe_name (p_fitted (ft_prepared f')) = ["television"; "exogenous_variables_effect"] /\
  forall m, draws_match ex_guide ex_complete (site_name swap) (engine_of (run_config "mcmc")) (ft_posterior f) (ft_posterior f') m.
Proof.
  assert (FD : forall s ys, fit_data ex_ns sorted_sets keep_all ex_fit_transform renamed_config (no_objects None) s ys (Some Xu) = rename_data swap (fit_data ex_ns sorted_sets keep_all ex_fit_transform (run_config "mcmc") (no_objects None) s ys (Some Xu))) by (intros; apply c115_fit; [exact swap_renaming|]; intros l [<-|[]]; reflexivity).
  pose proof ex_run as K. unfold run_samples in K. destruct (run_fit "mcmc" (Some Xu)) as [ob [f|]] eqn:EF; [|contradiction]. clear K. exists ob, f.
  unfold run_fit, fit_forecaster in EF. unfold renamed_fit, fit_forecaster. change (c_scale renamed_config) with (c_scale (run_config "mcmc")). change (discrete renamed_config) with (discrete (run_config "mcmc")). change (engine_of renamed_config) with (engine_of (run_config "mcmc")).
  change (c_scale (run_config "mcmc")) with (Some (SFloat 2)) in *. rewrite ex_scale in *. cbn [bind] in *. destruct (scale_y _ _ _) as [ys|] eqn:ES; [|discriminate]. cbn [bind] in *. rewrite FD. clear FD.
  destruct (fit_data _ _ _ _ (run_config "mcmc") _ _ _ _) as [ob1 [[p m]|]] eqn:EFD; [|discriminate]. unfold rename_data. cbn [fst snd rmap bind] in *. unfold infer in *. cbn [engine_of en_method run_config c_method String.eqb Ascii.eqb Bool.eqb] in *. unfold ex_nuts in *. cbn [bind] in *. injection EF as <- <-. cbn [ft_scale ft_prepared ft_posterior].
  eexists. split; [reflexivity|]. split; [reflexivity|]. cbn [ft_scale ft_prepared ft_posterior]. split; [reflexivity|]. split; [reflexivity|].
  assert (NM : map fe_name (p_fitted p) = ["tv"; "exogenous_variables_effect"]). { injection ES as <-. vm_compute in EFD. injection EFD as _ <- _. reflexivity. }
  split; [exact NM|]. split.
  - cbn [rename_prepared p_fitted]. rewrite map_map. transitivity (map swap (map fe_name (p_fitted p))); [rewrite map_map; reflexivity|]. rewrite NM. reflexivity.
  - intros m'. split; [reflexivity|]. unfold draws. cbn [engine_of en_key]. change (match c_key (run_config "mcmc") with Some k => k | None => 0%Z end) with 0%Z. apply (renamed_values _ m'). intros e I n j. repeat (destruct I as [<-|I]; [reflexivity|]). destruct I.
Qed.
