(** Models and fitted effects under other names. *)
From Coq Require Import Reals String Ascii Bool ZArith List Lia FunctionalExtensionality.
From Verif.Model Require Import Base Num XFloat Regex Frame Arr Expand Aggregate Scale Predict Prog Likelihood Effect Trend TrendProg Engine Forecaster.
From Verif.Spec Require Import ProgSpec ForecasterSpec SiteSpec ShiftSpec RelistSpec RenameSpec.
From Verif.Facts Require Import BaseFacts FrameFacts MeanFacts EffectPredict ForecasterFacts ForecasterInv RenameFacts.
Import ListNotations.
Local Open Scope string_scope.

Section Renaming.
Variable rho : string -> string.
Hypothesis REN : renaming rho.
Notation sigma := (site_name rho).
Notation ren := (rename_sites sigma).

Lemma ren_mean t td data effs : (forall n, In n (dict_keys effs) -> no_slash n = true) ->
  ren (compute_mean (trend_predict t td) data (Some (effect_fns effs))) = compute_mean (trend_predict t td) (option_map (rename_keys rho) data) (Some (effect_fns (rename_keys rho effs))).
Proof.
  intros NS. unfold compute_mean. rewrite ren_bind, ren_trend by exact REN. apply bind_same. intros tv. unfold deterministic. cbn [pbind rename_sites]. rewrite (kept rho REN "trend") by (cbn; tauto). f_equal.
  destruct effs as [|[n ef] effs]; [reflexivity|]. destruct data as [data|]; [|reflexivity]. cbn [option_map]. apply (ren_effects rho REN data ((n, ef) :: effs) NS). reflexivity.
Qed.
Lemma ren_mean_none t td data data' : ren (compute_mean (trend_predict t td) data (@None (dict (effect_fn edata)))) = compute_mean (trend_predict t td) data' (@None (dict (effect_fn edata))).
Proof. unfold compute_mean. rewrite ren_bind, ren_trend by exact REN. apply bind_same. intros tv. unfold deterministic. cbn [pbind rename_sites]. now rewrite (kept rho REN "trend") by (cbn; tauto). Qed.

Ltac keep n := rewrite (kept rho REN n) by (cbn; tauto).
Lemma ren_call c es s p t td y data : (forall n, In n (dict_keys (p_effects p)) -> no_slash n = true) ->
  ren (model_call c s p t td y data) = model_call (with_effects c es) s (rename_prepared rho p) t td y (option_map (rename_keys rho) data).
Proof.
  intros NS. unfold model_call. cbn [with_effects c_hier c_noise c_concentration c_likelihood rename_prepared p_effects p_has_exogenous p_single]. destruct (c_hier c).
  - unfold multivariate_model. rewrite ren_bind, ren_mean by exact NS. apply bind_same. intros m. rewrite ren_bind.
    replace (ren match y with Some y0 => s0 <~ lift_res (squeeze_last y0) ;; Ret (Some (transpose s0)) | None => Ret None end) with (match y with Some y0 => s0 <~ lift_res (squeeze_last y0) ;; Ret (Some (transpose s0)) | None => Ret None end) by (destruct y as [y0|]; [destruct (squeeze_last y0)|]; reflexivity).
    apply bind_same. intros yo. destruct (p_single p).
    + unfold sample, plate, observe. cbn [pbind rename_sites]. keep "std_observation". keep "time". keep "obs". reflexivity.
    + rewrite ren_bind, ren_lift. apply bind_same. intros n. unfold sample. cbn [pbind rename_sites]. keep "std_observation". f_equal. apply functional_extensionality. intros sd. keep "corr_matrix". f_equal. apply functional_extensionality. intros co.
      rewrite ren_bind, ren_lift. apply bind_same. intros h. rewrite ren_bind, ren_lift. apply bind_same. intros cv. rewrite ren_bind, ren_lift. apply bind_same. intros tt_. unfold plate. cbn [pbind rename_sites]. keep "time". f_equal.
      rewrite ren_bind, ren_lift. apply bind_same. intros l. unfold observe. cbn [rename_sites]. keep "obs". reflexivity.
  - assert (M : ren (compute_mean (trend_predict t td) data (if p_has_exogenous p then Some (effect_fns (p_effects p)) else None)) = compute_mean (trend_predict t td) (option_map (rename_keys rho) data) (if p_has_exogenous p then Some (effect_fns (rename_keys rho (p_effects p))) else None)).
    { destruct (p_has_exogenous p); [now apply ren_mean|apply ren_mean_none]. }
    destruct (String.eqb (c_likelihood c) "normal"); [|destruct (String.eqb (c_likelihood c) "gamma"); [|destruct (String.eqb (c_likelihood c) "negbinomial"); [|reflexivity]]].
    + unfold univariate_model. rewrite ren_bind, M. apply bind_same. intros m. unfold sample. cbn [pbind rename_sites]. keep "noise_scale". f_equal. apply functional_extensionality. intros no. rewrite ren_bind, ren_lift. apply bind_same. intros n. unfold plate, observe. cbn [pbind rename_sites]. keep "data". keep "obs". reflexivity.
    + unfold univariate_gamma_model. rewrite ren_bind, M. apply bind_same. intros m. cbv zeta. unfold sample. cbn [pbind rename_sites]. keep "noise_scale". f_equal. apply functional_extensionality. intros no. rewrite ren_bind, ren_lift. apply bind_same. intros n. unfold plate, observe. cbn [pbind rename_sites]. keep "data". keep "obs". reflexivity.
    + unfold univariate_negbinomial_model. rewrite ren_bind, M. apply bind_same. intros m. cbv zeta. unfold sample. cbn [pbind rename_sites]. keep "noise_scale". f_equal. apply functional_extensionality. intros no. rewrite ren_bind, ren_lift. apply bind_same. intros n. unfold plate, observe. cbn [pbind rename_sites]. keep "data". keep "obs". reflexivity.
Qed.

(** * Fitted effects *)
Variable order : list string -> list string.
Notation rnf := (rename_fitted rho).
Lemma mapM_rename {A B} (f f' : A -> res B) (g : A -> A) (h : B -> B) l : (forall a, f' (g a) = rmap h (f a)) -> mapM f' (map g l) = rmap (map h) (mapM f l).
Proof.
  intros H. induction l as [|a l IH]; [reflexivity|]. cbn [map mapM]. rewrite H. destruct (f a); cbn [rmap bind]; [|reflexivity]. rewrite IH. destruct (mapM f l); reflexivity.
Qed.
Lemma fit_one_rename X s l : fit_one order (Some X) s (rename_listed rho l) = rmap rnf (fit_one order (Some X) s l).
Proof.
  destruct l as [[n e] re]. unfold fit_one, rename_listed, l_name, l_effect, l_regex. cbn [fst snd]. destruct (match_columns _ re) as [cols|]; [|reflexivity]. cbn [bind]. destruct (select_columns _ _ _) as [XC|]; [|reflexivity]. cbn [bind].
  destruct (fit order (clone e) (Some XC) s) as [e' [x|]]; reflexivity.
Qed.
Lemma uncovered_rename cols fitted : uncovered cols (map rnf fitted) = uncovered cols fitted.
Proof.
  unfold uncovered. do 2 f_equal. apply filter_ext. intros c. f_equal. induction fitted as [|f fitted IH]; [reflexivity|]. cbn [map existsb]. rewrite IH. reflexivity.
Qed.
Lemma fit_effects_rename default es X s : fit_effects order default (map (rename_listed rho) es) (Some X) s = rmap (map rnf) (fit_effects order default es (Some X) s).
Proof.
  unfold fit_effects. rewrite (mapM_rename (fit_one order (Some X) s) (fit_one order (Some X) s) (rename_listed rho) rnf) by (intros; apply fit_one_rename).
  destruct (mapM (fit_one order (Some X) s) es) as [a|]; [|reflexivity]. cbn [rmap bind]. rewrite uncovered_rename. destruct (uncovered (f_cols X) a) as [|u us]; [reflexivity|].
  destruct (select_columns _ _ _) as [XC|]; [|reflexivity]. cbn [bind]. destruct (fit order _ _ _) as [e' [x|]]; [reflexivity|]. cbn [rmap]. rewrite map_app. cbn [map]. unfold rename_fitted at 3. unfold fe_name, fe_effect, fe_cols. cbn [fst snd]. now rewrite (rho_default rho REN).
Qed.
Lemma transform_effects_rename fitted X fh : transform_effects (map rnf fitted) X fh = rmap (rename_keys rho) (transform_effects fitted X fh).
Proof.
  destruct REN as (I & _). unfold transform_effects. change (@nil (string * edata)) with (rename_keys (V := edata) rho []) at 1. generalize (@nil (string * edata)) as out. induction fitted as [|[[n e] cols] fitted IH]; intros out; [reflexivity|].
  cbn [map foldM]. unfold rename_fitted at 1, fe_name, fe_effect, fe_cols. cbn [fst snd]. destruct (should_skip_predict e) as [[]|]; cbn [bind]; [apply IH| |reflexivity].
  destruct (select_columns _ _ _) as [XC|]; [|reflexivity]. cbn [bind]. destruct (transform e (Some XC) fh) as [d|]; [|reflexivity]. cbn [bind]. rewrite set_keys by exact I. apply IH.
Qed.
Lemma non_skipped_rename fitted : non_skipped (map rnf fitted) = rmap (rename_keys rho) (non_skipped fitted).
Proof.
  destruct REN as (I & _). unfold non_skipped. change (@nil (string * effect)) with (rename_keys (V := effect) rho []) at 1. generalize (@nil (string * effect)) as out. induction fitted as [|[[n e] cols] fitted IH]; intros out; [reflexivity|].
  cbn [map foldM]. unfold rename_fitted at 1, fe_name, fe_effect, fe_cols. cbn [fst snd]. destruct (should_skip_predict e) as [[]|]; cbn [bind]; [apply IH| |reflexivity]. rewrite set_keys by exact I. apply IH.
Qed.

(** names of the effects in use *)
Lemma set_keys_In {V} (d : dict V) k v n : In n (dict_keys (dict_set d k v)) -> n = k \/ In n (dict_keys d).
Proof. induction d as [|[k' v'] d IH]; cbn; [intros [<-|[]]; auto|]. destruct (String.eqb k k'); cbn; [tauto|]. intros [<-|H]; [tauto|]. destruct (IH H); tauto. Qed.
Lemma non_skipped_names fitted effs : non_skipped fitted = Ok effs -> forall n, In n (dict_keys effs) -> In n (map fe_name fitted).
Proof.
  unfold non_skipped. intros H n Hn. assert (Q : forall fitted out, foldM (fun out (f : fitted_effect) => let '(name, e, _) := f in skip <- should_skip_predict e ;; Ok (if (skip : bool) then out else dict_set out name e)) out fitted = Ok effs -> In n (map fe_name fitted) \/ In n (dict_keys out)).
  { clear fitted H. induction fitted as [|[[m e] cols] fitted IH]; intros out H; cbn [foldM] in H; [injection H as ->; auto|]. destruct (should_skip_predict e) as [[]|]; cbn [bind] in H; [| |discriminate].
    - destruct (IH _ H); [left; now right|auto].
    - destruct (IH _ H) as [K|K]; [left; now right|]. apply set_keys_In in K as [->|K]; [left; now left|auto]. }
  destruct (Q _ _ H) as [K|[]]. exact K.
Qed.
Lemma fitted_names default es X s g : fit_effects order default es (Some X) s = Ok g -> forall n, In n (map fe_name g) -> In n (map l_name es) \/ n = default_name.
Proof.
  intros H n Hn. apply fit_effects_inv in H as (main & dflt & -> & F & D). rewrite map_app in Hn. apply in_app_or in Hn as [Hn|Hn].
  - left. clear D. revert Hn. induction F as [|l f ls fs (N & _) F IH]; [intros []|]. cbn [map]. rewrite N. intros [<-|Hn]; [now left|right; auto].
  - right. destruct D as [[-> _]|(f & -> & N & _)]; [destruct Hn|]. destruct Hn as [<-|[]]. exact N.
Qed.
Lemma names_plain default es X s g effs : fit_effects order default es (Some X) s = Ok g -> non_skipped g = Ok effs -> (forall l, In l es -> no_slash (l_name l) = true) -> forall n, In n (dict_keys effs) -> no_slash n = true.
Proof.
  intros F N NS n Hn. apply (non_skipped_names _ _ N) in Hn. apply (fitted_names _ _ _ _ _ F) in Hn as [Hn| ->]; [|reflexivity]. apply in_map_iff in Hn as (l & <- & I). auto.
Qed.
End Renaming.
