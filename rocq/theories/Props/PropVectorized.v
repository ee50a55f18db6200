(** Property C99: the univariate class on panels: one forecaster per series, each like a single one. *)
From Coq Require Import Reals String Bool ZArith List Permutation.
From Verif.Model Require Import Base Num XFloat Regex Frame Arr Expand Aggregate Scale Predict Prog Likelihood Trend Effect
  TrendProg Engine Forecaster Vectorized.
From Verif.Spec Require Import VectorizedSpec.
From Verif.Facts Require Import EffectExamples ForecasterExamples EngineExamples ComponentExamples VectorizedFacts VectorizedProps VectorizedTimes VectorizedExamples.
Import ListNotations.
Local Open Scope string_scope.

Section Any.
Variable ns_of : Z -> Z.
Variable order : list string -> list string.
Variable keep : path -> bool.
Context {TS : Type}.
Variable tr_clone : TS -> TS.
Variable tr_fit_transform : TS -> frame R -> TS * res (frame R).
Variable tr_transform : TS -> frame R -> res (frame R).
Context {P : Type}.
Variable svi_run : Z -> nat -> nat -> prog arr -> res (list xr * P).
Variable nuts_run : Z -> nat -> nat -> nat -> prog arr -> res (nat -> nat -> env).
Variable latent_sites : prog arr -> list string.
Variable guide_draw : P -> Z -> nat -> prog arr -> env.
Variable complete_draw : env -> Z -> nat -> prog arr -> env.
Notation fit_forecaster := (fit_forecaster ns_of order keep tr_fit_transform svi_run nuts_run latent_sites).
Notation panel_fit := (panel_fit ns_of order keep tr_clone tr_fit_transform svi_run nuts_run latent_sites).
Notation forecast_samples := (forecast_samples ns_of keep tr_transform guide_draw complete_draw).
Notation forecast_all_sites := (forecast_all_sites ns_of keep tr_transform guide_draw complete_draw).
Notation forecast_point := (forecast_point ns_of keep tr_transform guide_draw complete_draw).
Notation panel_samples := (panel_samples ns_of keep tr_transform guide_draw complete_draw).
Notation panel_all_sites := (panel_all_sites ns_of keep tr_transform guide_draw complete_draw).
Notation panel_point := (panel_point ns_of keep tr_transform guide_draw complete_draw).

(** One forecaster per series of the target, fitted as if the series had been given alone. *)
Theorem C99_fit : forall c ob y X ms, panel_fit c ob y X = Ok ms ->
  map fst ms = series_ids y /\ NoDup (map fst ms) /\ (forall p, In p (map fst ms) <-> exists r, In r (f_rows y) /\ r_path r = p) /\
  forall p m ys Xs, In (p, m) ms -> single y p ys -> single_X X p Xs ->
    fit_forecaster c (clone_objects tr_clone ob) ys Xs = (m_objects m, Ok (m_fitted m)) /\ m_y m = ys.
Proof. exact (c99_fit ns_of order keep tr_clone tr_fit_transform svi_run nuts_run latent_sites). Qed.

(** The fit fails exactly if the fit of some series alone fails, with the exception of the first one. *)
Theorem C99_fails : forall c ob y X e, panel_fit c ob y X = Err e <->
  exists before p after, series_ids y = (before ++ p :: after)%list /\
    (forall ys Xs, single y p ys -> single_X X p Xs -> snd (fit_forecaster c (clone_objects tr_clone ob) ys Xs) = Err e) /\
    forall q ys Xs, In q before -> single y q ys -> single_X X q Xs -> exists f, snd (fit_forecaster c (clone_objects tr_clone ob) ys Xs) = Ok f.
Proof. exact (c99_fails ns_of order keep tr_clone tr_fit_transform svi_run nuts_run latent_sites). Qed.

(** Other series do not matter: two panels that agree on a series give it the same forecaster. *)
Theorem C99_isolated : forall c ob y X y' X' ms ms' p m m' ys Xs,
  panel_fit c ob y X = Ok ms -> panel_fit c ob y' X' = Ok ms' -> In (p, m) ms -> In (p, m') ms' ->
  single y p ys -> single y' p ys -> single_X X p Xs -> single_X X' p Xs -> m = m'.
Proof. exact (c99_isolated ns_of order keep tr_clone tr_fit_transform svi_run nuts_run latent_sites). Qed.

(** [predict_samples] and [predict_all_sites]: the results of the series, one after the other in the
    order of the series; each as if it had been forecast alone with its own rows of X. *)
Theorem C99_samples : forall c ms X fh out, panel_X (map fst ms) X -> panel_samples c ms X fh = Ok out ->
  exists outs, f_rows out = flat_map (fun o => f_rows o) outs /\
    Forall2 (fun pm o => forall Xs, single_X X (fst pm) Xs ->
      snd (forecast_samples c (m_objects (snd pm)) (m_fitted (snd pm)) (m_y (snd pm)) Xs fh) = Ok o) ms outs.
Proof. exact (c99_samples ns_of keep tr_transform guide_draw complete_draw). Qed.
Theorem C99_all_sites : forall c ms X fh out, panel_X (map fst ms) X -> panel_all_sites c ms X fh = Ok out ->
  exists outs, f_rows out = flat_map (fun o => f_rows o) outs /\
    Forall2 (fun pm o => forall Xs, single_X X (fst pm) Xs ->
      snd (forecast_all_sites c (m_objects (snd pm)) (m_fitted (snd pm)) (m_y (snd pm)) Xs fh) = Ok o) ms outs.
Proof. exact (c99_all_sites ns_of keep tr_transform guide_draw complete_draw). Qed.

(** [predict]: the rows labelled with a series are its forecast made alone. *)
Theorem C99_point : forall c target levels ms X fh out p m Xs, NoDup (map fst ms) -> In (p, m) ms -> single_X X p Xs ->
  panel_point c target levels ms X fh = Ok out ->
  exists o, snd (forecast_point c (m_objects m) (m_fitted m) (m_y m) Xs fh) = Ok o /\
    filter (fun r => if list_eq_dec string_dec (r_path r) p then true else false) (f_rows out) = labelled p (f_rows o).
Proof. exact (c99_point ns_of keep tr_transform guide_draw complete_draw). Qed.

(** A relative horizon counts from the last date of each series, not of the panel. *)
Theorem C99_times : forall c target levels (ms : list (path * member TS P)) X fh out p m,
  c_hier c = false -> NoDup (map fst ms) -> In (p, m) ms -> f_levels (m_y m) = 0%nat ->
  panel_point c target levels ms X fh = Ok out ->
  exists last, (In last (map r_time (f_rows (m_y m))) /\ forall t, In t (map r_time (f_rows (m_y m))) -> (t <= last)%Z) /\
    Permutation (map r_time (filter (fun r => if list_eq_dec string_dec (r_path r) p then true else false) (f_rows out)))
      (match fh with Relative steps => map (fun s => (last + s)%Z) steps | Absolute dates => dates end).
Proof.
  intros c target levels ms X fh out p m Hc ND I L H.
  destruct (c99_times ns_of keep tr_transform guide_draw complete_draw c target levels ms X fh out p m Hc ND I L H) as (last & M & Q).
  exists last. split; [exact (proj1 (max_time_spec _ _) M)|]. destruct fh; exact Q.
Qed.

(** The labels that [predict_samples] loses (C58) can be restored by position from [predict], whose
    rows come in the same order. *)
Theorem C99_recover : forall c target levels ms X fh s f, panel_X (map fst ms) X ->
  panel_samples c ms X fh = Ok s -> panel_point c target levels ms X fh = Ok f ->
  List.length (f_rows f) = List.length (f_rows s) /\
  forall i rs rf, nth_error (f_rows s) i = Some rs -> nth_error (f_rows f) i = Some rf ->
    r_time rf = r_time rs /\ r_vals rf = [(Rsum (r_vals rs) / INR (List.length (r_vals rs)))%R].
Proof. exact (c99_recover ns_of keep tr_transform guide_draw complete_draw). Qed.
End Any.

(** A trend given by name is made anew for every series, so cloning changes nothing. *)
Theorem C99_clone : forall c s t, named_trend c s = Ok t -> clone_trend t = t.
Proof. exact clone_named. Qed.

Print Assumptions C99_fit.
Print Assumptions C99_fails.
Print Assumptions C99_isolated.
Print Assumptions C99_samples.
Print Assumptions C99_all_sites.
Print Assumptions C99_point.
Print Assumptions C99_times.
Print Assumptions C99_recover.
Print Assumptions C99_clone.

(** Two series ending on days 7 and 5: steps 1 and 2 are days 8, 9 and 6, 7. *)
Example C99_nonvacuous : exists ms s a f, pan_fit pan_y pan_X = Ok ms /\ pan_samples ms = Ok s /\ pan_sites ms = Ok a /\ pan_point ms = Ok f /\
  map (fun r => (r_path r, r_time r)) (f_rows f) = [(["a"], 8%Z); (["a"], 9%Z); (["b"], 6%Z); (["b"], 7%Z)] /\
  map (fun r => (r_path r, r_time r)) (f_rows s) = [([], 8%Z); ([], 9%Z); ([], 6%Z); ([], 7%Z)].
Proof. exact pan_runs. Qed.
Example C99_frames_nonvacuous : panel_X [["a"]; ["b"]] (Some pan_Xf).
Proof. exact pan_Xf_ok. Qed.
(** another panel with the same series "a" *)
Example C99_isolated_nonvacuous : (exists ms, pan_fit pan_y' pan_X' = Ok ms) /\
  single pan_y ["a"] (series_frame pan_y ["a"]) /\ single pan_y' ["a"] (series_frame pan_y ["a"]) /\
  single_X (Some pan_X) ["a"] (Some (series_frame pan_X ["a"])) /\ single_X (Some pan_X') ["a"] (Some (series_frame pan_X ["a"])).
Proof. exact (conj pan_runs' pan_same_a). Qed.
Example C99_fails_nonvacuous : pan_fit pan_y pan_X_short = Err KeyError.
Proof. exact pan_fails. Qed.
Example C99_clone_nonvacuous : exists t, named_trend (comp_config "normal") "linear" = Ok t.
Proof. eexists. reflexivity. Qed.
