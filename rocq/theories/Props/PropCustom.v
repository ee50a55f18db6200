(** Properties C95-C97: effects written by users, as subclasses of [BaseEffect] or [BaseAdditiveOrMultiplicativeEffect].
    [_fit], [_transform] and [_predict] are arbitrary functions here. *)
From Coq Require Import Reals String Bool ZArith List Arith.
From Verif.Model Require Import Base Num Frame Arr Prog Likelihood Effect Trend TrendProg Forecaster Custom.
From Verif.Spec Require Import ForecasterSpec ProgSpec ComponentSpec CustomSpec.
From Verif.Facts Require Import EffectExamples CustomFacts CustomViews CustomCalls CustomMean CustomInstance CustomExamples.
Import ListNotations.
Local Open Scope string_scope.

(** * C95: the methods see exactly the columns of the effect *)

(** When the effects of a forecaster are fitted, [_fit] of every effect is called on a new object, with the target, the
    scale and the table restricted to the columns which match the pattern of the effect; the default effect gets
    the columns no effect has, if there are any. *)
Theorem C95_fit : forall S D (default : user_effect S D) effs y X scale fitted, frame_wf X ->
  user_fit_effects default effs y (Some X) scale = Ok fitted ->
  exists fs rest, fitted = (fs ++ rest)%list /\
    Forall2 (fun l f => fst (fst f) = fst (fst l) /\ (forall c, In c (snd f) <-> In c (f_cols X) /\ matched (snd l) c) /\
                        fitted_on y X scale (snd (fst l)) (snd f) (snd (fst f))) effs fs /\
    ((rest = [] /\ forall c, In c (f_cols X) -> exists f, In f fs /\ In c (snd f)) \/
     (exists u' cols, rest = [(default_name, u', cols)] /\ cols <> [] /\
        (forall c, In c cols <-> In c (f_cols X) /\ forall f, In f fs -> ~ In c (snd f)) /\ fitted_on y X scale default cols u')).
Proof. exact (@fit_effects_called). Qed.
Print Assumptions C95_fit.

(** When data are prepared, [_transform] of every effect which is not skipped is called with the columns of the effect, for
    the rows of the horizon (all rows if the class asks for them); skipped effects are left alone. *)
Theorem C95_transform : forall S D (default : user_effect S D) effs y X0 scale fitted X fh fitted' d, frame_wf X0 -> f_rows X0 <> [] -> frame_wf X ->
  user_fit_effects default effs y (Some X0) scale = Ok fitted -> user_transform_effects fitted X fh [] = (fitted', Ok d) ->
  Forall2 (fun f f' => fst (fst f') = fst (fst f) /\ snd f' = snd f /\
    ((user_skips (snd (fst f)) = Ok true /\ snd (fst f') = snd (fst f)) \/
     (user_skips (snd (fst f)) = Ok false /\ exists x, prepared_from X fh (snd (fst f)) (snd f) (snd (fst f')) x))) fitted fitted' /\
  (forall n, In n (map fst d) <-> exists f, In f fitted /\ fst (fst f) = n /\ user_skips (snd (fst f)) = Ok false).
Proof.
  intros S D default effs y X0 scale fitted X fh fitted' d W0 N W F T. split.
  - exact (transform_effects_called fitted X fh [] fitted' d W (fit_effects_names _ _ _ _ _ _ W0 N F) T).
  - intros n. rewrite (transform_effects_data fitted X fh [] fitted' d T n). split; [intros [[]|H]; exact H|auto].
Qed.
Print Assumptions C95_transform.

(** Hence other columns, the order of the columns and rows outside the horizon make no difference: two tables with the
    same values in the columns of the effects give the same prepared data and the same objects. *)
Theorem C95_independent : forall S D (default : user_effect S D) effs y X0 scale fitted X X' fh,
  user_fit_effects default effs y (Some X0) scale = Ok fitted -> frame_wf X -> frame_wf X' ->
  (forall f, In f fitted -> same_values (snd f) X X' (view_rows (snd (fst f)) fh X) (view_rows (snd (fst f)) fh X')) ->
  user_transform_effects fitted X fh [] = user_transform_effects fitted X' fh [].
Proof.
  intros S D default effs y X0 scale fitted X X' fh F W W' V.
  exact (user_transform_effects_same fitted X X' fh [] W W' (user_fit_effects_remember _ _ _ _ _ _ F) V).
Qed.
Print Assumptions C95_independent.

(** The linear, log and Hill effects of the library are instances: fitting, preparing and evaluating them in Forecaster.v is
    what this model does with their classes. *)
Theorem C95_library : forall order default effs y X scale,
  simple (match default with None => default_linear | Some e => e end) -> (forall l, In l effs -> simple (snd (fst l))) ->
  user_fit_effects (as_user (match default with None => default_linear | Some e => e end)) (map as_listed effs) y X scale =
    (fs <- fit_effects order default effs X scale ;; Ok (map as_fitted fs)) /\
  forall fs, fit_effects order default effs X scale = Ok fs ->
    (forall Xn fh, user_transform_effects (map as_fitted fs) Xn fh [] =
       (map as_fitted fs, d <- transform_effects fs Xn fh ;; Ok (map (fun nd => (fst nd, Some (snd nd))) d))) /\
    user_non_skipped (map as_fitted fs) = (es <- non_skipped fs ;; Ok (map (fun ne => (fst ne, as_user (snd ne))) es)) /\
    (forall f d pe, In f fs -> b_cols (get_base (snd (fst f))) <> None -> user_predict (as_user (snd (fst f))) d pe = predict (snd (fst f)) d pe).
Proof.
  intros order default effs y X scale QD Q. destruct (fit_effects_user order default effs y X scale QD Q) as [F G]. split; [exact F|]. intros fs E. specialize (G fs E).
  split; [intros Xn fh; exact (transform_effects_user fs Xn fh G)|]. split; [exact (non_skipped_user fs)|]. intros f d pe I C. exact (predict_user _ d pe (G f I) C).
Qed.
Print Assumptions C95_library.

Example C95_nonvacuous : forall m, frame_wf Xu /\ frame_wf Xv /\
  user_fit_effects (fresh m true) [("a", fresh m true, Some "tv"); ("b", fresh m true, Some "radio")] ey (Some Xu) 1%R =
    Ok [("a", seen m true ["tv"], ["tv"]); ("b", seen m true [], []); (default_name, seen m true ["web"], ["web"])] /\
  snd (user_transform_effects [("a", seen m true ["tv"], ["tv"]); ("b", seen m true [], []); (default_name, seen m true ["web"], ["web"])] Xv [0; 1; 7]%Z []) =
    Ok [("a", Some (mkFrame 0 ["tv"] [mkRow [] 0 [1]; mkRow [] 1 [2]; mkRow [] 7 [3]]))%R; (default_name, Some (mkFrame 0 ["web"] [mkRow [] 0 [10]; mkRow [] 1 [20]; mkRow [] 7 [30]]))%R] /\
  (forall f, In f [("a", seen m true ["tv"], ["tv"]); ("b", seen m true [], []); (default_name, seen m true ["web"], ["web"])] ->
     same_values (snd f) Xu Xv (view_rows (snd (fst f)) [0; 1; 7]%Z Xu) (view_rows (snd (fst f)) [0; 1; 7]%Z Xv)) /\ f_cols Xu <> f_cols Xv.
Proof.
  intros m. split; [exact Xu_wf|]. split; [exact Xv_wf|]. split; [exact (watch_fit m)|]. split; [now rewrite watch_transform|]. split; [exact (watch_same m)|discriminate].
Qed.
(** a class which asks for all rows gets them, and its data do depend on rows outside the horizon *)
Example C95_all_rows : forall m, user_transform (seen m false ["tv"]) (Some Xv) [0; 7]%Z =
  (seen m false ["tv"], Ok (Some (mkFrame 0 ["tv"] [mkRow [] 0 [1]; mkRow [] 1 [2]; mkRow [] 9 [0]; mkRow [] 7 [3]])))%R /\
  user_transform (seen None false ["tv"]) (Some Xu) [0; 1; 7]%Z <> user_transform (seen None false ["tv"]) (Some Xv) [0; 1; 7]%Z.
Proof. intros m. split; [exact (watch_all m)|exact watch_rows]. Qed.
Example C95_library_nonvacuous : exists order fs, fit_effects order None [("a", lin, Some "tv")] (Some Xu) 1%R = Ok fs /\ List.length fs = 2 /\ simple lin /\
  (forall f, In f fs -> b_cols (get_base (snd (fst f))) <> None).
Proof.
  exists sorted_sets. eexists. split; [reflexivity|]. split; [reflexivity|]. split; [exact I|]. intros f [<-|[<-|[]]]; discriminate.
Qed.

(** * C96: the order of the calls *)

(** Let the methods of the classes write down that they are called.  After a fit and any number of preparations (one at the end
    of [fit], one for every forecast), each effect had [_fit] called first and once, then [_transform] at most once for
    every preparation: never if the effect is skipped, always if it is not and nothing was raised. *)
Theorem C96_calls : forall S D (default : user_effect (S * list call) D) effs y X scale fitted uses,
  (exists c : user_class S D, ue_class default = logged c) -> (forall l, In l effs -> exists c : user_class S D, ue_class (snd (fst l)) = logged c) ->
  user_fit_effects default effs y X scale = Ok fitted ->
  Forall2 (fun f f' => fst (fst f') = fst (fst f) /\ exists k, k <= List.length uses /\ calls (snd (fst f')) = CalledFit :: repeat CalledTransform k /\
            (user_skips (snd (fst f)) <> Ok false -> k = 0) /\
            (user_skips (snd (fst f)) = Ok false -> all_transformed fitted uses -> k = List.length uses))
          fitted (after_transforms fitted uses).
Proof. exact (@c96_calls). Qed.
Print Assumptions C96_calls.

(** A fit starts from new objects: attributes of the listed objects, for instance from an earlier fit, make no difference. *)
Theorem C96_fresh : forall S D (default default' : user_effect S D) effs effs' y X scale, ue_class default = ue_class default' ->
  Forall2 (fun l l' => fst (fst l) = fst (fst l') /\ ue_class (snd (fst l)) = ue_class (snd (fst l')) /\ snd l = snd l') effs effs' ->
  user_fit_effects default effs y X scale = user_fit_effects default' effs' y X scale.
Proof. exact (@fit_effects_fresh). Qed.
Print Assumptions C96_fresh.

(** a fit, two preparations and a third one which raises at the first effect *)
Example C96_nonvacuous : forall m, (exists c, ue_class (lfresh m) = logged c) /\
  exists fitted, user_fit_effects (lfresh m) [("a", lfresh m, Some "tv"); ("b", lfresh m, Some "radio")] ey (Some Xu) 1%R = Ok fitted /\
  map (fun f => calls (snd (fst f))) fitted = [[CalledFit]; [CalledFit]; [CalledFit]] /\
  all_transformed fitted [(Xu, [0; 1; 7]%Z); (Xv, [9]%Z)] /\
  map (fun f => (fst (fst f), calls (snd (fst f)))) (after_transforms fitted [(Xu, [0; 1; 7]%Z); (Xv, [9]%Z); (Xnone, [0]%Z)]) =
    [("a", [CalledFit; CalledTransform; CalledTransform]); ("b", [CalledFit]); (default_name, [CalledFit; CalledTransform; CalledTransform])].
Proof. intros m. split; [eexists; reflexivity|exact (log_example m)]. Qed.
(** an object which was fitted before has the class of a new one *)
Example C96_fresh_nonvacuous : forall m, ue_class (seen m true ["old"]) = ue_class (fresh m true) /\ seen m true ["old"] <> fresh m true.
Proof. intros m. split; [reflexivity|discriminate]. Qed.

(** * C97: shapes *)

(** Values of an effect with a mode have the shape of the trend (a column if the trend is a vector), whatever the shape of what
    [_predict] returns; the entries are those of [_predict], times the trend in the multiplicative mode. *)
Theorem C97_mode : forall S D (u : user_effect S D) m d pe e t v, u_mode (ue_class u) = Some m -> dict_get pe "trend" = Some t -> arr_wf t ->
  yields e (user_predict u d pe) v ->
  exists cols x, b_cols (ue_base u) = Some cols /\ yields e (u_predict (ue_class u) cols (ue_state u) d pe) x /\ List.length (a_flat x) = List.length (a_flat t) /\
    a_shape v = (if Nat.eqb (ndim t) 1 then [List.length (a_flat t); 1] else a_shape t) /\ arr_wf v /\
    forall k, k < List.length (a_flat t) -> entry v k = match m with Additive => entry x k | Multiplicative => (entry t k * entry x k)%R end.
Proof. exact (@user_predict_mode). Qed.
Print Assumptions C97_mode.

(** Full statement: the mean has the shape of the trend, whatever effects are added.  It holds for trends which are not
    vectors and effects with a mode; then adding without broadcasting, as in Likelihood.v, is the same. *)
Theorem C97_mean_partial : forall S D (trend : prog arr) data (us : dict (user_effect S D)), (forall e v, yields e trend v -> regular v) ->
  (forall n u, In (n, u) us -> u_mode (ue_class u) <> None) ->
  forall e tr, run e tr (compute_mean_b trend data (Some (user_fns us))) = run e tr (compute_mean trend data (Some (user_fns us))) /\
    forall m tr', run e tr (compute_mean_b trend data (Some (user_fns us))) = Ok (m, tr') -> exists t, yields e trend t /\ arr_wf m /\ a_shape m = a_shape t.
Proof.
  intros S D trend data us HT HM. apply compute_mean_same; [exact HT|]. intros l n f E. injection E as <-. exact (user_fns_keep us HM n f).
Qed.
Print Assumptions C97_mean_partial.

(** It holds for all trends and effects of the library. *)
Theorem C97_library : forall ns_of t X fh td data es, trend_transform ns_of t X fh = Ok td -> forall e tr,
  run e tr (compute_mean_b (trend_predict t td) data (Some (effect_fns es))) = run e tr (compute_mean (trend_predict t td) data (Some (effect_fns es))) /\
  forall m tr', run e tr (compute_mean_b (trend_predict t td) data (Some (effect_fns es))) = Ok (m, tr') ->
    exists t', yields e (trend_predict t td) t' /\ arr_wf m /\ a_shape m = a_shape t'.
Proof. exact builtin_mean_same. Qed.
Print Assumptions C97_library.

(** It fails for a subclass of [BaseEffect] without a mode whose values are a vector with an entry for each date: the
    mean of three dates has nine entries. *)
Theorem C97_vector_effect_refuted : exists (u : user_effect (list string) (frame R)) d t v w, regular t /\ u_mode (ue_class u) = None /\ List.length (a_flat t) = 3 /\
  yields (fun _ _ => 0%R) (user_predict u d [("trend", t)]) (mkArr [3] [1; 2; 3]%R) /\
  run (fun _ _ => 0%R) [] (compute_mean_b (Ret t) (Some [("a", Some d)]) (Some (user_fns [("a", u)]))) = Ok (v, w) /\ a_shape v = [3; 3].
Proof.
  destruct vector_mean as (v & w & E & Sh & _). exists (seen None true ["tv"]), X3, column3, v, w. split; [exact column3_regular|]. split; [reflexivity|]. split; [reflexivity|]. split; [constructor|]. auto.
Qed.
Print Assumptions C97_vector_effect_refuted.

(** It fails for trends which are vectors, although base.py:375-377 allows for them: the effect is a column, and the mean
    of the vector and the column is a table. *)
Theorem C97_vector_trend_refuted : exists (u : user_effect (list string) (frame R)) d t v w, arr_wf t /\ ndim t = 1 /\ List.length (a_flat t) = 3 /\ u_mode (ue_class u) = Some Additive /\
  run (fun _ _ => 0%R) [] (compute_mean_b (Ret t) (Some [("a", Some d)]) (Some (user_fns [("a", u)]))) = Ok (v, w) /\ a_shape v = [3; 3].
Proof.
  destruct vector_trend as (v & w & E & Sh & _). exists (seen (Some Additive) true ["tv"]), X3, (mkArr [3] [5; 6; 7]%R), v, w. split; [reflexivity|]. split; [reflexivity|]. split; [reflexivity|]. split; [reflexivity|]. auto.
Qed.
Print Assumptions C97_vector_trend_refuted.

Example C97_nonvacuous : (forall e v, yields e (Ret column3) v -> regular v) /\
  (forall n u, In (n, u) [("a", seen (Some Additive) true ["tv"]); ("b", seen (Some Multiplicative) true ["tv"])] -> u_mode (ue_class u) <> None) /\
  exists v w,
  run (fun _ _ => 0%R) [] (compute_mean_b (Ret column3) (Some [("a", Some X3); ("b", Some X3)])
     (Some (user_fns [("a", seen (Some Additive) true ["tv"]); ("b", seen (Some Multiplicative) true ["tv"])]))) = Ok (v, w) /\
  a_shape v = [3; 1] /\ a_flat v = [5 + 1 + 5 * 1; 6 + 2 + 6 * 2; 7 + 3 + 7 * 3]%R.
Proof.
  split; [intros e v Y; inversion Y; exact column3_regular|]. split; [|exact mode_mean]. intros n u [E|[E|[]]]; injection E as _ <-; discriminate.
Qed.
(** a flat trend of the library *)
Example C97_library_nonvacuous : exists td, trend_transform (fun z => z) (TFlat 1 (mkBase (Some ["tv"]) (Some true)) (Some 2%R)) X3 [0; 7]%Z = Ok td.
Proof. eexists. reflexivity. Qed.
