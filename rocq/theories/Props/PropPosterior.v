(** Property C87: the posterior covers the forecast.  The model which is run for a forecast has the
    parameters, priors and shapes of the model which was fitted, whatever the horizon and the data passed to
    predict; so every parameter of a forecast draw has the value of one posterior sample (sampler) or of the
    fitted point (optimiser), and none is drawn from its prior.  All theorems hold for every optimiser,
    sampler and transformer (the section variables). *)
From Coq Require Import Reals String Bool ZArith List Lra Lia.
From Verif.Model Require Import Base Num XFloat Regex Frame Arr Expand Aggregate Scale Predict Prog Likelihood Trend Effect
  TrendProg Engine Forecaster Tensors.
From Verif.Spec Require Import FrameSpec ScaleSpec ForecasterSpec AlignSpec ShapeSpec SiteSpec PosteriorSpec.
From Verif.Facts Require Import NumFacts LikelihoodFacts EffectExamples ForecasterExamples EngineExamples HistoryExamples ComponentExamples AlignExamples InsampleExamples PosteriorFacts.
Import ListNotations.
Local Open Scope string_scope.

Section Any.
Variable ns_of : Z -> Z.
Variable order : list string -> list string.
Variable keep : path -> bool.
Context {TS : Type}.
Variable tr_fit_transform : TS -> frame R -> TS * res (frame R).
Variable tr_transform : TS -> frame R -> res (frame R).
Context {P : Type}.
Variable svi_run : Z -> nat -> nat -> prog arr -> res (list xr * P).
Variable nuts_run : Z -> nat -> nat -> nat -> prog arr -> res (nat -> nat -> env).
Variable latent_sites : prog arr -> list string.
Variable guide_draw : P -> Z -> nat -> prog arr -> env.
Variable complete_draw : env -> Z -> nat -> prog arr -> env.
Notation fit_data := (fit_data ns_of order keep tr_fit_transform).
Notation fit_forecaster := (fit_forecaster ns_of order keep tr_fit_transform svi_run nuts_run latent_sites).
Notation predict_model := (predict_model ns_of keep tr_transform).

(** every run of the forecast model has the parameters of every run of the fitted model: same names, same
    order, same priors, same shapes *)
Theorem C87_parameters : forall c ob0 y X ob f,
  fit_forecaster c ob0 y X = (ob, Ok f) -> one_or_piecewise c y (o_trend ob) ->
  exists m, (exists ys, scale_y (discrete c) (ft_scale f) y = Ok ys /\ fit_data c ob0 (ft_scale f) ys X = (ob, Ok (ft_prepared f, m))) /\
    infer svi_run nuts_run latent_sites (engine_of c) m = Ok (ft_posterior f) /\
    forall ob2 y2 X2 fh m2, predict_model c ob2 f y2 X2 fh = Ok m2 -> o_trend ob2 = o_trend ob ->
    forall e e2 o o2 tr tr2, run e [] m = Ok (o, tr) -> run e2 [] m2 = Ok (o2, tr2) -> parameters tr2 = parameters tr.
Proof. exact (c87_parameters ns_of order keep tr_fit_transform tr_transform svi_run nuts_run latent_sites). Qed.

(** the names reported by [site_names] are the parameters of every forecast *)
Theorem C87_site_names : forall c ob0 y X ob f,
  fit_forecaster c ob0 y X = (ob, Ok f) -> one_or_piecewise c y (o_trend ob) ->
  exists m, (exists ys, scale_y (discrete c) (ft_scale f) y = Ok ys /\ fit_data c ob0 (ft_scale f) ys X = (ob, Ok (ft_prepared f, m))) /\
    site_names f = latent_sites m /\
    (posterior_sites (site_names f) m ->
     forall ob2 y2 X2 fh m2, predict_model c ob2 f y2 X2 fh = Ok m2 -> o_trend ob2 = o_trend ob ->
     forall e o tr, run e [] m2 = Ok (o, tr) -> forall n, n <> "obs" -> (In n (site_names f) <-> In n (parameter_names tr))).
Proof. exact (c87_site_names ns_of order keep tr_fit_transform tr_transform svi_run nuts_run latent_sites). Qed.

(** with the sampler: all the parameters of a draw come from one posterior sample *)
Theorem C87_posterior : forall c ob0 y X ob f samples latent,
  fit_forecaster c ob0 y X = (ob, Ok f) -> one_or_piecewise c y (o_trend ob) ->
  ft_posterior f = IMcmc samples latent -> completes_posterior complete_draw latent ->
  exists m, (exists ys, scale_y (discrete c) (ft_scale f) y = Ok ys /\ fit_data c ob0 (ft_scale f) ys X = (ob, Ok (ft_prepared f, m))) /\
    (posterior_sites latent m ->
     forall ob2 y2 X2 fh m2, predict_model c ob2 f y2 X2 fh = Ok m2 -> o_trend ob2 = o_trend ob ->
     forall e o tr, In e (draws guide_draw complete_draw (engine_of c) (ft_posterior f) m2) -> run e [] m2 = Ok (o, tr) ->
     exists s, In s samples /\ takes_values s tr).
Proof. exact (c87_posterior ns_of order keep tr_fit_transform tr_transform svi_run nuts_run latent_sites guide_draw complete_draw). Qed.

(** with the optimiser: every draw has the fitted parameters, and two draws differ in the target only: the
    components of a forecast (trend and effects) have no spread *)
Theorem C87_map : forall c ob0 y X ob f params latent point,
  fit_forecaster c ob0 y X = (ob, Ok f) -> one_or_piecewise c y (o_trend ob) -> clean_config c ->
  ft_posterior f = IMap params latent -> point_guide guide_draw latent params point ->
  exists m, (exists ys, scale_y (discrete c) (ft_scale f) y = Ok ys /\ fit_data c ob0 (ft_scale f) ys X = (ob, Ok (ft_prepared f, m))) /\
    (posterior_sites latent m ->
     forall ob2 y2 X2 fh m2, predict_model c ob2 f y2 X2 fh = Ok m2 -> o_trend ob2 = o_trend ob ->
     forall e o tr, In e (draws guide_draw complete_draw (engine_of c) (ft_posterior f) m2) -> run e [] m2 = Ok (o, tr) ->
     takes_values point tr /\
     forall e' o' tr', In e' (draws guide_draw complete_draw (engine_of c) (ft_posterior f) m2) -> run e' [] m2 = Ok (o', tr') -> same_but_target tr tr').
Proof. exact (c87_map ns_of order keep tr_fit_transform tr_transform svi_run nuts_run latent_sites guide_draw complete_draw). Qed.
End Any.
Print Assumptions C87_parameters.
Print Assumptions C87_site_names.
Print Assumptions C87_posterior.
Print Assumptions C87_map.

(** * a fitted model with two effects, with each method *)
Definition post_fit method :=
  fit_forecaster ex_ns sorted_sets keep_all ex_fit_transform ex_svi ex_nuts comp_latent (run_config method) (no_objects None) ex_y (Some Xu).
Definition latent_names : list string := ["trend_flat_coefficient"; "tv/coefs"; "exogenous_variables_effect/coefs"; "noise_scale"].
Definition post_of method (m : prog arr) : inferred unit :=
  if String.eqb method "mcmc" then IMcmc (repeat (fun _ _ => 1%R) 6) latent_names else IMap tt latent_names.
Definition names_run (m : prog arr) : option (list string) := match run ones [] m with Ok (_, tr) => Some (parameter_names tr) | Err _ => None end.
Definition post_checks method : option (option (list string) * option (list string)) :=
  match scale_y (discrete (run_config method)) (SFloat 2) ex_y with
  | Err _ => None
  | Ok ys =>
      match fit_data ex_ns sorted_sets keep_all ex_fit_transform (run_config method) (no_objects None) (SFloat 2) ys (Some Xu) with
      | (ob, Ok (p, m)) =>
          match predict_model ex_ns keep_all ex_transform (run_config method) ob (mkFitted (SFloat 2) p (post_of method m)) ex_y (Some Xf) (Relative [1; 2]%Z) with
          | Ok m2 => Some (names_run m, names_run m2)
          | Err _ => None
          end
      | _ => None
      end
  end.

Example C87_case : forall method, In method ["mcmc"; "map"] ->
  exists ob f ys m m2 o tr, post_fit method = (ob, Ok f) /\ one_or_piecewise (run_config method) ex_y (o_trend ob) /\ clean_config (run_config method) /\
    scale_y (discrete (run_config method)) (ft_scale f) ex_y = Ok ys /\
    fit_data ex_ns sorted_sets keep_all ex_fit_transform (run_config method) (no_objects None) (ft_scale f) ys (Some Xu) = (ob, Ok (ft_prepared f, m)) /\
    ft_posterior f = post_of method m /\ posterior_sites latent_names m /\
    predict_model ex_ns keep_all ex_transform (run_config method) ob f ex_y (Some Xf) (Relative [1; 2]%Z) = Ok m2 /\
    run ones [] m2 = Ok (o, tr) /\ parameter_names tr = latent_names.
Proof.
  intros method H. unfold post_fit, fit_forecaster. cbn [c_scale run_config]. rewrite ex_scale. cbn [bind].
  assert (C : post_checks method = Some (Some latent_names, Some latent_names)) by (simpl in H; destruct H as [<-|[<-|[]]]; vm_compute; reflexivity).
  unfold post_checks in C. destruct (scale_y _ _ _) as [ys|] eqn:Y; [|discriminate]. cbn [bind].
  destruct (fit_data _ _ _ _ _ _ _ _ _) as [ob [[p m]|]] eqn:F; [|discriminate]. cbn [bind].
  assert (I : infer ex_svi ex_nuts comp_latent (engine_of (run_config method)) m = Ok (post_of method m)) by (simpl in H; destruct H as [<-|[<-|[]]]; reflexivity).
  rewrite I. cbn [bind]. destruct (predict_model _ _ _ _ _ _ _ _ _) as [m2|] eqn:M; [|discriminate]. injection C as C1 C2.
  unfold names_run in C1, C2. destruct (run ones [] m) as [[o1 tr1]|] eqn:R1; [|discriminate]. destruct (run ones [] m2) as [[o2 tr2]|] eqn:R2; [|discriminate].
  injection C1 as C1. injection C2 as C2.
  exists ob, (mkFitted (SFloat 2) p (post_of method m)), ys, m, m2, o2, tr2. cbn [ft_scale ft_prepared ft_posterior].
  split; [reflexivity|]. split; [left; reflexivity|]. split; [exact (comp_clean "normal")|]. split; [exact Y|]. split; [exact F|]. split; [reflexivity|].
  split; [|auto]. exists ones, o1, tr1. split; [exact R1|]. intros n _. now rewrite C1.
Qed.
(** the predictive keeps the posterior sample of every site but the target ... *)
Example C87_completes : completes_posterior ex_complete latent_names.
Proof. intros s key i m n j H. unfold ex_complete. simpl in H. intuition subst; reflexivity. Qed.
(** ... and a point guide draws the target only *)
Definition point_draw (u : unit) (k : Z) (i : nat) (m : prog arr) : env := fun n j => if String.eqb n "obs" then INR i else 2%R.
Example C87_point : point_guide point_draw latent_names tt (fun _ _ => 2%R) /\ forall i m, point_draw tt 0 i m "obs" 0%nat = INR i.
Proof. split; [|reflexivity]. intros key i m n j H. unfold point_draw. simpl in H. intuition subst; reflexivity. Qed.
(** two series with a piecewise trend *)
Example C87_panel : exists ob f f' d, pw_fit = (ob, Ok f) /\ one_or_piecewise pw_config ex_yh (o_trend ob) /\
  predictive_samples_dict ex_ns keep_all ex_transform ex_guide ex_complete pw_config ob f ex_yh (Some ex_X2) (Relative [1; 2]%Z) = (f', Ok d).
Proof.
  destruct ex_pw as (ob & f & f' & d & E & SP & _ & _ & _ & _ & _ & D). exists ob, f, f', d. split; [exact E|]. split; [|exact D].
  right. right. split; [apply ex_yh_panel|]. split; [|right; exact SP]. intros r H. simpl in H. intuition subst; simpl in *; intuition discriminate.
Qed.

(** * The flat trend with several series
    The full statement, [C87_parameters] without [one_or_piecewise], fails: the noise has one scale for each
    row of the frame passed to the trend (models.py:63-73, effects/trend/flat.py:56-57), so its shape depends
    on the horizon, and the posterior of the fit does not have the shape of the forecast model. *)
Definition flat_panel := fit_forecaster ex_ns sorted_sets keep_all ex_fit_transform ex_svi ex_nuts ex_latent hier_config (no_objects None) ex_yh None.
Definition shapes_run (m : prog arr) : option (list (string * list nat)) :=
  match run ones [] m with Ok (_, tr) => Some (map (fun x => (fst (fst x), snd x)) (parameters tr)) | Err _ => None end.
Definition flat_checks : option (option (list (string * list nat)) * option (list (string * list nat))) :=
  match flat_panel with
  | (ob, Ok f) =>
      match scale_y (discrete hier_config) (ft_scale f) ex_yh with
      | Err _ => None
      | Ok ys =>
          match fit_data ex_ns sorted_sets keep_all ex_fit_transform hier_config (no_objects None) (ft_scale f) ys None,
                predict_model ex_ns keep_all ex_transform hier_config ob f ex_yh None (Relative [1; 2; 3]%Z) with
          | (_, Ok (_, m)), Ok m2 => Some (shapes_run m, shapes_run m2)
          | _, _ => None
          end
      end
  | _ => None
  end.
Theorem C87_flat_refuted : exists ob f ys ob' p m m2 o o2 tr tr2, flat_panel = (ob, Ok f) /\
  scale_y (discrete hier_config) (ft_scale f) ex_yh = Ok ys /\
  fit_data ex_ns sorted_sets keep_all ex_fit_transform hier_config (no_objects None) (ft_scale f) ys None = (ob', Ok (p, m)) /\
  predict_model ex_ns keep_all ex_transform hier_config ob f ex_yh None (Relative [1; 2; 3]%Z) = Ok m2 /\
  run ones [] m = Ok (o, tr) /\ run ones [] m2 = Ok (o2, tr2) /\
  map (fun x => (fst (fst x), snd x)) (parameters tr) = [("trend_flat_coefficient", [1]); ("std_observation", [4]); ("corr_matrix", [4; 4])]%nat /\
  map (fun x => (fst (fst x), snd x)) (parameters tr2) = [("trend_flat_coefficient", [1]); ("std_observation", [6]); ("corr_matrix", [6; 6])]%nat.
Proof.
  assert (C : flat_checks = Some (Some [("trend_flat_coefficient", [1]); ("std_observation", [4]); ("corr_matrix", [4; 4])]%nat,
                                  Some [("trend_flat_coefficient", [1]); ("std_observation", [6]); ("corr_matrix", [6; 6])]%nat)) by (vm_compute; reflexivity).
  unfold flat_checks in C. destruct flat_panel as [ob [f|]] eqn:E0; [|discriminate]. destruct (scale_y _ _ _) as [ys|] eqn:E1; [|discriminate].
  destruct (fit_data _ _ _ _ _ _ _ _ _) as [ob' [[p m]|]] eqn:E2; [|discriminate]. destruct (predict_model _ _ _ _ _ _ _ _ _) as [m2|] eqn:E3; [|discriminate].
  injection C as C1 C2. unfold shapes_run in C1, C2. destruct (run ones [] m) as [[o tr]|] eqn:R1; [|discriminate]. destruct (run ones [] m2) as [[o2 tr2]|] eqn:R2; [|discriminate].
  injection C1 as C1. injection C2 as C2. exists ob, f, ys, ob', p, m, m2, o, o2, tr, tr2. repeat (split; [first [reflexivity|assumption]|]). assumption.
Qed.
Print Assumptions C87_flat_refuted.
