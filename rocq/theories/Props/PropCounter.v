(** C98: scenarios which change the data of some effects change only these components. *)
From Coq Require Import Reals String Bool ZArith List.
From Verif.Model Require Import Base Num XFloat Frame Arr Expand Aggregate Scale Prog Likelihood Effect Trend TrendProg Engine Forecaster.
From Verif.Spec Require Import FrameSpec ProgSpec ForecasterSpec AlignSpec ShapeSpec SiteSpec ComponentSpec CounterSpec.
From Verif.Facts Require Import EffectExamples ForecasterExamples EngineExamples HistoryExamples AlignExamples ComponentExamples CounterForecast CounterExamples.
Import ListNotations.
Local Open Scope string_scope.

Section Any.
Variable ns_of : Z -> Z.
Variable order : list string -> list string.
Variable keep : path -> bool.
Context {TS : Type}.
Variable tr_fit_transform : TS -> frame R -> TS * res (frame R).
Variable tr_transform : TS -> frame R -> res (frame R).
Context {P : Type}.
Variable svi_run : Z -> nat -> nat -> prog arr -> res (list xr * P).
Variable nuts_run : Z -> nat -> nat -> nat -> prog arr -> res (nat -> nat -> env).
Variable latent_sites : prog arr -> list string.
Notation fit_forecaster := (fit_forecaster ns_of order keep tr_fit_transform svi_run nuts_run latent_sites).
Notation predict_model := (predict_model ns_of keep tr_transform).

(** * C98 *)
(** A fitted forecaster without feature transformer, either class, any trend, any likelihood; two sets of
    exogenous data which differ only in the columns of [S]; the same values of the parameters.  Then both
    runs record the same value, with the same distribution, at every site except the observations and the
    sites of the effects fitted on a column of [S] (hierarchical: or on a copy of such a column). *)
Theorem C98_elsewhere : forall c ob y X ob' (f : fitted (P := P)), fit_forecaster c ob y X = (ob', Ok f) -> clean_config c -> o_transformer ob' = None ->
  forall y2 S X1 X2 fh m1 m2 e o1 tr1 o2 tr2,
  agree_except S X1 X2 -> rectangular X1 -> rectangular X2 ->
  predict_model c ob' f y2 (Some X1) fh = Ok m1 -> predict_model c ob' f y2 (Some X2) fh = Ok m2 ->
  run e [] m1 = Ok (o1, tr1) -> run e [] m2 = Ok (o2, tr2) ->
  same_elsewhere (c_hier c) S (p_fitted (ft_prepared f)) tr1 tr2.
Proof. exact (c98_elsewhere ns_of order keep tr_fit_transform tr_transform svi_run nuts_run latent_sites). Qed.

(** One effect is affected: the expected observations change by exactly the change of its component. *)
Theorem C98_normal : forall c ob y X ob' (f : fitted (P := P)), fit_forecaster c ob y X = (ob', Ok f) -> clean_config c -> o_transformer ob' = None ->
  c_hier c = false -> f_levels y = 0 -> scalar_piecewise (o_trend ob') \/ flat_trend (o_trend ob') ->
  forall y2 S X1 X2 fh m1 m2 e o1 tr1 o2 tr2 name, c_likelihood c = "normal" ->
  agree_except S X1 X2 -> rectangular X1 -> rectangular X2 ->
  predict_model c ob' f y2 (Some X1) fh = Ok m1 -> predict_model c ob' f y2 (Some X2) fh = Ok m2 ->
  run e [] m1 = Ok (o1, tr1) -> run e [] m2 = Ok (o2, tr2) ->
  In name (map fst (p_effects (ft_prepared f))) -> (forall n, n <> name -> ~ affected false S (p_fitted (ft_prepared f)) n) ->
  exists a1 a2, dict_get tr1 name = Some (SDet a1) /\ dict_get tr2 name = Some (SDet a2) /\
    forall k x1 x2, expected tr1 k x1 -> expected tr2 k x2 -> (x1 - x2 = entry a1 k - entry a2 k)%R.
Proof. exact (c98_normal ns_of order keep tr_fit_transform tr_transform svi_run nuts_run latent_sites). Qed.

(** The same for the gamma likelihood, where both expected observations are not tiny ... *)
Theorem C98_gamma : forall c ob y X ob' (f : fitted (P := P)), fit_forecaster c ob y X = (ob', Ok f) -> clean_config c -> o_transformer ob' = None ->
  c_hier c = false -> f_levels y = 0 -> scalar_piecewise (o_trend ob') \/ flat_trend (o_trend ob') ->
  forall y2 S X1 X2 fh m1 m2 e o1 tr1 o2 tr2 name, c_likelihood c = "gamma" -> (0 < e "noise_scale" 0%nat)%R ->
  agree_except S X1 X2 -> rectangular X1 -> rectangular X2 ->
  predict_model c ob' f y2 (Some X1) fh = Ok m1 -> predict_model c ob' f y2 (Some X2) fh = Ok m2 ->
  run e [] m1 = Ok (o1, tr1) -> run e [] m2 = Ok (o2, tr2) ->
  In name (map fst (p_effects (ft_prepared f))) -> (forall n, n <> name -> ~ affected false S (p_fitted (ft_prepared f)) n) ->
  exists a1 a2, dict_get tr1 name = Some (SDet a1) /\ dict_get tr2 name = Some (SDet a2) /\
    forall k x1 x2, k < List.length (a_flat a1) -> expected tr1 k x1 -> expected tr2 k x2 ->
      (/ 100000 <= x1)%R -> (/ 100000 <= x2)%R -> (x1 - x2 = entry a1 k - entry a2 k)%R.
Proof. exact (c98_gamma ns_of order keep tr_fit_transform tr_transform svi_run nuts_run latent_sites). Qed.

(** ... and, in multiples of the scale, for counts. *)
Theorem C98_negbinomial : forall c ob y X ob' (f : fitted (P := P)), fit_forecaster c ob y X = (ob', Ok f) -> clean_config c -> o_transformer ob' = None ->
  c_hier c = false -> f_levels y = 0 -> scalar_piecewise (o_trend ob') \/ flat_trend (o_trend ob') ->
  forall u y2 S X1 X2 fh m1 m2 e o1 tr1 o2 tr2 name, c_likelihood c = "negbinomial" -> ft_scale f = SFloat u -> (0 < u)%R ->
  agree_except S X1 X2 -> rectangular X1 -> rectangular X2 ->
  predict_model c ob' f y2 (Some X1) fh = Ok m1 -> predict_model c ob' f y2 (Some X2) fh = Ok m2 ->
  run e [] m1 = Ok (o1, tr1) -> run e [] m2 = Ok (o2, tr2) ->
  In name (map fst (p_effects (ft_prepared f))) -> (forall n, n <> name -> ~ affected false S (p_fitted (ft_prepared f)) n) ->
  exists a1 a2, dict_get tr1 name = Some (SDet a1) /\ dict_get tr2 name = Some (SDet a2) /\
    forall k x1 x2, k < List.length (a_flat a1) -> expected tr1 k x1 -> expected tr2 k x2 ->
      (u / 100000 <= x1)%R -> (u / 100000 <= x2)%R -> (x1 - x2 = u * (entry a1 k - entry a2 k))%R.
Proof. exact (c98_negbinomial ns_of order keep tr_fit_transform tr_transform svi_run nuts_run latent_sites). Qed.

(** Several series: the expected observation of series [i] at time [j] changes by the change of the
    component there. *)
Theorem C98_hierarchical : forall c ob y X ob' (f : fitted (P := P)), fit_forecaster c ob y X = (ob', Ok f) -> clean_config c -> o_transformer ob' = None ->
  forall y2 S X1 X2 fh m1 m2 e o1 tr1 o2 tr2 name, c_hier c = true -> f_levels y <> 0 -> frame_wf y ->
  (forall r, In r (f_rows y) -> ~ In "__total" (r_path r)) -> scalar_piecewise (o_trend ob') -> List.length (series_ids y) <> 1 ->
  agree_except S X1 X2 -> rectangular X1 -> rectangular X2 ->
  predict_model c ob' f y2 (Some X1) fh = Ok m1 -> predict_model c ob' f y2 (Some X2) fh = Ok m2 ->
  run e [] m1 = Ok (o1, tr1) -> run e [] m2 = Ok (o2, tr2) ->
  In name (map fst (p_effects (ft_prepared f))) -> (forall n, n <> name -> ~ affected true S (p_fitted (ft_prepared f)) n) ->
  exists a1 a2 T, dict_get tr1 name = Some (SDet a1) /\ dict_get tr2 name = Some (SDet a2) /\
    a_shape a1 = [List.length (series_ids y); T; 1] /\ a_shape a2 = [List.length (series_ids y); T; 1] /\
    forall i j x1 x2, i < List.length (series_ids y) -> j < T -> expected_at tr1 i j x1 -> expected_at tr2 i j x2 ->
      (x1 - x2 = aget a1 [i; j; 0%nat] - aget a2 [i; j; 0%nat])%R.
Proof. exact (c98_hierarchical ns_of order keep tr_fit_transform tr_transform svi_run nuts_run latent_sites). Qed.
End Any.

Print Assumptions C98_elsewhere.
Print Assumptions C98_normal.
Print Assumptions C98_gamma.
Print Assumptions C98_negbinomial.
Print Assumptions C98_hierarchical.

(** three likelihoods, advertising changed on the second day: only the effect "tv" is affected *)
Example C98_nonvacuous_univariate : agree_except ["tv"] Xf Xg /\ rectangular Xf /\ rectangular Xg /\
  forall likelihood, In likelihood ["normal"; "gamma"; "negbinomial"] -> clean_config (comp_config likelihood) /\
  exists ob f m1 m2 o1 tr1 o2 tr2, comp_fit likelihood = (ob, Ok f) /\ o_transformer ob = None /\ flat_trend (o_trend ob) /\ ft_scale f = SFloat 2 /\
    predict_model ex_ns keep_all ex_transform (comp_config likelihood) ob f ex_y (Some Xf) (Relative [1; 2]%Z) = Ok m1 /\
    predict_model ex_ns keep_all ex_transform (comp_config likelihood) ob f ex_y (Some Xg) (Relative [1; 2]%Z) = Ok m2 /\
    run one [] m1 = Ok (o1, tr1) /\ run one [] m2 = Ok (o2, tr2) /\
    affected false ["tv"] (p_fitted (ft_prepared f)) "tv" /\ (forall n, n <> "tv" -> ~ affected false ["tv"] (p_fitted (ft_prepared f)) n) /\
    map fst (p_effects (ft_prepared f)) = ["tv"; "exogenous_variables_effect"].
Proof.
  split; [exact Xg_agree|]. split; [exact Xf_rectangular|]. split; [exact Xg_rectangular|]. intros l H. split; [exact (comp_clean l)|].
  destruct (scenario_univariate l H) as (ob & f & m1 & m2 & o1 & tr1 & o2 & tr2 & H1 & H2 & H3 & H4 & H5 & H6 & H7 & H8 & _ & _ & H9 & H10).
  destruct (only_tv _ H9). exists ob, f, m1, m2, o1, tr1, o2, tr2. repeat (split; [assumption|]). assumption.
Qed.
(** the component grows from 2 to 4 and the expected observation from 23 to 25 *)
Example C98_values : seen_in (scenario_run "normal" Xf) "tv" 1 = Some 2%R /\ seen_in (scenario_run "normal" Xg) "tv" 1 = Some 4%R /\
  seen_in (scenario_run "normal" Xf) "exogenous_variables_effect" 1 = Some 20%R /\ seen_in (scenario_run "normal" Xg) "exogenous_variables_effect" 1 = Some 20%R /\
  mean_at (scenario_run "normal" Xf) 1 = Some 23%R /\ mean_at (scenario_run "normal" Xg) 1 = Some 25%R.
Proof. exact scenario_values. Qed.
(** two series, one effect per column *)
Example C98_nonvacuous_hierarchical : agree_except ["tv"] ex_X2 ex_X3 /\ rectangular ex_X2 /\ rectangular ex_X3 /\ clean_config two_config /\
  frame_wf ex_yh /\ List.length (series_ids ex_yh) = 2%nat /\
  exists ob f m1 m2 o1 tr1 o2 tr2, two_fit = (ob, Ok f) /\ o_transformer ob = None /\ scalar_piecewise (o_trend ob) /\
  predict_model ex_ns keep_all ex_transform two_config ob f ex_yh (Some ex_X2) (Relative [1; 2]%Z) = Ok m1 /\
  predict_model ex_ns keep_all ex_transform two_config ob f ex_yh (Some ex_X3) (Relative [1; 2]%Z) = Ok m2 /\
  run one [] m1 = Ok (o1, tr1) /\ run one [] m2 = Ok (o2, tr2) /\
  affected true ["tv"] (p_fitted (ft_prepared f)) "tv" /\ (forall n, n <> "tv" -> ~ affected true ["tv"] (p_fitted (ft_prepared f)) n) /\
  map fst (p_effects (ft_prepared f)) = ["tv"; "web"].
Proof.
  split; [exact X3_agree|]. split; [exact X2_rectangular|]. split; [exact X3_rectangular|]. split; [exact two_clean|].
  split; [intros r H; simpl in H; repeat destruct H as [<-|H]; try (split; reflexivity); destruct H|]. split; [reflexivity|].
  destruct scenario_hierarchical as (ob & f & m1 & m2 & o1 & tr1 & o2 & tr2 & H1 & H2 & H3 & H4 & H5 & H6 & H7 & H8 & H9).
  destruct (only_tv_copies _ H8). exists ob, f, m1, m2, o1, tr1, o2, tr2. repeat (split; [assumption|]). assumption.
Qed.
