(** C105: the documented distribution of the observations (docs/the-theory.md:57-80 and 245-253). *)
From Coq Require Import Reals Lra String Bool ZArith List Sorted Permutation.
From Verif.Model Require Import Base Num XFloat Frame Arr Expand Aggregate Scale Prog Likelihood Effect Trend TrendProg Engine Forecaster.
From Verif.Spec Require Import FrameSpec ScaleSpec ProgSpec ForecasterSpec AlignSpec SiteSpec ShapeSpec CounterSpec OverlapSpec ResponseSpec ObservedSpec.
From Verif.Facts Require Import EffectExamples ForecasterExamples EngineExamples HistoryExamples ComponentExamples CounterExamples OverlapExamples ResponseExamples
  ObservedForecaster ObservedDocs ObservedRefuted ObservedExamples.
Import ListNotations.
Local Open Scope string_scope.

Section Any.
Variable ns_of : Z -> Z.
Variable order : list string -> list string.
Variable keep : path -> bool.
Context {TS : Type}.
Variable tr_fit_transform : TS -> frame R -> TS * res (frame R).
Variable tr_transform : TS -> frame R -> res (frame R).
Context {P : Type}.
Variable svi_run : Z -> nat -> nat -> prog arr -> res (list xr * P).
Variable nuts_run : Z -> nat -> nat -> nat -> prog arr -> res (nat -> nat -> env).
Variable latent_sites : prog arr -> list string.
Notation fit_forecaster := (fit_forecaster ns_of order keep tr_fit_transform svi_run nuts_run latent_sites).
Notation fit_data := (fit_data ns_of order keep tr_fit_transform).
Notation predict_model := (predict_model ns_of keep tr_transform).

(** * C105 *)
(** One series, training: every observed number is the number of [y] over its scale ([unit_of]; counts are not scaled), and
    its distribution is the configured likelihood around the sum of the recorded components.  Normal: mean the sum, standard
    deviation the noise parameter sigma.  Gamma: mean [link sum], variance sigma^2.  Negative binomial: mean
    scale * [link sum].  The noise parameter has the half-normal prior of the configuration. *)
Theorem C105_training : forall c ob y X ob' (f : fitted (P := P)), fit_forecaster c ob y X = (ob', Ok f) -> clean_config c -> c_hier c = false -> f_levels y = 0 -> one_column y -> NoDup (map r_time (f_rows y)) ->
  (scalar_piecewise (o_trend ob') \/ flat_trend (o_trend ob') /\ o_transformer ob = None /\ match X with None => True | Some X => NoDup (labels X) end) ->
  exists ys m, scale_y (discrete c) (ft_scale f) y = Ok ys /\ fit_data c ob (ft_scale f) ys X = (ob', Ok (ft_prepared f, m)) /\ infer svi_run nuts_run latent_sites (engine_of c) m = Ok (ft_posterior f) /\
  forall e o tr, run e [] m = Ok (o, tr) -> noise_parameter e tr "noise_scale" (c_noise c) /\
  exists d v, dict_get tr "obs" = Some (SSample d v true) /\ a_shape v = [List.length (f_rows y); 1] /\
  forall k r x u, nth_error (f_rows y) k = Some r -> r_vals r = [x] -> unit_of (discrete c) (ft_scale f) (r_path r) u ->
    nth_error (a_flat v) k = Some (x / u)%R /\ exists s, level tr (map fst (p_effects (ft_prepared f))) k s /\ law (c_likelihood c) (scale_number (ft_scale f)) (e "noise_scale" 0%nat) d k s.
Proof. exact (c105_training ns_of order keep tr_fit_transform svi_run nuts_run latent_sites). Qed.

(** One series, forecast: the same distributions at every requested date, and nothing is observed. *)
Theorem C105_forecast : forall c ob y X ob' (f : fitted (P := P)), fit_forecaster c ob y X = (ob', Ok f) -> clean_config c -> c_hier c = false -> f_levels y = 0 ->
  scalar_piecewise (o_trend ob') \/ flat_trend (o_trend ob') ->
  forall y2 X2 fh m cutoff ts Xt, predict_model c ob' f y2 X2 fh = Ok m -> max_time (map r_time (f_rows y2)) = Ok cutoff -> to_absolute cutoff fh = ts ->
  run_transform tr_transform ob' (supplied X2 ts) = Ok Xt -> covers Xt ts -> f_levels Xt = 0 ->
  forall e o tr, run e [] m = Ok (o, tr) -> noise_parameter e tr "noise_scale" (c_noise c) /\
  exists d, dict_get tr "obs" = Some (SSample d (mkArr [List.length ts; 1] (map (e "obs") (seq 0 (List.length ts)))) false) /\
  forall k, (k < List.length ts)%nat -> exists s, level tr (map fst (p_effects (ft_prepared f))) k s /\ law (c_likelihood c) (scale_number (ft_scale f)) (e "noise_scale" 0%nat) d k s.
Proof. exact (c105_forecast ns_of order keep tr_fit_transform tr_transform svi_run nuts_run latent_sites). Qed.

(** Panels, training: the matrix of observations has a row for every date and a column for every series, and the rows are
    jointly normal around the sums of the components of the series.  A panel of one series has a normal likelihood.
    (That the covariance is not the documented one is C49.) *)
Theorem C105_panel_training : forall c ob y X ob' (f : fitted (P := P)), fit_forecaster c ob y X = (ob', Ok f) -> clean_config c -> c_hier c = true -> f_levels y <> 0 -> one_column y ->
  (forall r, In r (f_rows y) -> ~ In "__total" (r_path r)) -> scalar_piecewise (o_trend ob') ->
  forall ids ts, rectangle y ids ts -> ids <> [] -> ts <> [] ->
  exists ys m, scale_y (discrete c) (ft_scale f) y = Ok ys /\ fit_data c ob (ft_scale f) ys X = (ob', Ok (ft_prepared f, m)) /\ infer svi_run nuts_run latent_sites (engine_of c) m = Ok (ft_posterior f) /\
  forall n e o tr, run e [] m = Ok (o, tr) -> List.length ids = n ->
  exists d v, dict_get tr "obs" = Some (SSample d v true) /\ a_shape v = [List.length ts; n] /\
  (forall p t i j r x u, nth_error ids i = Some p -> nth_error ts j = Some t -> In r (f_rows y) -> r_path r = p -> r_time r = t -> r_vals r = [x] -> unit_of (discrete c) (ft_scale f) p u ->
     nth_error (a_flat v) (j * n + i) = Some (x / u)%R) /\
  (n = 1 -> noise_parameter e tr "std_observation" (c_noise c) /\
     forall j, (j < List.length ts)%nat -> exists s, level tr (map fst (p_effects (ft_prepared f))) j s /\ law "normal" 1 (e "std_observation" 0%nat) d j s) /\
  (n <> 1 -> noise_parameters e tr n (c_noise c) (c_concentration c) /\
     exists sum, (forall i j, (i < n)%nat -> (j < List.length ts)%nat -> level tr (map fst (p_effects (ft_prepared f))) (i * List.length ts + j) (sum i j)) /\ joint_law e d n (List.length ts) sum).
Proof. exact (c105_panel_training ns_of order keep tr_fit_transform svi_run nuts_run latent_sites). Qed.

(** Panels, forecast. *)
Theorem C105_panel_forecast : forall c ob y X ob' (f : fitted (P := P)), fit_forecaster c ob y X = (ob', Ok f) -> clean_config c -> c_hier c = true -> f_levels y <> 0 -> frame_wf y ->
  (forall r, In r (f_rows y) -> ~ In "__total" (r_path r)) -> scalar_piecewise (o_trend ob') ->
  forall y2 X2 fh m cutoff ts, predict_model c ob' f y2 X2 fh = Ok m -> max_time (map snd (p_index (ft_prepared f))) = Ok cutoff -> to_absolute cutoff fh = ts -> in_order ts ->
  forall n e o tr, run e [] m = Ok (o, tr) -> List.length (series_ids y) = n ->
  (n = 1 -> noise_parameter e tr "std_observation" (c_noise c) /\
     exists d, dict_get tr "obs" = Some (SSample d (mkArr [List.length ts; 1] (map (e "obs") (seq 0 (List.length ts)))) false) /\
     forall j, (j < List.length ts)%nat -> exists s, level tr (map fst (p_effects (ft_prepared f))) j s /\ law "normal" 1 (e "std_observation" 0%nat) d j s) /\
  (n <> 1 -> noise_parameters e tr n (c_noise c) (c_concentration c) /\
     exists d sum, dict_get tr "obs" = Some (SSample d (mkArr [1; List.length ts; n] (map (e "obs") (seq 0 (List.length ts * n)))) false) /\
     (forall i j, (i < n)%nat -> (j < List.length ts)%nat -> level tr (map fst (p_effects (ft_prepared f))) (i * List.length ts + j) (sum i j)) /\ joint_law e d n (List.length ts) sum).
Proof. exact (c105_panel_forecast ns_of order keep tr_fit_transform tr_transform svi_run nuts_run latent_sites). Qed.

(** ** The documented map to positive numbers
    Above the threshold it is the identity and the sum itself is the mean; between, the code agrees with the documentation;
    the mean is always positive. *)
Theorem C105_link : forall s, (0 < link s)%R /\ ((1 / 100000 < s)%R -> link s = s) /\ ((1 / 10000000000 <= documented_link s)%R -> link s = documented_link s).
Proof. intros s. split; [apply link_pos|]. split; [apply link_identity|apply link_documented]. Qed.
(** Documented: the mean is phi(sum) for every sum (the-theory.md:69-77).  Refuted: below -100000 the mean of every such
    gamma forecast is 1e-10, greater than phi(sum). *)
Theorem C105_link_refuted : forall c ob y X ob' (f : fitted (P := P)), fit_forecaster c ob y X = (ob', Ok f) -> clean_config c -> c_hier c = false -> f_levels y = 0 -> c_likelihood c = "gamma" ->
  scalar_piecewise (o_trend ob') \/ flat_trend (o_trend ob') ->
  forall y2 X2 fh m cutoff ts Xt, predict_model c ob' f y2 X2 fh = Ok m -> max_time (map r_time (f_rows y2)) = Ok cutoff -> to_absolute cutoff fh = ts ->
  run_transform tr_transform ob' (supplied X2 ts) = Ok Xt -> covers Xt ts -> f_levels Xt = 0 ->
  forall e o tr k s, run e [] m = Ok (o, tr) -> (k < List.length ts)%nat -> (0 < e "noise_scale" 0%nat)%R -> level tr (map fst (p_effects (ft_prepared f))) k s -> (s <= -100000)%R ->
  exists a b v x r, dict_get tr "obs" = Some (SSample (DGamma a b) v false) /\ nth_error (a_flat a) k = Some x /\ nth_error (a_flat b) k = Some r /\ gamma_mean x r = (1 / 10000000000)%R /\ (documented_link s < gamma_mean x r)%R.
Proof. exact (c105_floor ns_of order keep tr_fit_transform tr_transform svi_run nuts_run latent_sites). Qed.
(** Documented: the negative binomial has variance sigma^2 (the-theory.md:63-66).  Refuted: with the same components and a
    greater noise parameter the variance is smaller, so that it is no increasing function of sigma. *)
Theorem C105_counts_variance_refuted : forall c ob y X ob' (f : fitted (P := P)), fit_forecaster c ob y X = (ob', Ok f) -> clean_config c -> c_hier c = false -> f_levels y = 0 -> c_likelihood c = "negbinomial" -> (0 < scale_number (ft_scale f))%R ->
  scalar_piecewise (o_trend ob') \/ flat_trend (o_trend ob') ->
  forall y2 X2 fh m cutoff ts Xt, predict_model c ob' f y2 X2 fh = Ok m -> max_time (map r_time (f_rows y2)) = Ok cutoff -> to_absolute cutoff fh = ts ->
  run_transform tr_transform ob' (supplied X2 ts) = Ok Xt -> covers Xt ts -> f_levels Xt = 0 ->
  forall e o tr e' o' tr' k, run e [] m = Ok (o, tr) -> run e' [] m = Ok (o', tr') -> (k < List.length ts)%nat -> (0 < e "noise_scale" 0%nat < e' "noise_scale" 0%nat)%R ->
  (forall n, In n ("trend" :: map fst (p_effects (ft_prepared f))) -> dict_get tr n = dict_get tr' n) ->
  exists a b v x r a' b' v' x' r', dict_get tr "obs" = Some (SSample (DNegBinomial2 a b) v false) /\ nth_error (a_flat a) k = Some x /\ nth_error (a_flat b) k = Some r /\
    dict_get tr' "obs" = Some (SSample (DNegBinomial2 a' b') v' false) /\ nth_error (a_flat a') k = Some x' /\ nth_error (a_flat b') k = Some r' /\
    nb2_mean x' r' = nb2_mean x r /\ (nb2_mean x' r' < nb2_var x' r' < nb2_var x r)%R.
Proof. exact (c105_counts ns_of order keep tr_fit_transform tr_transform svi_run nuts_run latent_sites). Qed.
End Any.

Print Assumptions C105_training.
Print Assumptions C105_forecast.
Print Assumptions C105_panel_training.
Print Assumptions C105_panel_forecast.
Print Assumptions C105_link.
Print Assumptions C105_link_refuted.
Print Assumptions C105_counts_variance_refuted.

(** The three likelihoods with the data 3, 4, 8 and scale 2: observed are 3/2 (normal), 8/2 (gamma) and 4 (counts); with all
    parameters one the sum of the components of the first day is 12. *)
Example C105_training_nonvacuous : one_column ex_y /\ NoDup (map r_time (f_rows ex_y)) /\ NoDup (labels Xu) /\
  (forall likelihood, In likelihood ["normal"; "gamma"; "negbinomial"] -> clean_config (comp_config likelihood) /\
   exists ob f ys m o tr, comp_fit likelihood = (ob, Ok f) /\ flat_trend (o_trend ob) /\ ft_scale f = SFloat 2 /\ map fst (p_effects (ft_prepared f)) = ["tv"; "exogenous_variables_effect"] /\
    scale_y (discrete (comp_config likelihood)) (ft_scale f) ex_y = Ok ys /\
    fit_data ex_ns sorted_sets keep_all ex_fit_transform (comp_config likelihood) (no_objects None) (ft_scale f) ys (Some Xu) = (ob, Ok (ft_prepared f, m)) /\
    run one [] m = Ok (o, tr) /\ comp_training likelihood = Some tr) /\
  seen_in (comp_training "normal") "obs" 0 = Some (3 / 2)%R /\ seen_in (comp_training "gamma") "obs" 2 = Some (8 / 2)%R /\ seen_in (comp_training "negbinomial") "obs" 1 = Some 4%R /\
  mean_at (comp_training "normal") 0 = Some 12%R.
Proof. split; [apply comp_y|]. split; [apply comp_y|]. split; [apply comp_y|]. split; [|exact comp_targets]. intros l H. split; [apply comp_clean|exact (comp_trained l H)]. Qed.
(** Forecasts for the days 8 and 9. *)
Example C105_forecast_nonvacuous : covers Xo [8; 9]%Z /\ forall likelihood, In likelihood ["normal"; "gamma"; "negbinomial"] ->
  exists ob f m o tr, comp_fit likelihood = (ob, Ok f) /\ o_transformer ob = None /\ flat_trend (o_trend ob) /\
    predict_model ex_ns keep_all ex_transform (comp_config likelihood) ob f ex_y (Some Xo) (Relative [1; 2]%Z) = Ok m /\ run one [] m = Ok (o, tr).
Proof.
  split; [apply Xo_covers|]. intros l H. destruct (steps_univariate l H) as (ob & f & m & _ & o & tr & _ & _ & HF & T & FT & HM & _ & RU & _). exists ob, f, m, o, tr. do 4 (split; [assumption|]). exact RU.
Qed.
(** Two series and two days: date 0 comes first, with the first values 1 and 3 of both series over their scales. *)
Example C105_panel_training_nonvacuous : rectangle ex_yh [["a"]; ["b"]] [0; 1]%Z /\ one_column ex_yh /\ (forall r, In r (f_rows ex_yh) -> ~ In "__total" (r_path r)) /\ clean_config two_config /\
  exists ob f k1 k2 ys m o tr, two_fit = (ob, Ok f) /\ scalar_piecewise (o_trend ob) /\ ft_scale f = STable [(["a"], k1); (["b"], k2)] /\ map fst (p_effects (ft_prepared f)) = ["tv"; "web"] /\
  scale_y (discrete two_config) (ft_scale f) ex_yh = Ok ys /\ fit_data ex_ns sorted_sets keep_all ex_fit_transform two_config (no_objects None) (ft_scale f) ys (Some ex_Xh) = (ob, Ok (ft_prepared f, m)) /\
  run one [] m = Ok (o, tr) /\ seen_in (Some tr) "obs" 0 = Some (1 / k1)%R /\ seen_in (Some tr) "obs" 1 = Some (3 / k2)%R.
Proof. split; [exact yh_rectangle|]. split; [exact yh_one|]. split; [exact yh_no_total|]. split; [exact two_clean|exact two_trained]. Qed.
(** Its forecast for the days 2 and 3. *)
Example C105_panel_forecast_nonvacuous : frame_wf ex_yh /\ List.length (series_ids ex_yh) = 2 /\ in_order [2; 3]%Z /\
  exists ob f m o tr, two_fit = (ob, Ok f) /\ scalar_piecewise (o_trend ob) /\ max_time (map snd (p_index (ft_prepared f))) = Ok 1%Z /\
  predict_model ex_ns keep_all ex_transform two_config ob f ex_yh (Some ex_X2) (Relative [1; 2]%Z) = Ok m /\ run one [] m = Ok (o, tr).
Proof.
  split; [exact yh_wf|]. split; [reflexivity|]. split; [repeat constructor|]. destruct panel_example as (ob & f & m & o & tr & HF & _ & SP & MT & HM & RU & _). exists ob, f, m, o, tr. do 4 (split; [assumption|]). exact RU.
Qed.
(** A panel of one series: training and forecast. *)
Example C105_one_series_nonvacuous : one_column lone_y /\ (forall r, In r (f_rows lone_y) -> ~ In "__total" (r_path r)) /\ rectangle lone_y [["a"]] [0; 1]%Z /\ List.length (series_ids lone_y) = 1 /\
  exists ob f k1 ys m m2 o tr o2 tr2, lone_fit = (ob, Ok f) /\ scalar_piecewise (o_trend ob) /\ ft_scale f = STable [(["a"], k1)] /\ map fst (p_effects (ft_prepared f)) = ["tv"; "web"] /\ max_time (map snd (p_index (ft_prepared f))) = Ok 1%Z /\
  scale_y (discrete two_config) (ft_scale f) lone_y = Ok ys /\ fit_data ex_ns sorted_sets keep_all ex_fit_transform two_config (no_objects None) (ft_scale f) ys (Some lone_X) = (ob, Ok (ft_prepared f, m)) /\
  run one [] m = Ok (o, tr) /\ seen_in (Some tr) "obs" 1 = Some (2 / k1)%R /\
  predict_model ex_ns keep_all ex_transform two_config ob f lone_y (Some lone_X2) (Relative [1; 2]%Z) = Ok m2 /\ run one [] m2 = Ok (o2, tr2).
Proof. destruct lone_y_ok as (A & B & C & D). do 4 (split; [assumption|]). exact lone_example. Qed.
(** A gamma forecast with components -200000, -200000 and -2000000, and two forecasts of counts with noise 1 and 2. *)
Example C105_refuted_nonvacuous :
  (exists ob f m o tr s, comp_fit "gamma" = (ob, Ok f) /\ o_transformer ob = None /\ flat_trend (o_trend ob) /\ predict_model ex_ns keep_all ex_transform (comp_config "gamma") ob f ex_y (Some Xo) hs1 = Ok m /\
    run deep [] m = Ok (o, tr) /\ level tr (map fst (p_effects (ft_prepared f))) 0 s /\ (s <= -100000)%R) /\
  (exists ob f m o tr o' tr', comp_fit "negbinomial" = (ob, Ok f) /\ o_transformer ob = None /\ flat_trend (o_trend ob) /\ ft_scale f = SFloat 2 /\ predict_model ex_ns keep_all ex_transform (comp_config "negbinomial") ob f ex_y (Some Xo) hs1 = Ok m /\
    run one [] m = Ok (o, tr) /\ run loud [] m = Ok (o', tr') /\ (forall n, In n ("trend" :: map fst (p_effects (ft_prepared f))) -> dict_get tr n = dict_get tr' n)).
Proof. split; [exact deep_example|exact loud_example]. Qed.
