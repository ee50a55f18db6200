(** Properties C71 (complete forecasters) and C77: names of the sites, and the columns of
    [predict_all_sites].  The section variables stand for pandas, the feature transformer and the
    inference engine. *)
From Coq Require Import Reals String Bool ZArith List Lra Lia.
From Verif.Model Require Import Base Num XFloat Frame Arr Aggregate Scale Prog Likelihood Effect Engine Predict Forecaster.
From Verif.Spec Require Import FrameSpec ScaleSpec ProgSpec PredictSpec ForecasterSpec AlignSpec ShapeSpec SiteSpec ComponentSpec.
From Verif.Facts Require Import EffectExamples ForecasterExamples EngineExamples HistoryExamples AlignExamples SiteFacts ComponentFacts ComponentExamples.
Import ListNotations.
Local Open Scope string_scope.

Section Any.
Variable ns_of : Z -> Z.
Variable order : list string -> list string.
Variable keep : path -> bool.
Context {TS : Type}.
Variable tr_fit_transform : TS -> frame R -> TS * res (frame R).
Variable tr_transform : TS -> frame R -> res (frame R).
Context {P : Type}.
Variable svi_run : Z -> nat -> nat -> prog arr -> res (list xr * P).
Variable nuts_run : Z -> nat -> nat -> nat -> prog arr -> res (nat -> nat -> env).
Variable latent_sites : prog arr -> list string.
Variable guide_draw : P -> Z -> nat -> prog arr -> env.
Variable complete_draw : env -> Z -> nat -> prog arr -> env.
Notation fit_data := (fit_data ns_of order keep tr_fit_transform).
Notation fit_forecaster := (fit_forecaster ns_of order keep tr_fit_transform svi_run nuts_run latent_sites).
Notation predict_model := (predict_model ns_of keep tr_transform).
Notation forecast_all_sites := (forecast_all_sites ns_of keep tr_transform guide_draw complete_draw).
Notation draws := (draws guide_draw complete_draw).

(** * C71 *)
(** A fit with effect names that contain no '/' and clash with no fixed site name: in every run that
    computes a value the model records all its sites, under distinct names. *)
Theorem C71_fit : forall c ob s y X ob' p m, fit_data c ob s y X = (ob', Ok (p, m)) -> clean_config c ->
  forall e o, yields e m o -> exists tr, run e [] m = Ok (o, tr) /\ NoDup (map fst tr) /\ map fst tr = actions e m.
Proof. exact (c71_fit ns_of order keep tr_fit_transform). Qed.

(** The same for every later prediction, whatever trend or transformer object is then in place. *)
Theorem C71_predict : forall c ob y X ob' f, fit_forecaster c ob y X = (ob', Ok f) -> clean_config c ->
  forall ob2 y2 X2 fh m, predict_model c ob2 f y2 X2 fh = Ok m ->
  forall e o, yields e m o -> exists tr, run e [] m = Ok (o, tr) /\ NoDup (map fst tr) /\ map fst tr = actions e m.
Proof. exact (c71_predict ns_of order keep tr_fit_transform tr_transform svi_run nuts_run latent_sites). Qed.

(** * C77 *)
(** the columns of trend and effects *)
Notation components f := ("trend" :: map fst (p_effects (ft_prepared f))).

(** Normal likelihood: in every row the component columns add up to the scale times the mean over the
    posterior draws of the expected observation. *)
Theorem C77_normal : forall c ob y X ob' f u, fit_forecaster c ob y X = (ob', Ok f) -> clean_config c -> c_hier c = false ->
  f_levels y = 0%nat -> scalar_piecewise (o_trend ob') \/ flat_trend (o_trend ob') -> c_likelihood c = "normal" -> ft_scale f = SFloat u ->
  forall y2 X2 fh f' out, f_levels y2 = 0%nat -> forecast_all_sites c ob' f y2 X2 fh = (f', Ok out) ->
  exists m times exps, predict_model c ob' f y2 X2 fh = Ok m /\ fh_to_index y2 fh = Ok times /\
    Forall2 (fun e (ex : nat -> R) => exists o tr, run e [] m = Ok (o, tr) /\ forall k, k < List.length times -> expected tr k (ex k))
      (draws (engine_of c) (ft_posterior f) m) exps /\
    (forall r, In r (f_rows out) -> exists j, nth_error times j = Some (r_time r) /\
      adds_up out r (components f) (u * Rmean (map (fun ex => ex j) exps))) /\
    (forall t, In t times -> exists r, In r (f_rows out) /\ r_time r = t).
Proof. exact (c77_normal ns_of order keep tr_fit_transform tr_transform svi_run nuts_run latent_sites guide_draw complete_draw). Qed.

(** Gamma likelihood: the same if no expected observation is below the threshold of [_to_positive]. *)
Theorem C77_gamma : forall c ob y X ob' f u, fit_forecaster c ob y X = (ob', Ok f) -> clean_config c -> c_hier c = false ->
  f_levels y = 0%nat -> scalar_piecewise (o_trend ob') \/ flat_trend (o_trend ob') -> c_likelihood c = "gamma" -> ft_scale f = SFloat u ->
  forall y2 X2 fh f' out, f_levels y2 = 0%nat -> forecast_all_sites c ob' f y2 X2 fh = (f', Ok out) ->
  (forall m times e o tr, predict_model c ob' f y2 X2 fh = Ok m -> fh_to_index y2 fh = Ok times ->
     In e (draws (engine_of c) (ft_posterior f) m) -> run e [] m = Ok (o, tr) ->
     (0 < e "noise_scale" 0%nat)%R /\ forall k v, k < List.length times -> expected tr k v -> (/ 100000 <= v)%R) ->
  exists m times exps, predict_model c ob' f y2 X2 fh = Ok m /\ fh_to_index y2 fh = Ok times /\
    Forall2 (fun e (ex : nat -> R) => exists o tr, run e [] m = Ok (o, tr) /\ forall k, k < List.length times -> expected tr k (ex k))
      (draws (engine_of c) (ft_posterior f) m) exps /\
    (forall r, In r (f_rows out) -> exists j, nth_error times j = Some (r_time r) /\
      adds_up out r (components f) (u * Rmean (map (fun ex => ex j) exps))) /\
    (forall t, In t times -> exists r, In r (f_rows out) /\ r_time r = t).
Proof. exact (c77_gamma_expected ns_of order keep tr_fit_transform tr_transform svi_run nuts_run latent_sites guide_draw complete_draw). Qed.

(** Gamma likelihood in general: the expected observation is the positive transform of the sum. *)
Theorem C77_gamma_general : forall c ob y X ob' f u, fit_forecaster c ob y X = (ob', Ok f) -> clean_config c -> c_hier c = false ->
  f_levels y = 0%nat -> scalar_piecewise (o_trend ob') \/ flat_trend (o_trend ob') -> c_likelihood c = "gamma" -> ft_scale f = SFloat u ->
  forall y2 X2 fh f' out, f_levels y2 = 0%nat -> forecast_all_sites c ob' f y2 X2 fh = (f', Ok out) ->
  (forall m e, predict_model c ob' f y2 X2 fh = Ok m -> In e (draws (engine_of c) (ft_posterior f) m) -> (0 < e "noise_scale" 0%nat)%R) ->
  exists m times sums, predict_model c ob' f y2 X2 fh = Ok m /\ fh_to_index y2 fh = Ok times /\
    Forall2 (fun e (s : nat -> R) => exists o tr, run e [] m = Ok (o, tr) /\
        forall k, k < List.length times -> expected tr k (to_positive1 (/ 100000) (/ 10000000000) (s k)))
      (draws (engine_of c) (ft_posterior f) m) sums /\
    (forall r, In r (f_rows out) -> exists j, nth_error times j = Some (r_time r) /\
      adds_up out r (components f) (u * Rmean (map (fun s => s j) sums))) /\
    (forall t, In t times -> exists r, In r (f_rows out) /\ r_time r = t).
Proof. exact (c77_gamma ns_of order keep tr_fit_transform tr_transform svi_run nuts_run latent_sites guide_draw complete_draw). Qed.

(** Negative binomial likelihood: the columns add up to the expected observation divided by the scale. *)
Theorem C77_counts : forall c ob y X ob' f u, fit_forecaster c ob y X = (ob', Ok f) -> clean_config c -> c_hier c = false ->
  f_levels y = 0%nat -> scalar_piecewise (o_trend ob') \/ flat_trend (o_trend ob') -> c_likelihood c = "negbinomial" -> ft_scale f = SFloat u -> (0 < u)%R ->
  forall y2 X2 fh f' out, f_levels y2 = 0%nat -> forecast_all_sites c ob' f y2 X2 fh = (f', Ok out) ->
  (forall m times e o tr, predict_model c ob' f y2 X2 fh = Ok m -> fh_to_index y2 fh = Ok times ->
     In e (draws (engine_of c) (ft_posterior f) m) -> run e [] m = Ok (o, tr) ->
     forall k v, k < List.length times -> expected tr k v -> (u / 100000 <= v)%R) ->
  exists m times exps, predict_model c ob' f y2 X2 fh = Ok m /\ fh_to_index y2 fh = Ok times /\ exps <> [] /\
    Forall2 (fun e (ex : nat -> R) => exists o tr, run e [] m = Ok (o, tr) /\
        forall k, k < List.length times -> expected tr k (ex k) /\ (0 < ex k)%R)
      (draws (engine_of c) (ft_posterior f) m) exps /\
    (forall r, In r (f_rows out) -> exists j, nth_error times j = Some (r_time r) /\
      adds_up out r (components f) (Rmean (map (fun ex => ex j) exps) / u)) /\
    (forall t, In t times -> exists r, In r (f_rows out) /\ r_time r = t).
Proof. exact (c77_counts_expected ns_of order keep tr_fit_transform tr_transform svi_run nuts_run latent_sites guide_draw complete_draw). Qed.

(** So with any scale other than 1 they never add up to the expected observation. *)
Theorem C77_counts_units_refuted : forall c ob y X ob' f u, fit_forecaster c ob y X = (ob', Ok f) -> clean_config c -> c_hier c = false ->
  f_levels y = 0%nat -> scalar_piecewise (o_trend ob') \/ flat_trend (o_trend ob') -> c_likelihood c = "negbinomial" -> ft_scale f = SFloat u -> (0 < u)%R -> u <> 1%R ->
  forall y2 X2 fh f' out, f_levels y2 = 0%nat -> forecast_all_sites c ob' f y2 X2 fh = (f', Ok out) ->
  (forall m times e o tr, predict_model c ob' f y2 X2 fh = Ok m -> fh_to_index y2 fh = Ok times ->
     In e (draws (engine_of c) (ft_posterior f) m) -> run e [] m = Ok (o, tr) ->
     forall k v, k < List.length times -> expected tr k v -> (u / 100000 <= v)%R) ->
  forall m times exps, predict_model c ob' f y2 X2 fh = Ok m -> fh_to_index y2 fh = Ok times -> NoDup times ->
    Forall2 (fun e (ex : nat -> R) => exists o tr, run e [] m = Ok (o, tr) /\ forall k, k < List.length times -> expected tr k (ex k))
      (draws (engine_of c) (ft_posterior f) m) exps ->
    forall r j, In r (f_rows out) -> nth_error times j = Some (r_time r) -> ~ adds_up out r (components f) (Rmean (map (fun ex => ex j) exps)).
Proof. exact (c77_counts_refuted ns_of order keep tr_fit_transform tr_transform svi_run nuts_run latent_sites guide_draw complete_draw). Qed.

(** A panel of several series with a piecewise trend: each row has the components of its own series
    and date, in the units of its series. *)
Theorem C77_hierarchical : forall c ob y X ob' f (u : path -> R), fit_forecaster c ob y X = (ob', Ok f) -> clean_config c -> c_hier c = true ->
  f_levels y <> 0%nat -> frame_wf y -> (forall r, In r (f_rows y) -> ~ In "__total" (r_path r)) ->
  scalar_piecewise (o_trend ob') -> List.length (series_ids y) <> 1%nat ->
  forall y2 X2 fh f' out, f_levels y2 = f_levels y -> forecast_all_sites c ob' f y2 X2 fh = (f', Ok out) ->
  (forall q, In q (index_series (labeller_of c f y2)) -> scale_of (ft_scale f) q = Some (u q)) ->
  exists m times (exps : list (nat -> nat -> R)), predict_model c ob' f y2 X2 fh = Ok m /\ fh_to_index y2 fh = Ok times /\
    Forall2 (fun e ex => exists o tr, run e [] m = Ok (o, tr) /\
        forall i j, i < List.length (index_series (labeller_of c f y2)) -> j < List.length times -> expected_at tr i j (ex i j))
      (draws (engine_of c) (ft_posterior f) m) exps /\
    (forall r, In r (f_rows out) -> exists i j, nth_error (index_series (labeller_of c f y2)) i = Some (r_path r) /\ nth_error times j = Some (r_time r) /\
      adds_up out r (components f) (u (r_path r) * Rmean (map (fun ex => ex i j) exps))) /\
    (forall q t, In q (index_series (labeller_of c f y2)) -> In t times -> exists r, In r (f_rows out) /\ r_path r = q /\ r_time r = t).
Proof. exact (c77_panel ns_of order keep tr_fit_transform tr_transform svi_run nuts_run latent_sites guide_draw complete_draw). Qed.

(** A panel of one series. *)
Theorem C77_hierarchical_one_series : forall c ob y X ob' f u, fit_forecaster c ob y X = (ob', Ok f) -> clean_config c -> c_hier c = true ->
  f_levels y <> 0%nat -> frame_wf y -> (forall r, In r (f_rows y) -> ~ In "__total" (r_path r)) ->
  scalar_piecewise (o_trend ob') \/ flat_trend (o_trend ob') -> List.length (series_ids y) = 1%nat ->
  forall y2 X2 fh f' out, f_levels y2 = f_levels y -> forecast_all_sites c ob' f y2 X2 fh = (f', Ok out) ->
  (forall q, In q (index_series (labeller_of c f y2)) -> scale_of (ft_scale f) q = Some u) ->
  exists m times (exps : list (nat -> R)), predict_model c ob' f y2 X2 fh = Ok m /\ fh_to_index y2 fh = Ok times /\
    Forall2 (fun e (ex : nat -> R) => exists o tr, run e [] m = Ok (o, tr) /\ forall k, k < List.length times -> expected tr k (ex k))
      (draws (engine_of c) (ft_posterior f) m) exps /\
    (forall r, In r (f_rows out) -> exists j, nth_error times j = Some (r_time r) /\
      adds_up out r (components f) (u * Rmean (map (fun ex => ex j) exps))) /\
    (forall t, In t times -> exists r, In r (f_rows out) /\ r_time r = t).
Proof. exact (c77_one_series ns_of order keep tr_fit_transform tr_transform svi_run nuts_run latent_sites guide_draw complete_draw). Qed.
End Any.
Print Assumptions C71_fit.
Print Assumptions C71_predict.
Print Assumptions C77_normal.
Print Assumptions C77_gamma.
Print Assumptions C77_gamma_general.
Print Assumptions C77_counts.
Print Assumptions C77_counts_units_refuted.
Print Assumptions C77_hierarchical.
Print Assumptions C77_hierarchical_one_series.

(** Effects "tv" and "exogenous_variables_effect", flat trend, scale 2, two posterior draws, horizon of
    two dates: all three likelihoods. *)
Example C71_C77_nonvacuous : forall likelihood, In likelihood ["normal"; "gamma"; "negbinomial"] ->
  clean_config (comp_config likelihood) /\
  exists ob f f' out, comp_fit likelihood = (ob, Ok f) /\ comp_forecast likelihood ob f = (f', Ok out) /\ comp_out likelihood = Some out /\
    flat_trend (o_trend ob) /\ ft_scale f = SFloat 2 /\ map fst (p_effects (ft_prepared f)) = ["tv"; "exogenous_variables_effect"].
Proof. intros l H. split; [exact (comp_clean l)|exact (comp_runs l H)]. Qed.
(** the columns at the second date: 2 + 4 + 40 = 46 *)
Example C77_normal_values : comp_cell "normal" 9 "trend" = Some 2%R /\ comp_cell "normal" 9 "tv" = Some 4%R /\
  comp_cell "normal" 9 "exogenous_variables_effect" = Some 40%R /\ comp_cell "normal" 9 "obs" = Some 1%R.
Proof. exact comp_values. Qed.
Example C77_gamma_counts_nonvacuous : forall likelihood, In likelihood ["gamma"; "negbinomial"] -> forall ob f, comp_fit likelihood = (ob, Ok f) ->
  forall m times e o tr, predict_model ex_ns keep_all ex_transform (comp_config likelihood) ob f ex_y (Some Xf) (Relative [1; 2]%Z) = Ok m ->
    fh_to_index ex_y (Relative [1; 2]%Z) = Ok times -> In e (draws ex_guide ex_complete (engine_of (comp_config likelihood)) (ft_posterior f) m) ->
    run e [] m = Ok (o, tr) -> forall k v, k < List.length times -> expected tr k v -> (1 <= v)%R.
Proof. exact comp_positive. Qed.
Example C77_gamma_noise : all_ones "gamma".
Proof. exact comp_noise. Qed.
(** counts with scale 2: the columns add up to 23, the expected observation is 46 *)
Example C77_counts_values : comp_cell "negbinomial" 9 "trend" = Some 1%R /\ comp_cell "negbinomial" 9 "tv" = Some 2%R /\
  comp_cell "negbinomial" 9 "exogenous_variables_effect" = Some 20%R.
Proof. exact comp_counts. Qed.
Example C77_hierarchical_nonvacuous : clean_config pw_config /\ frame_wf ex_yh /\ List.length (series_ids ex_yh) = 2%nat /\
  exists ob f f' out, parts_fit = (ob, Ok f) /\ parts_forecast ob f = (f', Ok out) /\ scalar_piecewise (o_trend ob) /\
  map fst (p_effects (ft_prepared f)) = ["all"] /\ index_series (labeller_of pw_config f ex_yh) = [["a"]; ["b"]] /\
  exists k1 k2, ft_scale f = STable [(["a"], k1); (["b"], k2)].
Proof.
  split; [exact parts_clean|]. split; [|split; [reflexivity|exact parts_runs]].
  intros r H. simpl in H. repeat destruct H as [<-|H]; try (split; reflexivity). destruct H.
Qed.
