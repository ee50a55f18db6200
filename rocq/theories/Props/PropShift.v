(** Property C90: the origin of the calendar does not matter.  If all dates are moved by the same number of steps
    (target, X, absolute horizons and the dates of lift tests), and steps are equally long, then the fit gives the same
    scale, the same model, the same posterior and the same errors, and every kind of forecast is the same frame with
    its dates moved.  All theorems hold for every optimiser, sampler, aggregation and transformer (the section
    variables). *)
From Coq Require Import Reals String Bool ZArith List Lra Lia.
From Verif.Model Require Import Base Num XFloat Regex Frame Arr Expand Aggregate Scale Predict Prog Likelihood Trend Effect
  TrendProg Engine Forecaster.
From Verif.Spec Require Import ShiftSpec.
From Verif.Facts Require Import NumFacts EffectExamples ForecasterExamples EngineExamples HistoryExamples ComponentExamples AlignExamples
  ShiftFacts ShiftForecaster.
Import ListNotations.
Local Open Scope string_scope.

Section Any.
Variable k : Z.
Variable delta : R.
Variable ns_of : Z -> Z.
Variable order : list string -> list string.
Variable keep : path -> bool.
Context {TS : Type}.
Variable tr_fit_transform : TS -> frame R -> TS * res (frame R).
Variable tr_transform : TS -> frame R -> res (frame R).
Context {P : Type}.
Variable svi_run : Z -> nat -> nat -> prog arr -> res (list xr * P).
Variable nuts_run : Z -> nat -> nat -> nat -> prog arr -> res (nat -> nat -> env).
Variable latent_sites : prog arr -> list string.
Variable guide_draw : P -> Z -> nat -> prog arr -> env.
Variable complete_draw : env -> Z -> nat -> prog arr -> env.
Variable mv : TS -> TS.
Notation moved := (moved k).
Notation moved_objects := (moved_objects k delta mv).
Notation fit_data := (fit_data ns_of order keep tr_fit_transform).
Notation fit_forecaster := (fit_forecaster ns_of order keep tr_fit_transform svi_run nuts_run latent_sites).
Notation forecast_samples := (forecast_samples ns_of keep tr_transform guide_draw complete_draw).
Notation forecast_point := (forecast_point ns_of keep tr_transform guide_draw complete_draw).
Notation forecast_quantiles := (forecast_quantiles ns_of keep tr_transform guide_draw complete_draw).
Notation forecast_all_sites := (forecast_all_sites ns_of keep tr_transform guide_draw complete_draw).
Notation forecast_all_sites_samples := (forecast_all_sites_samples ns_of keep tr_transform guide_draw complete_draw).

(** the same configuration, without dated parameters: same scale, same posterior, and all forecasts moved *)
Theorem C90_same_forecasts : moves_by ns_of k delta -> transformer_moves k (fun st => st) tr_fit_transform tr_transform ->
  forall c ob0 y X ob f, dateless_config c = true -> fresh_trend (o_trend ob0) ->
  fit_forecaster c ob0 y X = (ob, Ok f) ->
  exists ob' f', fit_forecaster c ob0 (moved y) (option_map moved X) = (ob', Ok f') /\
    ft_scale f' = ft_scale f /\ ft_posterior f' = ft_posterior f /\
    p_effects (ft_prepared f') = map (fun ne => (fst ne, moved_effect k (snd ne))) (p_effects (ft_prepared f)) /\
    forall y2 X2 fh, snd (forecast_samples c ob' f' (moved y2) (option_map moved X2) (moved_horizon k fh))
                   = rmap moved (snd (forecast_samples c ob f y2 X2 fh)).
Proof. exact (c90_same k delta ns_of order keep tr_fit_transform tr_transform svi_run nuts_run latent_sites guide_draw complete_draw). Qed.

(** in general: lift tests are moved too, and the state of the transformer as [mv] says *)
Hypothesis Clock : moves_by ns_of k delta.
Hypothesis Transformer : transformer_moves k mv tr_fit_transform tr_transform.

(** the model to fit is the same program *)
Theorem C90_model : forall c ob s y X,
  fit_data (moved_config k c) (moved_objects ob) s (moved y) (option_map moved X)
  = (moved_objects (fst (fit_data c ob s y X)), rmap (fun pm => (moved_prepared k (fst pm), snd pm)) (snd (fit_data c ob s y X))).
Proof. exact (fit_data_moved k delta ns_of order keep tr_fit_transform tr_transform Clock mv Transformer). Qed.

Theorem C90_fit : forall c ob y X,
  fit_forecaster (moved_config k c) (moved_objects ob) (moved y) (option_map moved X)
  = (moved_objects (fst (fit_forecaster c ob y X)), rmap (moved_fitted k) (snd (fit_forecaster c ob y X))).
Proof. exact (c90_fit k delta ns_of order keep tr_fit_transform tr_transform svi_run nuts_run latent_sites Clock mv Transformer). Qed.

Theorem C90_samples : forall c ob f y X fh,
  forecast_samples (moved_config k c) (moved_objects ob) (moved_fitted k f) (moved y) (option_map moved X) (moved_horizon k fh)
  = (moved_fitted k (fst (forecast_samples c ob f y X fh)), rmap moved (snd (forecast_samples c ob f y X fh))).
Proof. exact (c90_samples k delta ns_of keep tr_fit_transform tr_transform guide_draw complete_draw Clock mv Transformer). Qed.

Theorem C90_point : forall c ob f y X fh,
  forecast_point (moved_config k c) (moved_objects ob) (moved_fitted k f) (moved y) (option_map moved X) (moved_horizon k fh)
  = (moved_fitted k (fst (forecast_point c ob f y X fh)), rmap moved (snd (forecast_point c ob f y X fh))).
Proof. exact (c90_point k delta ns_of keep tr_fit_transform tr_transform guide_draw complete_draw Clock mv Transformer). Qed.

Theorem C90_quantiles : forall c ob f y X fh alpha,
  forecast_quantiles (moved_config k c) (moved_objects ob) (moved_fitted k f) (moved y) (option_map moved X) (moved_horizon k fh) alpha
  = (moved_fitted k (fst (forecast_quantiles c ob f y X fh alpha)), rmap (moved_quantiles k) (snd (forecast_quantiles c ob f y X fh alpha))).
Proof. exact (c90_quantiles k delta ns_of keep tr_fit_transform tr_transform guide_draw complete_draw Clock mv Transformer). Qed.

Theorem C90_all_sites : forall c ob f y X fh,
  forecast_all_sites (moved_config k c) (moved_objects ob) (moved_fitted k f) (moved y) (option_map moved X) (moved_horizon k fh)
  = (moved_fitted k (fst (forecast_all_sites c ob f y X fh)), rmap moved (snd (forecast_all_sites c ob f y X fh))).
Proof. exact (c90_all_sites k delta ns_of keep tr_fit_transform tr_transform guide_draw complete_draw Clock mv Transformer). Qed.

Theorem C90_all_sites_samples : forall c ob f y X fh,
  forecast_all_sites_samples (moved_config k c) (moved_objects ob) (moved_fitted k f) (moved y) (option_map moved X) (moved_horizon k fh)
  = (moved_fitted k (fst (forecast_all_sites_samples c ob f y X fh)),
     rmap (fun r => (fst r, map (moved_sample_row k) (snd r))) (snd (forecast_all_sites_samples c ob f y X fh))).
Proof. exact (c90_all_sites_samples k delta ns_of keep tr_fit_transform tr_transform guide_draw complete_draw Clock mv Transformer). Qed.
End Any.
Print Assumptions C90_same_forecasts.
Print Assumptions C90_model.
Print Assumptions C90_fit.
Print Assumptions C90_samples.
Print Assumptions C90_point.
Print Assumptions C90_quantiles.
Print Assumptions C90_all_sites.
Print Assumptions C90_all_sites_samples.

(** * Cases *)
(** days: moving by k days *)
Example C90_days : forall k, moves_by ex_ns k (IZR k).
Proof.
  intros k t. unfold days_since_epoch, ex_ns.
  replace ((t + k) * 86400000000000)%Z with ((t * 86400 + k * 86400) * 1000000000)%Z by lia.
  replace (t * 86400000000000)%Z with ((t * 86400) * 1000000000)%Z by lia.
  rewrite !Z.div_mul by lia. rewrite plus_IZR, (mult_IZR k). field.
Qed.
(** selecting columns, or doing nothing, does not look at dates *)
Example C90_transformers : forall k, transformer_moves k (fun st => st) ex_fit_transform ex_transform.
Proof.
  intros k. split; intros [|] X; unfold ex_fit_transform, ex_transform; cbn [fst snd]; try reflexivity; rewrite select_moved; reflexivity.
Qed.
(** a fit with two effects, a year later *)
Example C90_case : exists ob f f' out,
  comp_fit "normal" = (ob, Ok f) /\ comp_forecast "normal" ob f = (f', Ok out) /\ dateless_config (comp_config "normal") = true /\
  fresh_trend (o_trend (no_objects None)) /\ map r_time (f_rows (moved 365 out)) = [373; 374]%Z.
Proof.
  destruct (comp_runs "normal") as (ob & f & f' & out & F & O & C & _); [left; reflexivity|].
  exists ob, f, f', out. split; [exact F|]. split; [exact O|]. split; [reflexivity|]. split; [exact I|].
  assert (T : option_map (fun o => map r_time (f_rows o)) (comp_out2 "normal") = Some [8; 9]%Z) by (vm_compute; reflexivity).
  rewrite <- comp_out_eq, C in T. cbn [option_map] in T. injection T as T.
  rewrite rows_moved, times_moved, T. reflexivity.
Qed.
(** two series with a piecewise linear trend *)
Example C90_panel : dateless_config pw_config = true /\ fresh_trend (o_trend (no_objects None)) /\ exists ob f, pw_fit = (ob, Ok f).
Proof. split; [reflexivity|]. split; [exact I|]. destruct ex_pw as (ob & f & _ & _ & E & _). exists ob, f. exact E. Qed.
(** a lift test on day 3, moved by a week; the recorded lift is found on day 10 *)
Example C90_lift : let e := Lift (Linear Additive (DUser 0) base_init) [(3, Some 2%R)]%Z 1 base_init None in
  match moved_effect 7 e with Lift _ tab _ _ _ => lift_at tab 10 = Some 2%R /\ lift_at tab 3 = None | _ => False end.
Proof. split; reflexivity. Qed.

(** The steps of the index have to be equally long: with months (January, February, March of 2001 against February,
    March, April) the trend sees other distances. *)
Definition month_ns (t : Z) : Z :=
  ((match t with 0 => 0 | 1 => 31 | 2 => 59 | _ => 90 end) * 86400000000000)%Z.
Definition months : frame R := mkFrame 0 ["y"] [mkRow [] 0 [3]; mkRow [] 1 [4]; mkRow [] 2 [8]]%R.
Lemma month_cps : changepoint_times 2 25 (4 / 5) = [(INR 0 * 25)%R].
Proof.
  unfold changepoint_times, arange0. replace (Rceil _) with 1%Z; [reflexivity|]. symmetry.
  unfold changepoint_limit. rewrite (proj2 (Rltb_true _ _)) by lra. rewrite (proj2 (Rltb_true _ _)) by lra. cbn [andb].
  pose proof (Rceil_spec (2 * (4 / 5) / 25)) as H. set (z := Rceil (2 * (4 / 5) / 25)) in *.
  assert (0 < IZR z < 2)%R by lra. destruct H0 as (A & B). apply lt_IZR in A, B. lia.
Qed.
Example C90_months : exists f f', piecewise_fit month_ns pw_params months = Ok f /\ piecewise_fit month_ns pw_params (moved 1 months) = Ok f' /\
  piecewise_transform month_ns f [0; 1; 2]%Z <> piecewise_transform month_ns f' [1; 2; 3]%Z.
Proof.
  assert (D0 : days_since_epoch (month_ns 0) = 0%R) by (unfold days_since_epoch; change (month_ns 0 / 1000000000)%Z with 0%Z; lra).
  assert (D1 : days_since_epoch (month_ns 1) = 31%R) by (unfold days_since_epoch; change (month_ns 1 / 1000000000)%Z with 2678400%Z; lra).
  assert (D2 : days_since_epoch (month_ns 2) = 59%R) by (unfold days_since_epoch; change (month_ns 2 / 1000000000)%Z with 5097600%Z; lra).
  assert (D3 : days_since_epoch (month_ns 3) = 90%R) by (unfold days_since_epoch; change (month_ns 3 / 1000000000)%Z with 7776000%Z; lra).
  assert (S1 : fit_time [0; 31; 59]%R = Ok (59 / 2, 0)%R).
  { unfold fit_time, Rmin_list. cbn [diffs fold_left]. rewrite !Rmin_left by (rewrite ?Rmin_left; lra). unfold Rmean. cbn [Rsum List.length]. simpl INR. do 2 f_equal; lra. }
  assert (S2 : fit_time [31; 59; 90]%R = Ok (59 / 2, 62 / 59)%R).
  { unfold fit_time, Rmin_list. cbn [diffs fold_left]. rewrite !Rmin_left by (rewrite ?Rmin_left; lra). unfold Rmean. cbn [Rsum List.length]. simpl INR. do 2 f_equal; [lra|field]. }
  unfold piecewise_fit. change (time_ids months) with [0; 1; 2]%Z. change (time_ids (moved 1 months)) with [1; 2; 3]%Z. cbn [map].
  rewrite D0, D1, D2, D3, S1, S2. cbn [bind]. unfold scale_time. cbn [map hd tl].
  replace (0 / (59 / 2) - 0)%R with 0%R by lra. replace (59 / (59 / 2) - 0)%R with 2%R by lra.
  replace (31 / (59 / 2) - 62 / 59)%R with 0%R by lra. replace (90 / (59 / 2) - 62 / 59)%R with 2%R by lra.
  assert (M1 : Rmax_list 0 [31 / (59 / 2) - 0; 2]%R = 2%R).
  { unfold Rmax_list. cbn [fold_left]. rewrite (Rmax_right 0) by lra. apply Rmax_right. lra. }
  assert (M2 : Rmax_list 0 [59 / (59 / 2) - 62 / 59; 2]%R = 2%R).
  { unfold Rmax_list. cbn [fold_left]. rewrite (Rmax_right 0) by lra. apply Rmax_right. lra. }
  rewrite M1, M2. unfold setup_changepoints. cbn [to_list_if_scalar repeat combine mapM fst snd bind pw_params pw_interval pw_range n_series_of f_levels months moved].
  rewrite month_cps. cbn [bind].
  unfold suggest. cbn [pw_params pw_detrend pw_logistic].
  change (target_matrix months) with (Ok (A := list (list R)) [[3; 4; 8]%R]).
  change (target_matrix (moved 1 months)) with (Ok (A := list (list R)) [[3; 4; 8]%R]). cbn [bind endpoints mapM].
  eexists _, _. split; [reflexivity|]. split; [reflexivity|].
  unfold piecewise_transform. cbn [pf_series pf_t_scale pf_t_start pf_params pf_cps f_levels months moved]. cbn [map].
  rewrite D0, D1, D2, D3. unfold scale_time, get_changepoint_matrix, multi_changepoint_matrix. cbn.
  intros E. injection E as _ E _. revert E. unfold changepoint_entry, clip_low.
  assert (L1 : Rleb (0 * 25) (31 / (59 / 2) - 0) = true) by (apply Rleb_true; lra).
  assert (L2 : Rleb (0 * 25) (59 / (59 / 2) - 62 / 59) = true) by (apply Rleb_true; lra).
  rewrite L1, L2. rewrite !Rmax_right by lra. lra.
Qed.
