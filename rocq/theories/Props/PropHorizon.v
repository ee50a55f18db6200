(** Property C75: what a forecast reads of the exogenous data.  All theorems hold for every inference
    method (the section variables). *)
From Coq Require Import Reals String Bool ZArith List.
From Verif.Model Require Import Base Num XFloat Frame Arr Prog Effect Engine Forecaster History.
From Verif.Spec Require Import FrameSpec EffectSpec AlignSpec HorizonSpec ResponseSpec.
From Verif.Facts Require Import EffectExamples ForecasterExamples EngineExamples HistoryExamples AlignExamples HorizonFacts HorizonExamples HorizonTransformed ResponseExamples TableTransformedExamples HorizonTransformedExamples.
Import ListNotations.
Local Open Scope string_scope.

Section Any.
Variable ns_of : Z -> Z.
Variable order : list string -> list string.
Variable keep : path -> bool.
Context {TS : Type}.
Variable tr_fit_transform : TS -> frame R -> TS * res (frame R).
Variable tr_transform : TS -> frame R -> res (frame R).
Context {P : Type}.
Variable svi_run : Z -> nat -> nat -> prog arr -> res (list xr * P).
Variable nuts_run : Z -> nat -> nat -> nat -> prog arr -> res (nat -> nat -> env).
Variable latent_sites : prog arr -> list string.
Variable guide_draw : P -> Z -> nat -> prog arr -> env.
Variable complete_draw : env -> Z -> nat -> prog arr -> env.
Notation fit_forecaster := (fit_forecaster ns_of order keep tr_fit_transform svi_run nuts_run latent_sites).
Notation call_method := (call_method ns_of keep tr_transform guide_draw complete_draw).

(** One series: every prediction method returns the same for two frames that agree at the dates of the
    horizon in the columns of the exogenous data of the fit (none, if there was none).  Other rows, other
    columns and the order of columns do not matter. *)
Theorem C75_univariate : forall c ob y X0 ob1 f, fit_forecaster c ob y X0 = (ob1, Ok f) -> c_hier c = false -> o_transformer ob = None ->
  forall y2 X X' fh cutoff rows m, max_time (map r_time (f_rows y2)) = Ok cutoff -> frame_wf X -> frame_wf X' -> f_levels X = f_levels X' ->
  let T := match X0 with None => [] | Some X0 => f_cols X0 end in
  EffectSpec.seen T (to_absolute cutoff fh) X = Some rows -> EffectSpec.seen T (to_absolute cutoff fh) X' = Some rows ->
  call_method c ob1 f y2 m (Some X) fh = call_method c ob1 f y2 m (Some X') fh.
Proof.
  exact (c75_univariate ns_of order keep tr_fit_transform tr_transform svi_run nuts_run latent_sites guide_draw complete_draw).
Qed.

(** A panel: the rows at the dates of the horizon and the set of series decide.  The cutoff is the last
    date of the target that was fitted (see C61 for [update]). *)
Theorem C75_hierarchical : forall c ob (f : fitted (P := P)), c_hier c = true -> o_transformer ob = None ->
  forall y2 X X' fh cutoff m, max_time (map snd (p_index (ft_prepared f))) = Ok cutoff ->
  same_rows_at (to_absolute cutoff fh) X X' -> series_ids X = series_ids X' ->
  call_method c ob f y2 m (Some X) fh = call_method c ob f y2 m (Some X') fh.
Proof.
  intros c ob f Hc NT y2 X X' fh cutoff m HM F.
  exact (c75_hierarchical ns_of keep tr_transform guide_draw complete_draw c ob f Hc NT y2 X X' fh cutoff m HM (same_rows_filter _ X X' F)).
Qed.

(** With a feature transformer, one series: what the transformer returns at the dates of the horizon decides. *)
Theorem C75_transformed_univariate : forall c ob (f : fitted (P := P)), c_hier c = false ->
  forall y2 X X' fh cutoff m Xt Xt', max_time (map r_time (f_rows y2)) = Ok cutoff ->
  run_transform tr_transform ob X = Ok Xt -> run_transform tr_transform ob X' = Ok Xt' -> same_rows_at (to_absolute cutoff fh) Xt Xt' ->
  call_method c ob f y2 m (Some X) fh = call_method c ob f y2 m (Some X') fh.
Proof. exact (c75_transformed_univariate ns_of keep tr_transform guide_draw complete_draw). Qed.

(** A panel with a transformer that returned columns in fit: [B] and [B'] are the rows of the series in [X] and [X']; the
    same dates of the horizon have to be there. *)
Theorem C75_transformed_panel : forall c ob0 y X0 ob (f : fitted (P := P)), fit_forecaster c ob0 y X0 = (ob, Ok f) -> c_hier c = true ->
  forall B0 ob1 Zt, given_training X0 y B0 -> run_fit_transform tr_fit_transform ob0 B0 = (ob1, Ok Zt) -> f_cols Zt <> [] ->
  forall y2 X X' B B' fh cutoff m Xt Xt', max_time (map snd (p_index (ft_prepared f))) = Ok cutoff -> with_columns X B -> with_columns X' B' ->
  (forall t, In t (to_absolute cutoff fh) -> (In t (map r_time (f_rows B)) <-> In t (map r_time (f_rows B')))) ->
  run_transform tr_transform ob B = Ok Xt -> run_transform tr_transform ob B' = Ok Xt' -> same_rows_at (to_absolute cutoff fh) Xt Xt' -> series_ids Xt = series_ids Xt' ->
  call_method c ob f y2 m X fh = call_method c ob f y2 m X' fh.
Proof. exact (c75_transformed_panel ns_of order keep tr_fit_transform tr_transform svi_run nuts_run latent_sites guide_draw complete_draw). Qed.
End Any.
Print Assumptions C75_transformed_univariate.
Print Assumptions C75_transformed_panel.
Print Assumptions C75_univariate.
Print Assumptions C75_hierarchical.

Example C75_nonvacuous_univariate : (exists ob f, run_fit "mcmc" (Some Xu) = (ob, Ok f)) /\ Xf <> Xf_long /\
  EffectSpec.seen (f_cols Xu) (to_absolute 7 (Relative [1; 2]%Z)) Xf = EffectSpec.seen (f_cols Xu) (to_absolute 7 (Relative [1; 2]%Z)) Xf_long /\
  EffectSpec.seen (f_cols Xu) (to_absolute 7 (Relative [1; 2]%Z)) Xf = Some [([], 8%Z, [Some 1; Some 10]); ([], 9%Z, [Some 2; Some 20])]%R.
Proof. destruct ex_seen as [E E']. rewrite E, E'. split; [exact ex_seen_run|]. repeat split. discriminate. Qed.
Example C75_nonvacuous_hierarchical : (exists f, st_fitted fitted_h = Some f) /\ same_rows_at [2%Z] ex_X2 ex_X2_later /\
  series_ids ex_X2 = series_ids ex_X2_later /\ ex_X2 <> ex_X2_later /\
  times_of (snd (ex_step hier_config fitted_h (Predict Samples (Some ex_X2) (Relative [1%Z])))) = Some [2; 2; 2]%Z.
Proof. split; [|split; [apply ex_later|split; [apply ex_later|split; [apply ex_later|vm_compute; reflexivity]]]]. unfold fitted_h. vm_compute. eexists. reflexivity. Qed.
(** a transformer that takes the columns tv and web, and data with one more column, another order and more dates *)
Example C75_transformed_nonvacuous : exists ob f f' out, tidy_fit = (ob, Ok f) /\ max_time (map r_time (f_rows ex_y)) = Ok 7%Z /\ run_transform tidy ob Xf = Ok Xf /\ run_transform tidy ob Xf_long = Ok Xf_tidy /\
  same_rows_at (to_absolute 7 (Relative [1; 2]%Z)) Xf Xf_tidy /\ Xf <> Xf_tidy /\
  forecast_samples ex_ns keep_all tidy ex_guide ex_complete (run_config "mcmc") ob f ex_y (Some Xf_long) (Relative [1; 2]%Z) = (f', Ok out) /\ map r_time (f_rows out) = [8; 9]%Z.
Proof. exact tidy_runs. Qed.
(** a panel and a transformer that keeps the column web only: other values of tv, and one more date *)
Example C75_panel_nonvacuous : given_training (Some ex_Xh) ex_yh ex_Xh /\ run_fit_transform ex_fit_transform (no_objects (Some false)) ex_Xh = (no_objects (Some false), Ok Xp0) /\ f_cols Xp0 <> [] /\
  with_columns (Some X_pick) X_pick /\ with_columns (Some X_other) X_other /\ (forall t, In t [2; 3]%Z -> (In t (map r_time (f_rows X_pick)) <-> In t (map r_time (f_rows X_other)))) /\
  same_rows_at [2; 3]%Z Xp1 Xp_other /\ series_ids Xp1 = series_ids Xp_other /\ Xp1 <> Xp_other /\
  exists ob f f' out, pick_fit = (ob, Ok f) /\ picked_forecast ob f = (f', Ok out) /\ run_transform ex_transform ob X_pick = Ok Xp1 /\ run_transform ex_transform ob X_other = Ok Xp_other /\
  max_time (map snd (p_index (ft_prepared f))) = Ok 1%Z.
Proof. exact other_runs. Qed.
