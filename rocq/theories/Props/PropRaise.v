(** Property C85: inputs that cannot be used are reported, with a stated exception and for a stated
    reason only.  All theorems hold for every optimiser, sampler, random generator and transformer (the
    section variables). *)
From Coq Require Import Reals String Bool ZArith List Lra.
From Verif.Model Require Import Base Num XFloat Regex Frame Arr Expand Aggregate Scale Predict Prog Likelihood Trend Effect
  TrendProg Engine Forecaster Params.
From Verif.Spec Require Import FrameSpec ForecasterSpec RaiseSpec.
From Verif.Facts Require Import EffectExamples ForecasterExamples EngineExamples HistoryExamples TotalExamples ComponentExamples RaiseFacts.
Import ListNotations.
Local Open Scope string_scope.

(** * Calls on data frames *)
Theorem C85_select : forall (X : frame R) cols e,
  select_columns 0%R X cols = Err e <-> e = KeyError /\ exists c, In c cols /\ ~ In c (f_cols X).
Proof. exact raise_select. Qed.

(** [X.loc[index]] *)
Theorem C85_loc : forall (X : frame R) index e, loc_index X index = Err e <->
  e = KeyError /\ exists pt, In pt index /\ ~ exists r, In r (f_rows X) /\ (r_path r, r_time r) = pt.
Proof.
  intros X index e. rewrite raise_loc. unfold index_of.
  split; intros (E & pt & I & N); (split; [exact E|]); exists pt; (split; [exact I|]); intros H; apply N.
  - apply in_map_iff. destruct H as (r & Hr & Er). exists r. split; assumption.
  - apply in_map_iff in H. destruct H as (r & Er & Hr). exists r. split; assumption.
Qed.

Theorem C85_bottom : forall (f : frame R) e, get_bottom_series_idx f = Err e <-> e = ValueError /\ f_levels f = 0%nat.
Proof. exact raise_bottom. Qed.

(** a frame with nothing but totals *)
Theorem C85_loc_bottom : forall (f : frame R) e, loc_bottom_series f = Err e <->
  e = IndexError /\ f_levels f <> 0%nat /\
  forall p, In p (series_ids f) -> if Nat.eqb (f_levels f) 1 then p = ["__total"] else last p "" = "__total".
Proof. exact raise_loc_bottom. Qed.

(** series of different lengths *)
Theorem C85_tensor : forall (f : frame R) e, series_to_tensor f = Err e <->
  e = ValueError /\ f_levels f <> 0%nat /\
  exists p q, In p (series_ids f) /\ In q (series_ids f) /\ List.length (rows_of f p) <> List.length (rows_of f q).
Proof. exact raise_tensor. Qed.

(** a fitted expander on another frame *)
Theorem C85_expand : forall ex (X : frame R) e, expand_transform 0%R (fun _ => false) ex X = Err e <->
  ex_skip ex = false /\
  ((f_levels X = 0%nat /\ e = ValueError) \/
   (f_levels X <> 0%nat /\ e = KeyError /\ f_rows X <> [] /\ exists c, In c (ex_matched ex) /\ ~ In c (f_cols X))).
Proof. exact (raise_expand 0%R (fun _ => false)). Qed.

Theorem C85_quantiles : forall alpha s e,
  predict_quantiles alpha s = Err e <-> e = ValueError /\ exists a, In a alpha /\ ~ (0 <= a <= 1)%R.
Proof. exact raise_quantiles. Qed.

Theorem C85_no_forecasters : forall X, vectorize_predict [] X = Err ValueError.
Proof. intros X. reflexivity. Qed.

(** * Arrays *)
Theorem C85_reshape : forall sh a e, reshape sh a = Err e <-> e = TypeError /\ List.length (a_flat a) <> prod_shape sh.
Proof. exact raise_reshape. Qed.
Theorem C85_rows_of_width : forall n a e, rows_of_width n a = Err e <->
  e = TypeError /\ (n = 0%nat \/ forall k, List.length (a_flat a) <> (k * n)%nat).
Proof. exact raise_rows_of_width. Qed.
Theorem C85_shape_at : forall a k e, shape_at a k = Err e <-> e = IndexError /\ (ndim a <= k)%nat.
Proof. exact raise_shape_at. Qed.
Theorem C85_squeeze_last : forall a e, squeeze_last a = Err e <-> e = ValueError /\ forall sh, a_shape a <> (sh ++ [1%nat])%list.
Proof. exact raise_squeeze_last. Qed.

(** * Constructors and parameters *)
Theorem C85_lift : forall inner table s e, mk_lift inner table s = Err e <-> e = AssertionError /\ (s <= 0)%R.
Proof. exact raise_lift. Qed.

Theorem C85_trend_name : forall c s e, named_trend c s = Err e <-> e = ValueError /\ ~ known_trend s.
Proof. exact raise_named_trend. Qed.

(** assignment of a non-empty list of effects (the empty list: C69) *)
Theorem C85_set_effects : forall E (v0 : item E) tl l e, set_effects (v0 :: tl) l = Err e <->
  (e = AssertionError /\ ((item_len v0 <> 2 /\ item_len v0 <> 3) \/ exists v, In v tl /\ item_len v <> item_len v0)) \/
  ((item_len v0 = 2 \/ item_len v0 = 3) /\ (forall v, In v tl -> item_len v = item_len v0) /\
    ((l = None /\ e = TypeError) \/
     (e = ValueError /\ exists l', l = Some l' /\
        exists i v o, nth_error (v0 :: tl) i = Some v /\ nth_error l' i = Some o /\ forall n x, v <> Pair n x))).
Proof. exact @raise_set_effects. Qed.

Section Any.
Variable ns_of : Z -> Z.
Variable order : list string -> list string.
Variable keep : path -> bool.
Context {TS : Type}.
Variable tr_fit_transform : TS -> frame R -> TS * res (frame R).
Variable tr_transform : TS -> frame R -> res (frame R).
Context {P : Type}.
Variable svi_run : Z -> nat -> nat -> prog arr -> res (list xr * P).
Variable nuts_run : Z -> nat -> nat -> nat -> prog arr -> res (nat -> nat -> env).
Variable latent_sites : prog arr -> list string.
Variable guide_draw : P -> Z -> nat -> prog arr -> env.
Variable complete_draw : env -> Z -> nat -> prog arr -> env.
Notation fit_forecaster := (fit_forecaster ns_of order keep tr_fit_transform svi_run nuts_run latent_sites).
Notation every_forecast_raises := (every_forecast_raises ns_of keep tr_transform guide_draw complete_draw).

(** * Forecasters *)
(** a trend that has not been fitted *)
Theorem C85_unfitted : forall t X fh, ~ is_effect t ->
  match t with TPiecewise _ _ b _ | TFlat _ b _ => b_fitted b = Some false | TEffect _ => True end ->
  trend_transform ns_of t X fh = Err ValueError.
Proof. exact (raise_unfitted ns_of). Qed.

Theorem C85_unknown_trend : forall c ob y X s, c_trend c = TrendName s -> ~ known_trend s ->
  forall f, snd (fit_forecaster c ob y X) <> Ok f.
Proof. exact (raise_trend_fit ns_of order keep tr_fit_transform svi_run nuts_run latent_sites). Qed.

Theorem C85_unknown_method : forall c ob y X, c_method c <> "map" -> c_method c <> "mcmc" ->
  forall f, snd (fit_forecaster c ob y X) <> Ok f.
Proof. exact (raise_method_fit ns_of order keep tr_fit_transform svi_run nuts_run latent_sites). Qed.

(** Prophetverse: X must have a row for every date of the target when fitting *)
Theorem C85_training_dates : forall c ob y X r, c_hier c = false -> o_transformer ob = None -> In r (f_rows y) ->
  (forall r', In r' (f_rows X) -> (r_path r', r_time r') <> (r_path r, r_time r)) ->
  forall f, snd (fit_forecaster c ob y (Some X)) <> Ok f.
Proof.
  intros c ob y X r Hc TR I N. apply (raise_training_dates ns_of order keep tr_fit_transform svi_run nuts_run latent_sites c ob y X (r_path r, r_time r) Hc TR).
  - exact (in_map (fun r => (r_path r, r_time r)) _ _ I).
  - intros J. apply in_map_iff in J. destruct J as (r' & E & J). exact (N r' J E).
Qed.

(** X at prediction must have the columns it had at fitting (C75: more columns and another order do
    not matter) *)
Theorem C85_columns : forall c ob y X ob' f col y2 X2 fh, c_hier c = false -> o_transformer ob = None ->
  (forall e, get_trend_model c ob <> Ok (TEffect e)) -> fit_forecaster c ob y (Some X) = (ob', Ok f) ->
  f_rows X <> [] -> In col (f_cols X) -> without X2 col -> f_rows y2 <> [] ->
  every_forecast_raises c ob' f y2 X2 fh KeyError.
Proof. exact (raise_columns ns_of order keep tr_fit_transform tr_transform svi_run nuts_run latent_sites guide_draw complete_draw). Qed.

(** HierarchicalProphet, for names that are not those of expanded columns *)
Theorem C85_columns_hierarchical : forall c ob y X ob' f col y2 X2 fh, c_hier c = true -> o_transformer ob = None ->
  (forall e, get_trend_model c ob <> Ok (TEffect e)) -> fit_forecaster c ob y (Some X) = (ob', Ok f) ->
  f_rows X <> [] -> In col (f_cols X) -> without X2 col -> (forall m i, col <> get_col_name m i) ->
  (forall cutoff, to_absolute cutoff fh <> []) -> f_rows y2 <> [] ->
  exists e, every_forecast_raises c ob' f y2 X2 fh e.
Proof. exact (raise_columns_hierarchical ns_of order keep tr_fit_transform tr_transform svi_run nuts_run latent_sites guide_draw complete_draw). Qed.

(** and must have every date of the horizon *)
Theorem C85_horizon : forall c ob f y X fh cutoff t, c_hier c = true -> p_has_exogenous (ft_prepared f) = true ->
  f_rows y <> [] -> f_cols X <> [] -> (forall e, loc_bottom_series X <> Err e) ->
  max_time (map snd (p_index (ft_prepared f))) = Ok cutoff -> In t (to_absolute cutoff fh) ->
  (forall r, In r (f_rows X) -> r_time r <> t) ->
  every_forecast_raises c ob f y (Some X) fh AssertionError.
Proof. exact (raise_horizon ns_of keep tr_transform guide_draw complete_draw). Qed.
End Any.

Print Assumptions C85_select.
Print Assumptions C85_loc.
Print Assumptions C85_training_dates.
Print Assumptions C85_loc_bottom.
Print Assumptions C85_tensor.
Print Assumptions C85_expand.
Print Assumptions C85_quantiles.
Print Assumptions C85_no_forecasters.
Print Assumptions C85_squeeze_last.
Print Assumptions C85_lift.
Print Assumptions C85_set_effects.
Print Assumptions C85_unknown_trend.
Print Assumptions C85_unknown_method.
Print Assumptions C85_columns.
Print Assumptions C85_columns_hierarchical.
Print Assumptions C85_horizon.

(** * Instances *)
Example C85_frames_nonvacuous :
  select_columns 0%R Xu ["tv"; "radio"] = Err KeyError /\ get_bottom_series_idx Xu = Err ValueError /\
  loc_bottom_series (mkFrame 1 ["tv"] [mkRow ["__total"] 0 [1]]%R) = Err IndexError /\
  series_to_tensor (mkFrame 1 ["tv"] [mkRow ["a"] 0 [1]; mkRow ["b"] 0 [1]; mkRow ["b"] 1 [1]]%R) = Err ValueError /\
  expand_transform 0%R (fun _ => false) (mkExpander false ["tv"] [["a"]] []) (mkFrame 1 ["web"] [mkRow ["a"] 0 [1]]%R) = Err KeyError /\
  (exists e, predict_quantiles [1 / 2; 2]%R Xu = Err e).
Proof. repeat (split; [reflexivity|]). exists ValueError. apply C85_quantiles. split; [reflexivity|]. exists 2%R. simpl. split; [auto|]. lra. Qed.

Example C85_arrays_nonvacuous : reshape [2; 2] (vector [1; 2; 3]%R) = Err TypeError /\ rows_of_width 2 (vector [1; 2; 3]%R) = Err TypeError /\
  shape_at (vector [1]%R) 1 = Err IndexError /\ squeeze_last (vector [1; 2]%R) = Err ValueError /\ squeeze_last (vector [1]%R) = Ok (scalar 1).
Proof. repeat split. Qed.

Example C85_parameters_nonvacuous :
  mk_lift lin [] (-1) = Err AssertionError /\ (exists l, mk_lift lin [] 1 = Ok l) /\
  (forall c, named_trend c "quadratic" = Err ValueError) /\
  set_effects [Pair "a" lin; Tuple 4] (Some []) = Err AssertionError /\
  set_effects [Triple "a" lin None] (Some [("a", lin, None)]) = Err ValueError /\
  set_effects [Triple "a" lin None] (Some []) = Ok [].
Proof.
  split; [apply C85_lift; split; [reflexivity|lra]|]. split.
  { destruct (mk_lift lin [] 1) as [l|e] eqn:E; [eauto|]. apply C85_lift in E. destruct E as [_ E]. exfalso. lra. }
  repeat split.
Qed.

(** X without the last date of the target: an error; with it: none *)
Definition short (X : frame R) : frame R := mkFrame (f_levels X) (f_cols X) (filter (fun r => negb (Z.eqb (r_time r) 7)) (f_rows X)).
Example C85_training_dates_nonvacuous : (exists ob f, total_fit "linear" "normal" "mcmc" = (ob, Ok f)) /\ f_rows (short Xu) <> [] /\
  forall f, snd (Forecaster.fit_forecaster ex_ns sorted_sets keep_all ex_fit_transform ex_svi ex_nuts comp_latent
                   (total_config "linear" "normal" "mcmc") (no_objects None) ex_y (Some (short Xu))) <> Ok f.
Proof.
  split; [|split].
  - destruct (total_example "linear" "normal") as (ob & f & F & H1 & _); [simpl; tauto|simpl; tauto|]. eauto.
  - discriminate.
  - apply (C85_training_dates ex_ns sorted_sets keep_all ex_fit_transform ex_svi ex_nuts comp_latent (total_config "linear" "normal" "mcmc") (no_objects None) ex_y (short Xu) (mkRow [] 7 [8])%R eq_refl eq_refl).
    + simpl. auto.
    + intros r' I E. unfold short in I. apply filter_In in I. destruct I as [_ I]. injection E as _ E. rewrite E in I. discriminate I.
Qed.

(** an effect uses tv, another one web; leaving out either is reported, as is leaving out X *)
Example C85_columns_nonvacuous : exists ob f, total_fit "linear" "normal" "mcmc" = (ob, Ok f) /\
  (forall X2 fh, without X2 "tv" -> every_forecast_raises ex_ns keep_all ex_transform ex_guide ex_complete (total_config "linear" "normal" "mcmc") ob f ex_y X2 fh KeyError) /\
  without (Some (mkFrame 0 ["web"] [mkRow [] 8 [1]]%R)) "tv" /\ without None "tv" /\
  exists F, forecast_samples ex_ns keep_all ex_transform ex_guide ex_complete (total_config "linear" "normal" "mcmc") ob f ex_y (Some Xf) (Relative [1; 2]%Z) = (f, Ok F).
Proof.
  destruct (total_example "linear" "normal") as (ob & f & F & H1 & H2 & _); [simpl; tauto|simpl; tauto|]. exists ob, f. split; [exact H1|]. split; [|split; [|split]].
  - intros X2 fh W. unfold total_fit in H1. refine (C85_columns ex_ns sorted_sets keep_all ex_fit_transform ex_transform ex_svi ex_nuts comp_latent ex_guide ex_complete (total_config "linear" "normal" "mcmc") (no_objects None) ex_y Xu ob f "tv" ex_y X2 fh eq_refl eq_refl _ H1 _ _ W _);
      [discriminate|discriminate|simpl; auto|discriminate].
  - intros x [= <-]. simpl. intuition discriminate.
  - intros x. discriminate.
  - eauto.
Qed.

Example C85_hierarchical_nonvacuous : exists ob f, panel_fit = (ob, Ok f) /\
  (exists e, every_forecast_raises ex_ns keep_all ex_transform ex_guide ex_complete hier_config ob f ex_yh None (Relative [1%Z]) e) /\
  every_forecast_raises ex_ns keep_all ex_transform ex_guide ex_complete hier_config ob f ex_yh (Some ex_X2) (Relative [1; 3]%Z) AssertionError.
Proof.
  destruct panel_runs as (ob & f & m & H & _). exists ob, f. split; [exact H|]. split.
  - assert (N : forall c i, "tv" <> get_col_name c i).
    { intros [|a [|b [|d c]]] i E; discriminate E. }
    assert (C : forall e, get_trend_model hier_config (no_objects (None : option bool)) <> Ok (TEffect e)) by (intros e E; discriminate E).
    assert (NX : f_rows ex_Xh <> []) by (intros E; discriminate E). assert (NY : f_rows ex_yh <> []) by (intros E; discriminate E).
    exact (C85_columns_hierarchical ex_ns sorted_sets keep_all ex_fit_transform ex_transform ex_svi ex_nuts ex_latent ex_guide ex_complete hier_config (no_objects None)
      ex_yh ex_Xh ob f "tv" ex_yh None (Relative [1%Z]) eq_refl eq_refl C H NX (or_introl eq_refl) (fun x E => ltac:(discriminate E)) N (fun _ E => ltac:(discriminate E)) NY).
  - assert (K : match panel_fit with (ob, Ok f) => p_has_exogenous (ft_prepared f) = true /\ max_time (map snd (p_index (ft_prepared f))) = Ok 1%Z | _ => False end) by (vm_compute; auto).
    rewrite H in K. destruct K as [K1 K2].
    refine (C85_horizon ex_ns keep_all ex_transform ex_guide ex_complete hier_config ob f ex_yh ex_X2 (Relative [1; 3]%Z) 1 4 eq_refl K1 _ _ _ K2 _ _); [discriminate|discriminate|intros e E; discriminate E|simpl; auto|].
    intros r Hr. simpl in Hr. repeat (destruct Hr as [<-|Hr]; [discriminate|]). contradiction.
Qed.
