(** Where the prior of the offset is centred. *)
From Coq Require Import Reals Lra ZArith String Bool List Lia Sorted Permutation.
From Verif.Model Require Import Base Num XFloat Frame Arr Prog Likelihood Effect Trend TrendProg Aggregate Scale Expand Engine Forecaster.
From Verif.Spec Require Import FrameSpec ProgSpec TrendSpec ScaleSpec LineSpec ForecasterSpec DocsSpec DocsPriorSpec.
From Verif.Facts Require Import BaseFacts FrameFacts NumFacts TrendFacts TimeFacts LineFacts LogisticFit TotalFacts ForecasterFacts ForecasterInv ForecasterProps ShapeFacts PanelScale DocsTrend DocsForecaster.
Import ListNotations.
Local Open Scope string_scope.

Lemma fitted_lengths ns_of p (yt : frame R) f : piecewise_fit ns_of p yt = Ok f -> List.length (pf_global_rates f) = n_series_of yt /\ List.length (pf_offset_loc f) = n_series_of yt.
Proof. intros H. destruct (piecewise_fit_inv _ _ _ _ H) as (ts & _ & _ & Hn & Hp & _ & Hs & _). exact (ShapeFacts.suggest_lengths_any _ _ _ _ _ Hs). Qed.

Section Any.
Variable ns_of : Z -> Z.
Variable order : list string -> list string.
Variable keep : path -> bool.
Context {TS : Type}.
Variable tr_fit_transform : TS -> frame R -> TS * res (frame R).
Context {P : Type}.
Variable svi_run : Z -> nat -> nat -> prog arr -> res (list xr * P).
Variable nuts_run : Z -> nat -> nat -> nat -> prog arr -> res (nat -> nat -> env).
Variable latent_sites : prog arr -> list string.
Notation fit_forecaster := (fit_forecaster ns_of order keep tr_fit_transform svi_run nuts_run latent_sites).
Notation day := (fun t => day (ns_of t)).

Definition divided (u : R) (y : frame R) : frame R := map_vals (map (fun v => v / u)%R) y.

(** the trend is fitted to the target divided by the scale *)
Lemma named_univariate c ob y X ob' (f : fitted (P := P)) name : fit_forecaster c ob y X = (ob', Ok f) -> c_trend c = TrendName name -> c_hier c = false -> f_levels y = 0 ->
  exists t0 X1, named_trend c name = Ok t0 /\ trend_fit ns_of order t0 X1 (divided (scale_number (ft_scale f)) y) 1 = (o_trend ob', None).
Proof.
  intros H HN Hc L. apply fit_forecaster_inv in H. destruct H as (s & ys & p & m & post & _ & HY & HF & _ & ->). cbn [ft_scale].
  unfold fit_data in HF. rewrite Hc in HF. apply univariate_fit_inv in HF. destruct HF as (t0 & t & yt & X1 & Xe & td & data & G & HD & HT & _ & _ & <- & _).
  unfold get_trend_model in G. rewrite HN in G. exists t0, X. split; [exact G|].
  assert (E : yt = divided (scale_number s) y); [|now rewrite <- E].
  unfold scale_y, apply_scale in HY. destruct (discrete c).
  - injection HY as <-. unfold divide_target in HD. destruct s; (injection HD as <- || discriminate); reflexivity.
  - injection HD as <-. destruct s; [injection HY as <-; reflexivity|discriminate|..]; unfold scale_for_each_obs in HY; rewrite L in HY; discriminate.
Qed.

Lemma divided_rows u y : f_rows (divided u y) = map (fun r => mkRow (r_path r) (r_time r) (map (fun v => v / u)%R (r_vals r))) (f_rows y).
Proof. reflexivity. Qed.
Lemma divided_times u y : map r_time (f_rows (divided u y)) = map r_time (f_rows y).
Proof. rewrite divided_rows, map_map. reflexivity. Qed.
Lemma divided_wf u y : frame_wf y -> frame_wf (divided u y).
Proof. intros W r H. rewrite divided_rows in H. apply in_map_iff in H as (r' & <- & H). destruct (W r' H). cbn. now rewrite map_length. Qed.
Lemma divided_points u y q : one_column y -> series_points (divided u y) q = map (fun p => (fst p, snd p / u)%R) (series_points y q).
Proof.
  intros [W C]. unfold series_points. rewrite divided_rows.
  assert (V : forall r, In r (f_rows y) -> exists v, r_vals r = [v]).
  { intros r H. destruct (W r H) as [Lr _]. rewrite C in Lr. destruct (r_vals r) as [|v [|]]; try discriminate. eauto. }
  clear W. induction (f_rows y) as [|r l IH]; [reflexivity|]. cbn [map filter r_path]. destruct (V r (or_introl eq_refl)) as [v Ev].
  assert (IH' := IH (fun r' H => V r' (or_intror H))). destruct (path_eqb (r_path r) q); [|exact IH']. cbn [map fst snd r_time r_vals]. rewrite Ev. cbn [map hd]. f_equal. exact IH'.
Qed.

Section Offset.
Variables (c : config) (ob : objects (TS := TS)) (y : frame R) (X : option (frame R)) (ob' : objects (TS := TS)) (f : fitted (P := P)).
Hypothesis HF : fit_forecaster c ob y X = (ob', Ok f).
Hypothesis Hc : c_hier c = false.
Hypothesis L : f_levels y = 0.
Hypothesis OC : one_column y.
Hypothesis L2 : 2 <= List.length (f_rows y).
Hypothesis INC : increasing (map day (map r_time (f_rows y))).

Let u := scale_number (ft_scale f).

Lemma divided_ids : series_ids (divided u y) = [[]].
Proof. destruct OC as [W _]. apply single_series_ids; [split; [now apply divided_wf|exact L]|]. rewrite divided_rows. destruct (f_rows y); [simpl in L2; lia|discriminate]. Qed.
Lemma divided_time_ids : time_ids (divided u y) = map r_time (f_rows y).
Proof. unfold time_ids. rewrite divided_times. apply times_unique_id. now apply days_nodup in INC. Qed.

Lemma raw_location r rest x : c_trend c = TrendName "linear_raw" -> f_rows y = r :: rest -> r_vals r = [x] -> offset_options (o_trend ob') [(x / u)%R] (c_offset_scale c).
Proof.
  intros HN Hr Hx. destruct (named_univariate _ _ _ _ _ _ _ HF HN Hc L) as (t0 & X1 & N & T). fold u in T. cbn in N. injection N as <-. cbn [trend_fit] in T.
  destruct (piecewise_fit ns_of _ (divided u y)) as [f0|] eqn:PF; [|discriminate]. injection T as <-. cbn [offset_options pw_offset_scale]. split; [|reflexivity].
  pose proof divided_ids as DI. pose proof divided_time_ids as TI.
  match type of PF with piecewise_fit _ ?p _ = _ => assert (F := c16_fit ns_of p _ _ (divided_wf u y (proj1 OC)) ltac:(rewrite TI; exact INC) ltac:(rewrite TI, map_length; exact L2) eq_refl PF) end. rewrite DI in F.
  destruct (fitted_lengths ns_of _ _ _ PF) as [Lr Lo]. unfold n_series_of in Lr, Lo. change (f_levels (divided u y)) with (f_levels y) in Lr, Lo. rewrite L in Lr, Lo.
  destruct (pf_global_rates f0) as [|k0 [|]]; try discriminate. destruct (pf_offset_loc f0) as [|m0 [|]]; try discriminate. cbn [combine] in F.
  inversion F as [|? ? ? ? (k & E & _) F2]; subst. injection E as _ ->.
  cbn [map]. f_equal. f_equal. unfold first_value, start_values. cbn [pw_detrend]. rewrite divided_points by exact OC. unfold series_points. rewrite Hr. cbn [filter].
  assert (r_path r = []) as ->. { destruct (proj1 OC r) as [_ Lp]; [rewrite Hr; now left|]. rewrite L in Lp. now destruct (r_path r). }
  cbn. now rewrite Hx.
Qed.

Lemma line_location a b r rest : c_trend c = TrendName "linear" -> (0 < u)%R -> least_squares a b (series_points y []) -> f_rows y = r :: rest ->
  offset_options (o_trend ob') [((a + b * IZR (r_time r)) / u)%R] (c_offset_scale c).
Proof.
  intros HN Hu LS Hr. destruct (named_univariate _ _ _ _ _ _ _ HF HN Hc L) as (t0 & X1 & N & T). fold u in T. cbn in N. injection N as <-. cbn [trend_fit] in T.
  destruct (piecewise_fit ns_of _ (divided u y)) as [f0|] eqn:PF; [|discriminate]. injection T as <-. cbn [offset_options pw_offset_scale]. split; [|reflexivity].
  assert (LS' : least_squares (a / u) (b / u) (series_points (divided u y) [])) by (eapply least_divided; [exact Hu|exact LS|]; rewrite divided_points by exact OC; apply Permutation_refl).
  match type of PF with piecewise_fit _ ?p _ = _ => destruct (c84_initial ns_of p (divided u y) f0 (a / u) (b / u)) with (8 := PF) as (k & _ & E & _); try reflexivity end.
  - split; [apply divided_wf, OC|exact L].
  - rewrite divided_rows, map_length. exact L2.
  - rewrite divided_times. now apply days_nodup in INC.
  - rewrite divided_times. exact INC.
  - exact LS'.
  - rewrite E. cbn [map]. f_equal. f_equal. rewrite divided_points by exact OC. unfold series_points. rewrite Hr. cbn [filter].
    assert (r_path r = []) as ->. { destruct (proj1 OC r) as [_ Lp]; [rewrite Hr; now left|]. rewrite L in Lp. now destruct (r_path r). }
    cbn. field. lra.
Qed.
End Offset.

Lemma named_capacity c ob y X ob' (f : fitted (P := P)) : fit_forecaster c ob y X = (ob', Ok f) -> c_trend c = TrendName "logistic" ->
  capacity_option (o_trend ob') (DShifted (DHalfNormal (scalar (c_capacity_scale c))) (c_capacity_loc c)).
Proof.
  assert (Q : forall t0 X y s t, named_trend c "logistic" = Ok t0 -> trend_fit ns_of order t0 X y s = (t, None) -> capacity_option t (DShifted (DHalfNormal (scalar (c_capacity_scale c))) (c_capacity_loc c))).
  { intros t0 X1 y1 s t N F. cbn in N. injection N as <-. cbn [trend_fit] in F. destruct (piecewise_fit _ _ _); [|discriminate]. injection F as <-. cbn. split; [discriminate|reflexivity]. }
  intros H HN. apply fit_forecaster_inv in H. destruct H as (s & ys & p & m & post & _ & _ & HF & _ & _). unfold fit_data in HF. destruct (c_hier c).
  - apply hierarchical_fit_inv in HF. destruct HF as (yb & tensor & X0 & X1 & X2 & ob0 & t0 & t & td & data & _ & _ & _ & _ & _ & _ & G & T & -> & _).
    unfold get_trend_model in G. rewrite HN in G. cbn [o_trend]. eapply Q; eauto.
  - apply univariate_fit_inv in HF. destruct HF as (t0 & t & yt & X1 & Xe & td & data & G & _ & T & _ & _ & <- & _).
    unfold get_trend_model in G. rewrite HN in G. eapply Q; eauto.
Qed.
End Any.
