(** After the last changepoint the trend goes on with its final rate. *)
From Coq Require Import Reals Lra ZArith Sorted String Bool List Lia Permutation.
From Verif.Model Require Import Base Num XFloat Frame Arr Expand Aggregate Scale Prog Likelihood Effect Trend TrendProg Engine Forecaster.
From Verif.Spec Require Import RegexSpec FrameSpec ProgSpec ForecasterSpec AlignSpec SiteSpec ShapeSpec OverlapSpec ComponentSpec TrendSpec DocsSpec ResponseSpec UpwardSpec SeasonSpec OnwardSpec.
From Verif.Facts Require Import DocsFormula DocsForecaster SeasonForecaster SeasonPanel.
Import ListNotations.
Local Open Scope string_scope.

Lemma line_onward e K iv i s1 s2 : past_changepoints K iv s1 -> past_changepoints K iv s2 -> (line_at e K iv i s2 - line_at e K iv i s1 = (s2 - s1) * final_rate e K i)%R.
Proof.
  intros A B. unfold line_at, final_rate. rewrite sum_to_scale.
  rewrite (sum_to_ext K (fun k => _ * bend s2 _)%R (fun k => e "changepoint_coefficients" (i * K + k)%nat * bend s1 (INR k * iv) + (s2 - s1) * e "changepoint_coefficients" (i * K + k)%nat)%R).
  - rewrite <- sum_to_add. lra.
  - intros k Hk. unfold bend. specialize (A k Hk). specialize (B k Hk). destruct (Rle_dec _ s1); [|lra]. destruct (Rle_dec _ s2); lra.
Qed.
Lemma logit_trend e K iv i s : (0 < e "capacity" i)%R -> logit (e "capacity" i) (trend_at e true K iv i s) = line_at e K iv i s.
Proof.
  intros H. unfold logit, trend_at. set (x := line_at e K iv i s). pose proof (exp_pos (- x)). replace (_ / _)%R with (exp x); [apply ln_exp|].
  rewrite exp_Ropp in *. pose proof (exp_pos x). field. repeat split; lra.
Qed.
Lemma trend_onward e lg K iv i s1 s2 : past_changepoints K iv s1 -> past_changepoints K iv s2 -> onward e lg K i (s2 - s1) (trend_at e lg K iv i s1) (trend_at e lg K iv i s2).
Proof. intros A B. unfold onward. destruct lg; [intros H; rewrite !logit_trend by exact H|]; apply line_onward; assumption. Qed.
Lemma component_unique tr n k v w : component_at tr n k v -> component_at tr n k w -> v = w.
Proof. intros (a & A & B) (a' & A' & B'). congruence. Qed.

Lemma piecewise_scalar t iv rg lg : piecewise_options t iv rg lg -> scalar_piecewise t.
Proof. unfold piecewise_options, scalar_piecewise. destruct t; try tauto. intros (A & B & _). rewrite ?A, ?B. eauto 9. Qed.
Lemma order_nodup ts : in_order ts -> NoDup ts.
Proof.
  unfold in_order. induction 1 as [|a l S IH FA]; constructor; auto. intros I. rewrite Forall_forall in FA. specialize (FA _ I). lia.
Qed.

Section Any.
Variable ns_of : Z -> Z.
Variable order : list string -> list string.
Variable keep : path -> bool.
Context {TS : Type}.
Variable tr_fit_transform : TS -> frame R -> TS * res (frame R).
Variable tr_transform : TS -> frame R -> res (frame R).
Context {P : Type}.
Variable svi_run : Z -> nat -> nat -> prog arr -> res (list xr * P).
Variable nuts_run : Z -> nat -> nat -> nat -> prog arr -> res (nat -> nat -> env).
Variable latent_sites : prog arr -> list string.
Notation fit_forecaster := (fit_forecaster ns_of order keep tr_fit_transform svi_run nuts_run latent_sites).
Notation predict_model := (predict_model ns_of keep tr_transform).

Lemma c123_trend : forall c ob y X ob' (f : fitted (P := P)) iv rg lg K, fit_forecaster c ob y X = (ob', Ok f) -> c_hier c = false -> f_levels y = 0 -> clean_config c ->
  piecewise_options (o_trend ob') iv rg lg -> (0 < iv)%R ->
  forall ds, map r_time (f_rows y) = ds -> increasing (map (fun t => day (ns_of t)) ds) -> changepoint_count (List.length ds) iv rg K ->
  forall y1 y2 X1 X2 fh1 fh2 m1 m2 cut1 cut2 ts1 ts2, predict_model c ob' f y1 X1 fh1 = Ok m1 -> predict_model c ob' f y2 X2 fh2 = Ok m2 ->
  max_time (map r_time (f_rows y1)) = Ok cut1 -> max_time (map r_time (f_rows y2)) = Ok cut2 -> to_absolute cut1 fh1 = ts1 -> to_absolute cut2 fh2 = ts2 ->
  forall e o1 o2 tr1 tr2, run e [] m1 = Ok (o1, tr1) -> run e [] m2 = Ok (o2, tr2) ->
  forall j1 j2 t1 t2 s1 s2, nth_error ts1 j1 = Some t1 -> nth_error ts2 j2 = Some t2 -> steps (map (fun t => day (ns_of t)) ds) (day (ns_of t1)) = s1 -> steps (map (fun t => day (ns_of t)) ds) (day (ns_of t2)) = s2 -> past_changepoints K iv s1 -> past_changepoints K iv s2 ->
  exists v1 v2, component_at tr1 "trend" j1 v1 /\ component_at tr2 "trend" j2 v2 /\ onward e lg K 0 (s2 - s1) v1 v2.
Proof.
  intros c ob y X ob' f iv rg lg K HF Hc L HC PO IV ds HD INC CC y1 y2 X1 X2 fh1 fh2 m1 m2 cut1 cut2 ts1 ts2 M1 M2 K1 K2 H1 H2 e o1 o2 tr1 tr2 R1 R2 j1 j2 t1 t2 s1 s2 J1 J2 <- <- A B.
  destruct (c103_univariate ns_of order keep tr_fit_transform tr_transform svi_run nuts_run latent_sites _ _ _ _ _ _ _ _ _ _ HF Hc L HC PO IV _ HD INC CC _ _ _ _ _ _ M1 K1 H1 _ _ _ R1) as (tv1 & T1 & V1 & _).
  destruct (c103_univariate ns_of order keep tr_fit_transform tr_transform svi_run nuts_run latent_sites _ _ _ _ _ _ _ _ _ _ HF Hc L HC PO IV _ HD INC CC _ _ _ _ _ _ M2 K2 H2 _ _ _ R2) as (tv2 & T2 & V2 & _).
  eexists _, _. split; [exists tv1; split; [exact T1|exact (V1 _ _ J1)]|]. split; [exists tv2; split; [exact T2|exact (V2 _ _ J2)]|]. apply trend_onward; assumption.
Qed.
Lemma c123_panel_trend : forall c ob y X ob' (f : fitted (P := P)) iv rg lg K, fit_forecaster c ob y X = (ob', Ok f) -> c_hier c = true -> f_levels y <> 0 -> frame_wf y ->
  (forall r, In r (f_rows y) -> ~ In "__total" (r_path r)) -> balanced y -> clean_config c -> piecewise_options (o_trend ob') iv rg lg -> (0 < iv)%R ->
  forall ds, StronglySorted Z.lt ds -> (forall t, In t ds <-> In t (map r_time (f_rows y))) -> increasing (map (fun t => day (ns_of t)) ds) -> changepoint_count (List.length ds) iv rg K ->
  forall y1 y2 X1 X2 fh1 fh2 m1 m2 cutoff ts1 ts2, predict_model c ob' f y1 X1 fh1 = Ok m1 -> predict_model c ob' f y2 X2 fh2 = Ok m2 ->
  max_time (map snd (p_index (ft_prepared f))) = Ok cutoff -> to_absolute cutoff fh1 = ts1 -> to_absolute cutoff fh2 = ts2 -> NoDup ts1 -> NoDup ts2 ->
  forall e o1 o2 tr1 tr2, run e [] m1 = Ok (o1, tr1) -> run e [] m2 = Ok (o2, tr2) ->
  forall i j1 j2 t1 t2 s1 s2, i < List.length (series_ids y) -> nth_error ts1 j1 = Some t1 -> nth_error ts2 j2 = Some t2 ->
  steps (map (fun t => day (ns_of t)) ds) (day (ns_of t1)) = s1 -> steps (map (fun t => day (ns_of t)) ds) (day (ns_of t2)) = s2 -> past_changepoints K iv s1 -> past_changepoints K iv s2 ->
  exists v1 v2, component_at tr1 "trend" (i * List.length ts1 + j1) v1 /\ component_at tr2 "trend" (i * List.length ts2 + j2) v2 /\ onward e lg K i (s2 - s1) v1 v2.
Proof.
  intros c ob y X ob' f iv rg lg K HF Hc L Wy NT BA HC PO IV ds SD DS INC CC y1 y2 X1 X2 fh1 fh2 m1 m2 cutoff ts1 ts2 M1 M2 KC H1 H2 N1 N2 e o1 o2 tr1 tr2 R1 R2 i j1 j2 t1 t2 s1 s2 Hi J1 J2 <- <- A B.
  destruct (c103_hierarchical ns_of order keep tr_fit_transform tr_transform svi_run nuts_run latent_sites _ _ _ _ _ _ _ _ _ _ HF Hc L Wy NT BA HC PO IV _ SD DS INC CC _ _ _ _ _ _ M1 KC H1 N1 _ _ _ R1) as (tv1 & T1 & V1 & _).
  destruct (c103_hierarchical ns_of order keep tr_fit_transform tr_transform svi_run nuts_run latent_sites _ _ _ _ _ _ _ _ _ _ HF Hc L Wy NT BA HC PO IV _ SD DS INC CC _ _ _ _ _ _ M2 KC H2 N2 _ _ _ R2) as (tv2 & T2 & V2 & _).
  eexists _, _. split; [exists tv1; split; [exact T1|exact (V1 _ _ _ Hi J1)]|]. split; [exists tv2; split; [exact T2|exact (V2 _ _ _ Hi J2)]|]. apply trend_onward; assumption.
Qed.
Lemma last_In (l : list R) d : l <> [] -> In (last l d) l.
Proof. induction l as [|a l IH]; [congruence|]. intros _. destruct l as [|b l]; [now left|]. right. apply IH. discriminate. Qed.
Lemma c123_beyond : forall ds n iv rg K t, List.length ds = n -> increasing (map (fun t => day (ns_of t)) ds) -> changepoint_count n iv rg K -> (rg < 1 \/ rg <= INR (n - 1))%R ->
  (forall d, In d ds -> day (ns_of d) <= day (ns_of t))%R -> past_changepoints K iv (steps (map (fun t => day (ns_of t)) ds) (day (ns_of t))).
Proof.
  intros ds n iv rg K t HL INC CC RG AF k Hk. apply CC in Hk. unfold range_end in Hk.
  assert (Hk' : (INR k * iv < INR (n - 1))%R).
  { destruct (Rlt_dec 0 rg) as [P0|P0]; [destruct (Rlt_dec rg 1) as [P1|P1]|]; [|destruct RG; lra|lra]. pose proof (pos_INR (n - 1)). nra. }
  clear Hk RG. destruct ds as [|d0 ds]; [|destruct ds as [|d1 ds]].
  - cbn in HL. subst n. unfold steps. cbn. cbn in Hk'. unfold Rdiv. rewrite ?Rminus_0_r, ?Rmult_0_l, ?Rinv_0. rewrite ?Rinv_0, ?Rmult_0_r. lra.
  - cbn in HL. subst n. unfold steps. cbn. cbn in Hk'. unfold Rdiv. rewrite Rminus_diag_eq with (r1 := day (ns_of d0)) (r2 := day (ns_of d0)) by reflexivity. rewrite Rmult_0_l, Rinv_0, Rmult_0_r. lra.
  - remember (map (fun t => day (ns_of t)) (d0 :: d1 :: ds)) as days eqn:ED. assert (NL : List.length days = n) by (subst days; rewrite map_length; exact HL).
    assert (LT : (last days 0 <= day (ns_of t))%R). { assert (I : In (last days 0%R) days) by (apply last_In; subst; discriminate). remember (last days 0%R) as z eqn:EZ. clear EZ. rewrite ED in I. apply in_map_iff in I. destruct I as (d & <- & I). now apply AF. }
    assert (GT : (hd 0 days < last days 0)%R). { subst days. cbn [map hd]. unfold increasing in INC. cbn [map] in INC. inversion INC as [|? ? _ FA]. subst. rewrite Forall_forall in FA. apply FA. change (last (day (ns_of d0) :: day (ns_of d1) :: map (fun t => day (ns_of t)) ds) 0%R) with (last (day (ns_of d1) :: map (fun t => day (ns_of t)) ds) 0%R). apply last_In. discriminate. }
    assert (NP : (0 < INR (n - 1))%R) by (apply lt_0_INR; cbn in HL; lia).
    apply Rlt_le, (Rlt_le_trans _ _ _ Hk'). unfold steps. rewrite NL. remember ((last days 0 - hd 0 days) / INR (n - 1))%R as w eqn:EW. assert (WP : (0 < w)%R) by (rewrite EW; apply Rdiv_lt_0_compat; lra).
    apply (Rmult_le_reg_r w); [exact WP|]. replace ((day (ns_of t) - hd 0 days) / w * w)%R with (day (ns_of t) - hd 0 days)%R by (field; lra). replace (INR (n - 1) * w)%R with (last days 0 - hd 0 days)%R by (rewrite EW; field; lra). lra.
Qed.
Lemma c123_forecast : forall c ob ob' y X (f : fitted (P := P)) iv rg K, fit_forecaster c ob y X = (ob', Ok f) -> c_hier c = false -> f_levels y = 0 -> frame_wf y -> clean_config c ->
  piecewise_options (o_trend ob') iv rg false -> (0 < iv)%R -> c_likelihood c = "normal" -> f_rows y <> [] -> (forall Z, X = Some Z -> frame_wf Z) -> (forall s Z s' Z', frame_wf Z -> tr_fit_transform s Z = (s', Ok Z') -> frame_wf Z') ->
  forall ds, map r_time (f_rows y) = ds -> increasing (map (fun t => day (ns_of t)) ds) -> changepoint_count (List.length ds) iv rg K ->
  forall y1 y2 X1 X2 fh1 fh2 m1 m2 cut1 cut2 ts1 ts2 U1 U2, predict_model c ob' f y1 X1 fh1 = Ok m1 -> predict_model c ob' f y2 X2 fh2 = Ok m2 ->
  max_time (map r_time (f_rows y1)) = Ok cut1 -> max_time (map r_time (f_rows y2)) = Ok cut2 -> to_absolute cut1 fh1 = ts1 -> to_absolute cut2 fh2 = ts2 ->
  run_transform tr_transform ob' (supplied X1 ts1) = Ok U1 -> run_transform tr_transform ob' (supplied X2 ts2) = Ok U2 ->
  covers U1 ts1 -> covers U2 ts2 -> frame_wf U1 -> frame_wf U2 -> f_levels U1 = 0 -> f_levels U2 = 0 -> in_order ts1 -> in_order ts2 ->
  forall e o1 o2 tr1 tr2, run e [] m1 = Ok (o1, tr1) -> run e [] m2 = Ok (o2, tr2) ->
  forall p t1 t2 j1 j2 r1 r2, nth_error ts1 j1 = Some t1 -> nth_error ts2 j2 = Some t2 -> In r1 (f_rows U1) -> In r2 (f_rows U2) -> r_time r1 = t1 -> r_time r2 = t2 -> t2 = (t1 + p)%Z ->
  (forall name ef ef0 cols x1 x2, In name (map fst (p_effects (ft_prepared f))) -> In (name, ef, cols) (p_fitted (ft_prepared f)) -> configured c name ef0 -> values_at U1 r1 cols x1 -> values_at U2 r2 cols x2 -> recurs p ef0 x1 x2) ->
  (forall name ef0, In name (map fst (p_effects (ft_prepared f))) -> configured c name ef0 -> effect_mode ef0 Additive) ->
  forall s1 s2, steps (map (fun t => day (ns_of t)) ds) (day (ns_of t1)) = s1 -> steps (map (fun t => day (ns_of t)) ds) (day (ns_of t2)) = s2 -> past_changepoints K iv s1 -> past_changepoints K iv s2 ->
  exists x1 x2, expected tr1 j1 x1 /\ expected tr2 j2 x2 /\ (x2 - x1 = (s2 - s1) * final_rate e K 0)%R.
Proof.
  intros c ob ob' y X f iv rg K HF Hc L Wy HC PO IV LK NE WX WT ds HD INC CC y1 y2 X1 X2 fh1 fh2 m1 m2 cut1 cut2 ts1 ts2 U1 U2 M1 M2 K1 K2 H1 H2 T1 T2 C1 C2 W1 W2 L1 L2 O1 O2 e o1 o2 tr1 tr2 R1 R2 p t1 t2 j1 j2 r1 r2 J1 J2 I1 I2 E1 E2 EP UN AD s1 s2 S1 S2 A B.
  destruct (c123_trend _ _ _ _ _ _ _ _ _ _ HF Hc L HC PO IV _ HD INC CC _ _ _ _ _ _ _ _ _ _ _ _ M1 M2 K1 K2 H1 H2 _ _ _ _ _ R1 R2 _ _ _ _ _ _ J1 J2 S1 S2 A B) as (v1 & v2 & V1 & V2 & V).
  destruct (c120_forecast ns_of order keep tr_fit_transform tr_transform svi_run nuts_run latent_sites _ _ _ _ _ _ HF Hc L Wy HC (or_introl (piecewise_scalar _ _ _ _ PO)) WX WT _ _ _ _ _ _ _ _ _ _ _ _ _ _ M1 M2 K1 K2 H1 H2 T1 T2 C1 C2 W1 W2 L1 L2 O1 O2 _ _ _ _ _ R1 R2 _ _ _ _ _ _ _ J1 J2 I1 I2 E1 E2 EP NE ltac:(rewrite LK; discriminate))
    as (w1 & w2 & D1 & D2 & _ & _ & AL).
  destruct AL as (x1 & x2 & X1' & X2' & _ & DF); [intros name Hn ef ef0 cols x1 x2 Q1 Q2 Q3 Q4; exact (UN name ef ef0 cols x1 x2 Hn Q1 Q2 Q3 Q4)|].
  exists x1, x2. split; [exact X1'|]. split; [exact X2'|]. rewrite (DF LK AD), (component_unique _ _ _ _ _ D1 V1), (component_unique _ _ _ _ _ D2 V2). exact V.
Qed.
Lemma c123_panel (Order : forall l, Permutation (order l) l) : forall c ob ob' y Z0 (f : fitted (P := P)) iv rg K, fit_forecaster c ob y (Some Z0) = (ob', Ok f) -> c_hier c = true -> f_levels y <> 0 -> frame_wf y ->
  (forall r, In r (f_rows y) -> ~ In "__total" (r_path r)) -> balanced y -> clean_config c -> piecewise_options (o_trend ob') iv rg false -> (0 < iv)%R -> o_transformer ob = None -> frame_wf Z0 -> f_levels Z0 <> 0 -> f_cols Z0 <> [] ->
  forall shared, (match c_shared c with None => [] | Some l => l end) = shared -> copyable shared (f_cols Z0) (bottom_series Z0) ->
  forall ds, StronglySorted Z.lt ds -> (forall t, In t ds <-> In t (map r_time (f_rows y))) -> increasing (map (fun t => day (ns_of t)) ds) -> changepoint_count (List.length ds) iv rg K ->
  forall y1 y2 X1 X2 fh1 fh2 m1 m2 cutoff ts1 ts2, predict_model c ob' f y1 (Some X1) fh1 = Ok m1 -> predict_model c ob' f y2 (Some X2) fh2 = Ok m2 ->
  max_time (map snd (p_index (ft_prepared f))) = Ok cutoff -> to_absolute cutoff fh1 = ts1 -> to_absolute cutoff fh2 = ts2 ->
  frame_wf X1 -> frame_wf X2 -> f_levels X1 <> 0 -> f_levels X2 <> 0 -> f_cols X1 = f_cols Z0 -> f_cols X2 = f_cols Z0 ->
  bottom_series X1 = bottom_series Z0 -> bottom_series X2 = bottom_series Z0 -> covers X1 ts1 -> covers X2 ts2 -> in_order ts1 -> in_order ts2 ->
  forall e o1 o2 tr1 tr2, run e [] m1 = Ok (o1, tr1) -> run e [] m2 = Ok (o2, tr2) ->
  forall i p t1 t2 j1 j2 r1 r2, i < List.length (series_ids y) -> nth_error ts1 j1 = Some t1 -> nth_error ts2 j2 = Some t2 -> In r1 (f_rows X1) -> In r2 (f_rows X2) -> r_time r1 = t1 -> r_time r2 = t2 ->
  nth_error (bottom_series Z0) i = Some (r_path r1) -> nth_error (bottom_series Z0) i = Some (r_path r2) -> t2 = (t1 + p)%Z ->
  (forall name ef ef0 cols x1 x2, In name (map fst (p_effects (ft_prepared f))) -> In (name, ef, cols) (p_fitted (ft_prepared f)) -> configured c name ef0 ->
    Forall2 (seen shared (bottom_series X1) X1 r1) cols x1 -> Forall2 (seen shared (bottom_series X2) X2 r2) cols x2 -> recurs p ef0 x1 x2) ->
  (forall name ef0, In name (map fst (p_effects (ft_prepared f))) -> configured c name ef0 -> effect_mode ef0 Additive) ->
  forall s1 s2, steps (map (fun t => day (ns_of t)) ds) (day (ns_of t1)) = s1 -> steps (map (fun t => day (ns_of t)) ds) (day (ns_of t2)) = s2 -> past_changepoints K iv s1 -> past_changepoints K iv s2 ->
  exists x1 x2, (List.length (series_ids y) = 1 -> expected tr1 j1 x1 /\ expected tr2 j2 x2) /\ (List.length (series_ids y) <> 1 -> expected_at tr1 i j1 x1 /\ expected_at tr2 i j2 x2) /\ (x2 - x1 = (s2 - s1) * final_rate e K i)%R.
Proof.
  intros c ob ob' y Z0 f iv rg K HF Hc L Wy NT BA HC PO IV TN WZ LZ CZ shared SH CO ds SD DS INC CC y1 y2 X1 X2 fh1 fh2 m1 m2 cutoff ts1 ts2 M1 M2 KC H1 H2 W1 W2 L1 L2 F1 F2 B1 B2 C1 C2 O1 O2 e o1 o2 tr1 tr2 R1 R2 i p t1 t2 j1 j2 r1 r2 Hi J1 J2 I1 I2 E1 E2 N1 N2 EP UN AD s1 s2 S1 S2 A B.
  destruct (c123_panel_trend _ _ _ _ _ _ _ _ _ _ HF Hc L Wy NT BA HC PO IV _ SD DS INC CC _ _ _ _ _ _ _ _ _ _ _ M1 M2 KC H1 H2 (order_nodup _ O1) (order_nodup _ O2) _ _ _ _ _ R1 R2 _ _ _ _ _ _ _ Hi J1 J2 S1 S2 A B) as (v1 & v2 & V1 & V2 & V).
  destruct (c120_panel ns_of order Order keep tr_fit_transform tr_transform svi_run nuts_run latent_sites _ _ _ _ _ _ HF Hc L Wy NT HC (piecewise_scalar _ _ _ _ PO) TN WZ LZ CZ _ SH CO _ _ _ _ _ _ _ _ _ _ _ M1 M2 KC H1 H2 W1 W2 L1 L2 F1 F2 B1 B2 C1 C2 O1 O2 _ _ _ _ _ R1 R2 _ _ _ _ _ _ _ _ Hi J1 J2 I1 I2 E1 E2 N1 N2 EP)
    as (w1 & w2 & D1 & D2 & _ & AL).
  destruct AL as (x1 & x2 & X1' & X2' & _ & DF); [intros name Hn ef ef0 cols x1 x2 Q1 Q2 Q3 Q4; exact (UN name ef ef0 cols x1 x2 Hn Q1 Q2 Q3 Q4)|].
  exists x1, x2. split; [exact X1'|]. split; [exact X2'|]. rewrite (DF AD), (component_unique _ _ _ _ _ D1 V1), (component_unique _ _ _ _ _ D2 V2). exact V.
Qed.
End Any.
