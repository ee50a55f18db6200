(** Forecasts of panels after the last changepoint, with a feature transformer or without inputs. *)
From Coq Require Import Reals Lra ZArith Sorted String Bool List Lia Permutation.
From Verif.Model Require Import Base Num XFloat Frame Arr Expand Aggregate Scale Prog Likelihood Effect Trend TrendProg Engine Forecaster.
From Verif.Spec Require Import RegexSpec FrameSpec ProgSpec ForecasterSpec AlignSpec SiteSpec ShapeSpec OverlapSpec ComponentSpec TrendSpec DocsSpec ResponseSpec UpwardSpec SeasonSpec OnwardSpec.
From Verif.Facts Require Import DocsFormula DocsForecaster SeasonForecaster SeasonPanel SeasonTransformed OnwardForecaster.
Import ListNotations.
Local Open Scope string_scope.

Section Any.
Variable ns_of : Z -> Z.
Variable order : list string -> list string.
Variable keep : path -> bool.
Context {TS : Type}.
Variable tr_fit_transform : TS -> frame R -> TS * res (frame R).
Variable tr_transform : TS -> frame R -> res (frame R).
Context {P : Type}.
Variable svi_run : Z -> nat -> nat -> prog arr -> res (list xr * P).
Variable nuts_run : Z -> nat -> nat -> nat -> prog arr -> res (nat -> nat -> env).
Variable latent_sites : prog arr -> list string.
Notation fit_forecaster := (fit_forecaster ns_of order keep tr_fit_transform svi_run nuts_run latent_sites).
Notation predict_model := (predict_model ns_of keep tr_transform).

Lemma c123_transformed (Order : forall l, Permutation (order l) l) : forall c ob ob' y X0 (f : fitted (P := P)) iv rg K, fit_forecaster c ob y X0 = (ob', Ok f) -> c_hier c = true -> f_levels y <> 0 -> frame_wf y ->
  (forall r, In r (f_rows y) -> ~ In "__total" (r_path r)) -> balanced y -> clean_config c -> piecewise_options (o_trend ob') iv rg false -> (0 < iv)%R ->
  forall B0 Zt ob1, given_training X0 y B0 -> run_fit_transform tr_fit_transform ob B0 = (ob1, Ok Zt) -> frame_wf Zt -> f_levels Zt <> 0 -> f_rows Zt <> [] -> f_cols Zt <> [] ->
  forall shared, (match c_shared c with None => [] | Some l => l end) = shared -> copyable shared (f_cols Zt) (series_ids Zt) ->
  forall ds, StronglySorted Z.lt ds -> (forall t, In t ds <-> In t (map r_time (f_rows y))) -> increasing (map (fun t => day (ns_of t)) ds) -> changepoint_count (List.length ds) iv rg K ->
  forall y1 y2 given1 given2 below1 below2 X1 X2 fh1 fh2 m1 m2 cutoff ts1 ts2, predict_model c ob' f y1 given1 fh1 = Ok m1 -> predict_model c ob' f y2 given2 fh2 = Ok m2 ->
  max_time (map snd (p_index (ft_prepared f))) = Ok cutoff -> to_absolute cutoff fh1 = ts1 -> to_absolute cutoff fh2 = ts2 ->
  given_forecast given1 y1 ts1 below1 -> given_forecast given2 y2 ts2 below2 -> run_transform tr_transform ob' below1 = Ok X1 -> run_transform tr_transform ob' below2 = Ok X2 ->
  frame_wf X1 -> frame_wf X2 -> f_levels X1 <> 0 -> f_levels X2 <> 0 -> f_cols X1 = f_cols Zt -> f_cols X2 = f_cols Zt ->
  series_ids X1 = series_ids Zt -> series_ids X2 = series_ids Zt -> covers X1 ts1 -> covers X2 ts2 -> in_order ts1 -> in_order ts2 ->
  forall e o1 o2 tr1 tr2, run e [] m1 = Ok (o1, tr1) -> run e [] m2 = Ok (o2, tr2) ->
  forall i p t1 t2 j1 j2 r1 r2, i < List.length (series_ids y) -> nth_error ts1 j1 = Some t1 -> nth_error ts2 j2 = Some t2 -> In r1 (f_rows X1) -> In r2 (f_rows X2) -> r_time r1 = t1 -> r_time r2 = t2 ->
  nth_error (series_ids Zt) i = Some (r_path r1) -> nth_error (series_ids Zt) i = Some (r_path r2) -> t2 = (t1 + p)%Z ->
  (forall name ef ef0 cols x1 x2, In name (map fst (p_effects (ft_prepared f))) -> In (name, ef, cols) (p_fitted (ft_prepared f)) -> configured c name ef0 ->
    Forall2 (seen shared (series_ids X1) X1 r1) cols x1 -> Forall2 (seen shared (series_ids X2) X2 r2) cols x2 -> recurs p ef0 x1 x2) ->
  (forall name ef0, In name (map fst (p_effects (ft_prepared f))) -> configured c name ef0 -> effect_mode ef0 Additive) ->
  forall s1 s2, steps (map (fun t => day (ns_of t)) ds) (day (ns_of t1)) = s1 -> steps (map (fun t => day (ns_of t)) ds) (day (ns_of t2)) = s2 -> past_changepoints K iv s1 -> past_changepoints K iv s2 ->
  exists x1 x2, (List.length (series_ids y) = 1 -> expected tr1 j1 x1 /\ expected tr2 j2 x2) /\ (List.length (series_ids y) <> 1 -> expected_at tr1 i j1 x1 /\ expected_at tr2 i j2 x2) /\ (x2 - x1 = (s2 - s1) * final_rate e K i)%R.
Proof.
  intros c ob ob' y X0 f iv rg K HF Hc L Wy NT BA HC PO IV B0 Zt obt GT RF WZ LZ NR CZ shared SH CO ds SD DS INC CC y1 y2 given1 given2 below1 below2 X1 X2 fh1 fh2 m1 m2 cutoff ts1 ts2 M1 M2 KC H1 H2 GA1 GA2 RX1 RX2 W1 W2 L1 L2 F1 F2 B1 B2 C1 C2 O1 O2 e o1 o2 tr1 tr2 R1 R2 i p t1 t2 j1 j2 r1 r2 Hi J1 J2 I1 I2 E1 E2 N1 N2 EP UN AD s1 s2 S1 S2 A B.
  destruct (c123_panel_trend ns_of order keep tr_fit_transform tr_transform svi_run nuts_run latent_sites _ _ _ _ _ _ _ _ _ _ HF Hc L Wy NT BA HC PO IV _ SD DS INC CC _ _ _ _ _ _ _ _ _ _ _ M1 M2 KC H1 H2 (order_nodup _ O1) (order_nodup _ O2) _ _ _ _ _ R1 R2 _ _ _ _ _ _ _ Hi J1 J2 S1 S2 A B) as (v1 & v2 & V1 & V2 & V).
  destruct (c120_transformed ns_of order Order keep tr_fit_transform tr_transform svi_run nuts_run latent_sites _ _ _ _ _ _ HF Hc L Wy NT HC (piecewise_scalar _ _ _ _ PO) _ _ _ GT RF WZ LZ NR CZ _ SH CO _ _ _ _ _ _ _ _ _ _ _ _ _ _ _ M1 M2 KC H1 H2 GA1 GA2 RX1 RX2 W1 W2 L1 L2 F1 F2 B1 B2 C1 C2 O1 O2 _ _ _ _ _ R1 R2 _ _ _ _ _ _ _ _ Hi J1 J2 I1 I2 E1 E2 N1 N2 EP)
    as (w1 & w2 & D1 & D2 & _ & AL).
  destruct AL as (x1 & x2 & X1' & X2' & _ & DF); [intros name Hn ef ef0 cols x1 x2 Q1 Q2 Q3 Q4; exact (UN name ef ef0 cols x1 x2 Hn Q1 Q2 Q3 Q4)|].
  exists x1, x2. split; [exact X1'|]. split; [exact X2'|]. rewrite (DF AD), (component_unique _ _ _ _ _ D1 V1), (component_unique _ _ _ _ _ D2 V2). exact V.
Qed.
End Any.
