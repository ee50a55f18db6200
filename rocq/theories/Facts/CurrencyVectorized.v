(** The univariate class on panels: one forecaster per series, each in the units of its series. *)
From Coq Require Import Reals Lra String Bool ZArith List Lia.
From Verif.Model Require Import Base Num XFloat Frame Arr Expand Aggregate Scale Predict Prog Effect TrendProg Engine Forecaster History Vectorized.
From Verif.Spec Require Import FrameSpec ScaleSpec PredictSpec UnitsSpec CurrencySpec.
From Verif.Facts Require Import BaseFacts NumFacts OrderFacts FrameFacts ScaleFacts PredictFacts ForecasterFacts ForecasterInv UnitsFacts UnitsForecaster UnitsHistory CurrencyFacts.
Import ListNotations.
Local Open Scope R_scope.

Section Any.
Variable ns_of : Z -> Z.
Variable order : list string -> list string.
Variable keep : path -> bool.
Context {TS : Type}.
Variable tr_clone : TS -> TS.
Variable tr_fit_transform : TS -> frame R -> TS * res (frame R).
Variable tr_transform : TS -> frame R -> res (frame R).
Context {P : Type}.
Variable svi_run : Z -> nat -> nat -> prog arr -> res (list xr * P).
Variable nuts_run : Z -> nat -> nat -> nat -> prog arr -> res (nat -> nat -> env).
Variable latent_sites : prog arr -> list string.
Variable guide_draw : P -> Z -> nat -> prog arr -> env.
Variable complete_draw : env -> Z -> nat -> prog arr -> env.
Notation panel_fit := (panel_fit ns_of order keep tr_clone tr_fit_transform svi_run nuts_run latent_sites).
Notation panel_point := (panel_point ns_of keep tr_transform guide_draw complete_draw).
Variable k : path -> R.
Hypothesis kpos : forall p, 0 < k p.
Notation ou := (own_units k).

Lemma ou_series f p : series_frame (ou f) p = rescale_frame (k p) (series_frame f p).
Proof.
  unfold series_frame, drop_levels, filter_rows, own_units, rescale_frame. cbn [f_levels f_cols f_rows]. f_equal. induction (f_rows f) as [|r l IH]; [reflexivity|]. cbn [map filter r_path].
  destruct (path_eqb (r_path r) p) eqn:E; [|exact IH]. cbn [map r_path r_time r_vals]. rewrite IH. apply path_eqb_eq in E. rewrite E. reflexivity.
Qed.

Definition member_units (a b : path * member TS P) : Prop :=
  fst b = fst a /\ m_objects (snd b) = m_objects (snd a) /\ rel_fitted (k (fst a)) (m_fitted (snd a)) (m_fitted (snd b)) /\ m_y (snd b) = rescale_frame (k (fst a)) (m_y (snd a)).

Lemma member_fit c (ob : objects) y X p : c_hier c = false -> c_scale c = None -> discrete c = false -> lift_free_config c ->
  match fit_member ns_of order keep tr_clone tr_fit_transform svi_run nuts_run latent_sites c ob y X p, fit_member ns_of order keep tr_clone tr_fit_transform svi_run nuts_run latent_sites c ob (ou y) X p with
  | Ok a, Ok b => fst a = p /\ member_units a b | Err e, Err e' => e' = e | _, _ => False end.
Proof.
  intros H C D LF. unfold fit_member. rewrite ou_series. set (X' := option_map _ X). set (o := clone_objects tr_clone ob). set (yp := series_frame y p).
  assert (L0 : f_levels yp = 0%nat) by reflexivity.
  pose proof (fit_units ns_of order keep tr_fit_transform svi_run nuts_run latent_sites (k p) (kpos p) c o yp X' C D) as U. cbv zeta in U.
  rewrite (lift_free_config_id _ c LF) in U. destruct U as [U1 U2]; [intros N; congruence|intros N; congruence|].
  destruct (fit_forecaster _ _ _ _ _ _ _ c o yp X') as [o1 r1], (fit_forecaster _ _ _ _ _ _ _ c o (rescale_frame (k p) yp) X') as [o2 r2]. cbn [fst snd] in U1, U2. subst o2.
  destruct r1 as [f1|e1], r2 as [f2|e2]; try contradiction; cbn [bind]; [|exact U2]. split; [reflexivity|]. split; [reflexivity|]. split; [reflexivity|]. split; [exact U2|reflexivity].
Qed.

Lemma mapM_related {A B C} (RR : B -> C -> Prop) (f : A -> res B) (g : A -> res C) l :
  (forall a, In a l -> match f a, g a with Ok b, Ok c => RR b c | Err e, Err e' => e' = e | _, _ => False end) ->
  match mapM f l, mapM g l with Ok bs, Ok cs => Forall2 RR bs cs | Err e, Err e' => e' = e | _, _ => False end.
Proof.
  induction l as [|a l IH]; intros H; cbn [mapM]; [constructor|]. pose proof (H a (or_introl eq_refl)) as Ha. destruct (f a), (g a); try contradiction; cbn [bind]; [|exact Ha].
  specialize (IH (fun a' Ha' => H a' (or_intror Ha'))). destruct (mapM f l), (mapM g l); try contradiction; cbn [bind]; [constructor; assumption|exact IH].
Qed.

Theorem currency_panel c (ob : objects) y X target levels : c_hier c = false -> c_scale c = None -> discrete c = false -> lift_free_config c ->
  match panel_fit c ob y X, panel_fit c ob (ou y) X with
  | Ok ms, Ok ms' => forall X2 fh, panel_point c target levels ms' X2 fh = rmap ou (panel_point c target levels ms X2 fh)
  | Err e, Err e' => e' = e | _, _ => False end.
Proof.
  intros H C D LF. unfold Vectorized.panel_fit. rewrite ou_ids.
  assert (M : match mapM (fit_member ns_of order keep tr_clone tr_fit_transform svi_run nuts_run latent_sites c ob y X) (series_ids y), mapM (fit_member ns_of order keep tr_clone tr_fit_transform svi_run nuts_run latent_sites c ob (ou y) X) (series_ids y) with
    | Ok bs, Ok cs => Forall2 member_units bs cs | Err e, Err e' => e' = e | _, _ => False end).
  { apply mapM_related. intros p _. pose proof (member_fit c ob y X p H C D LF) as Q. destruct (fit_member _ _ _ _ _ _ _ _ c ob y X p), (fit_member _ _ _ _ _ _ _ _ c ob (ou y) X p); try contradiction; [apply Q|exact Q]. }
  destruct (mapM _ (series_ids y)) as [ms|], (mapM _ (series_ids y)) as [ms'|]; try contradiction; [|exact M].
  intros X2 fh. unfold Vectorized.panel_point.
  assert (G : match mapM (fun pm => o <- snd (forecast_point ns_of keep tr_transform guide_draw complete_draw c (m_objects (snd pm)) (m_fitted (snd pm)) (m_y (snd pm)) (option_map (fun X => series_frame X (fst pm)) X2) fh) ;; Ok (fst pm, o)) ms,
                    mapM (fun pm => o <- snd (forecast_point ns_of keep tr_transform guide_draw complete_draw c (m_objects (snd pm)) (m_fitted (snd pm)) (m_y (snd pm)) (option_map (fun X => series_frame X (fst pm)) X2) fh) ;; Ok (fst pm, o)) ms' with
    | Ok os, Ok os' => os' = map (fun po => (fst po, rescale_frame (k (fst po)) (snd po))) os | Err e, Err e' => e' = e | _, _ => False end).
  { induction M as [|a b ms ms' (M1 & M2 & M3 & M4) F IH]; [reflexivity|]. cbn [mapM]. destruct a as [p [o1 f1 y1]], b as [p' [o2 f2 y2]]. cbn [fst snd m_objects m_fitted m_y] in *. subst p' o2 y2.
    pose proof (method_units ns_of keep tr_transform guide_draw complete_draw (k p) (kpos p) (k p) c o1 f1 f2 y1 Point (option_map (fun X => series_frame X p) X2) fh D M3) as U. cbv zeta in U. rewrite (lift_free_config_id _ c LF) in U. destruct U as [_ U].
    unfold call_method in U. destruct (forecast_point _ _ _ _ _ c o1 f1 y1 _ fh) as [g1 r1], (forecast_point _ _ _ _ _ c o1 f2 _ _ fh) as [g2 r2]. cbn [fst snd] in U |- *.
    destruct r1 as [F1|e1], r2 as [F2|e2]; cbn [bind rescale_result rescale_output] in U |- *; try discriminate; [|injection U as ->; reflexivity]. injection U as ->.
    destruct (mapM _ ms) as [os|], (mapM _ ms') as [os'|]; try contradiction; cbn [bind]; [|exact IH]. cbn [map fst snd]. now rewrite IH. }
  destruct (mapM _ ms) as [os|], (mapM _ ms') as [os'|]; try contradiction; cbn [bind rmap]; [|now rewrite G]. rewrite G. unfold own_units. cbn [f_levels f_cols f_rows]. do 2 f_equal. clear G M.
  induction os as [|[p F] os IH]; [reflexivity|]. cbn [map flat_map fst snd]. rewrite map_app, <- IH. f_equal. unfold rescale_frame. cbn [f_rows]. rewrite !map_map. apply map_ext. intros r. reflexivity.
Qed.
End Any.
