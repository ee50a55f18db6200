(** Components of the fitted model. *)
From Coq Require Import Reals Lra ZArith String Ascii Bool List Lia Permutation Sorted.
From Verif.Model Require Import Base Num XFloat Frame Arr Prog Effect Expand Trend TrendProg Aggregate Scale Engine Forecaster.
From Verif.Spec Require Import RegexSpec FrameSpec ProgSpec EffectSpec ForecasterSpec SiteSpec ShapeSpec AlignSpec OverlapSpec InsampleSpec ResponseSpec.
From Verif.Facts Require Import BaseFacts FrameFacts InsampleFacts ResponseForecaster ResponseHierarchical.
Import ListNotations.
Local Open Scope string_scope.

Lemma get_last (l : trace) n v x : n <> "obs" -> dict_get (l ++ [("obs", v)])%list n = Some x <-> dict_get l n = Some x.
Proof.
  intros N. induction l as [|[k w] l IH]; cbn [app dict_get].
  - destruct (String.eqb_spec "obs" n) as [E|E]; [congruence|]. destruct (String.eqb_spec n "obs") as [E'|E']; [congruence|]. cbn. split; intros H; try discriminate; auto.
  - destruct (String.eqb _ _); [reflexivity|exact IH].
Qed.
(** the runs of the two programs record the same values *)
Lemma insample_values y m m' e o tr : same_but_observed y m m' -> run e [] m = Ok (o, tr) ->
  exists o' tr', run e [] m' = Ok (o', tr') /\ forall n x, n <> "obs" -> dict_get tr' n = Some x -> dict_get tr n = Some x.
Proof.
  intros S H. specialize (S e). rewrite H in S. destruct (run e [] m') as [[o' tr']|] eqn:E; [|contradiction]. destruct S as (before & d & v & -> & ->). exists o', (before ++ [("obs", SSample d v false)])%list.
  split; [reflexivity|]. intros n x N G. apply get_last; [exact N|]. now apply get_last in G.
Qed.
Lemma slash_obs name p : name ++ "/" ++ p <> "obs".
Proof. destruct name as [|a [|b [|c name]]]; cbn; try discriminate. intros [= _ _ _ H]. destruct name; discriminate. Qed.
Lemma has_prior_moved e name tr tr' p d sh : (forall n x, n <> "obs" -> dict_get tr' n = Some x -> dict_get tr n = Some x) -> has_prior e name tr' p d sh -> has_prior e name tr p d sh.
Proof. intros M (v & G & H). exists v. split; [|exact H]. apply M; [apply slash_obs|exact G]. Qed.
Lemma priors_moved e name n ef tr tr' k : (forall n x, n <> "obs" -> dict_get tr' n = Some x -> dict_get tr n = Some x) -> priors e name n ef tr' k -> priors e name n ef tr k.
Proof.
  intros M. revert k. induction ef; intros k H; cbn [priors] in *; try (now apply (has_prior_moved _ _ _ tr')).
  - destruct H as [H1 H2]. split; now apply (has_prior_moved _ _ _ tr').
  - destruct H as (H1 & H2 & H3). repeat split; now apply (has_prior_moved _ _ _ tr').
  - now apply IHef.
  - destruct H as (hs & H1 & H2). exists hs. split; [exact H1|]. now apply (has_prior_moved _ _ _ tr').
Qed.

Section Forecaster.
Variable ns_of : Z -> Z.
Variable order : list string -> list string.
Hypothesis Order : forall l, Permutation (order l) l.
Variable keep : path -> bool.
Context {TS : Type}.
Variable tr_fit_transform : TS -> frame R -> TS * res (frame R).
Variable tr_transform : TS -> frame R -> res (frame R).
Hypothesis transformers : forall s X s' X', tr_fit_transform s X = (s', Ok X') -> tr_transform s' X = Ok X' /\ labels X' = labels X.
Context {P : Type}.
Variable svi_run : Z -> nat -> nat -> prog arr -> res (list xr * P).
Variable nuts_run : Z -> nat -> nat -> nat -> prog arr -> res (nat -> nat -> env).
Variable latent_sites : prog arr -> list string.
Notation fit_forecaster := (fit_forecaster ns_of order keep tr_fit_transform svi_run nuts_run latent_sites).
Notation fit_data := (fit_data ns_of order keep tr_fit_transform).

Lemma not_obs c ob y X ob' (f : fitted (P := P)) name ef : fit_forecaster c ob y X = (ob', Ok f) -> clean_config c -> In (name, ef) (p_effects (ft_prepared f)) -> name <> "obs".
Proof.
  intros H C I E. destruct (SiteFacts.forecaster_clean _ _ _ _ _ _ _ _ _ _ _ _ _ H C) as (_ & C2 & _). destruct (C2 _ _ I) as [[_ F] _]. subst name. apply F. cbn. auto 10.
Qed.

Theorem c104_training c ob y X ob' (f : fitted (P := P)) t0 : fit_forecaster c ob y X = (ob', Ok f) -> c_hier c = false -> f_levels y = 0 -> frame_wf y -> clean_config c ->
  scalar_piecewise (o_trend ob') \/ flat_trend (o_trend ob') -> match X with None => True | Some X => frame_wf X /\ f_levels X = 0 /\ ascending (labels X) end -> (forall s Z s' Z', frame_wf Z -> tr_fit_transform s Z = (s', Ok Z') -> frame_wf Z') ->
  first_date (map r_time (f_rows y)) t0 -> ascending (labels y) ->
  forall ts Xt, map r_time (f_rows y) = ts -> in_order ts -> run_transform tr_transform ob' (supplied X ts) = Ok Xt -> covers Xt ts -> frame_wf Xt -> f_levels Xt = 0 ->
  exists ys m, scale_y (discrete c) (ft_scale f) y = Ok ys /\ fit_data c ob (ft_scale f) ys X = (ob', Ok (ft_prepared f, m)) /\ infer svi_run nuts_run latent_sites (engine_of c) m = Ok (ft_posterior f) /\
  forall e o tr, run e [] m = Ok (o, tr) ->
  exists tv, dict_get tr "trend" = Some (SDet tv) /\
  forall name ef, In (name, ef) (p_effects (ft_prepared f)) ->
    exists ef0 cols w, configured c name ef0 /\ In (name, ef, cols) (p_fitted (ft_prepared f)) /\ dict_get tr name = Some (SDet w) /\
    (forall j t r, nth_error ts j = Some t -> In r (f_rows Xt) -> r_time r = t ->
       exists x trend v, values_at Xt r cols x /\ nth_error (a_flat tv) j = Some trend /\ nth_error (a_flat w) j = Some v /\ answers e name (fun k => k) ef0 x (t - t0) trend v) /\
    priors e name 1 ef0 tr (List.length cols).
Proof.
  intros H Hc L W CC TT HX WT FD AY ts Xt ETS OT RX CV WV LV.
  assert (NY : f_rows y <> []) by (intros E; destruct FD as [I _]; rewrite E in I; destruct I).
  destruct (c76_univariate ns_of order keep tr_fit_transform tr_transform svi_run nuts_run latent_sites transformers c ob y X ob' f H Hc W L NY AY HX) as (ys & m & m' & E1 & E2 & E3 & PM & SB).
  exists ys, m. do 3 (split; [assumption|]). intros e o tr RU. destruct (insample_values _ _ _ _ _ _ SB RU) as (o' & tr' & RU' & MV).
  assert (TI : time_ids y = ts) by (unfold time_ids; rewrite ETS; apply times_unique_id, OverlapFrames.in_order_nodup, OT).
  destruct (max_time_some (map r_time (f_rows y))) as (cutoff & CU); [destruct (f_rows y); [congruence|discriminate]|].
  rewrite TI in PM. assert (NT : ts <> []) by (rewrite <- ETS; destruct (f_rows y); [congruence|discriminate]).
  destruct (c104_univariate ns_of order keep tr_fit_transform tr_transform svi_run nuts_run latent_sites c ob y X ob' f t0 H Hc L W CC TT) with (y2 := y) (X2 := X) (fh := Absolute ts) (m := m') (cutoff := cutoff) (ts := ts) (Xt := Xt) (e := e) (o := o') (tr := tr') as (tv & GT & V); auto.
  { intros Z ->. apply HX. }
  exists tv. split; [apply MV; [discriminate|exact GT]|]. intros name ef I. destruct (V _ _ I) as (ef0 & cols & w & V1 & V2 & V3 & V4 & V5). exists ef0, cols, w. do 2 (split; [assumption|]).
  split; [apply MV; [eapply not_obs; eauto|exact V3]|]. split; [exact V4|]. eapply priors_moved; [exact MV|exact V5].
Qed.

Theorem c104_panel_training c ob y Z0 ob' (f : fitted (P := P)) : fit_forecaster c ob y (Some Z0) = (ob', Ok f) -> c_hier c = true -> f_levels y <> 0 -> frame_wf y ->
  (forall r, In r (f_rows y) -> ~ In "__total" (r_path r)) -> clean_config c -> scalar_piecewise (o_trend ob') -> o_transformer ob = None -> frame_wf Z0 -> f_levels Z0 <> 0 -> f_cols Z0 <> [] ->
  forall shared, (match c_shared c with None => [] | Some l => l end) = shared -> copyable shared (f_cols Z0) (bottom_series Z0) ->
  forall ts, time_ids y = ts -> covers Z0 ts -> in_order ts ->
  exists ys m, scale_y (discrete c) (ft_scale f) y = Ok ys /\ fit_data c ob (ft_scale f) ys (Some Z0) = (ob', Ok (ft_prepared f, m)) /\ infer svi_run nuts_run latent_sites (engine_of c) m = Ok (ft_posterior f) /\
  forall e o tr, run e [] m = Ok (o, tr) ->
  exists tv, dict_get tr "trend" = Some (SDet tv) /\
  forall name ef, In (name, ef) (p_effects (ft_prepared f)) ->
    exists ef0 cols w, configured c name ef0 /\ In (name, ef, cols) (p_fitted (ft_prepared f)) /\ dict_get tr name = Some (SDet w) /\ numbering ef0 (wave_numbers ef) /\
    (forall i j t r t0, nth_error (bottom_series Z0) i = Some (r_path r) -> nth_error ts j = Some t -> In r (f_rows Z0) -> r_time r = t -> first_date (dates Z0 (r_path r)) t0 ->
       exists x trend v, Forall2 (seen shared (bottom_series Z0) Z0 r) cols x /\ nth_error (a_flat tv) (i * List.length ts + j) = Some trend /\ nth_error (a_flat w) (i * List.length ts + j) = Some v /\
         answers e name (fun k => wave_numbers ef k * List.length (bottom_series Z0) + i) ef0 x (t - t0) trend v) /\
    priors e name (List.length (bottom_series Z0)) ef0 tr (List.length cols).
Proof.
  intros H Hc L W NT CC SP OT WZ LZ NC shared SH CP ts TI CV IO.
  assert (HB : exists Xb, loc_bottom_series Z0 = Ok Xb).
  { pose proof H as H'. apply ForecasterProps.fit_forecaster_inv in H' as (s & ys & p & m & post & _ & HS & HF & HI & ->). unfold Forecaster.fit_data in HF. rewrite Hc in HF. apply ForecasterInv.hierarchical_fit_inv in HF.
    destruct HF as (yb & tensor & X0 & X1 & X2 & ob0 & tt & t & td & data & HD). destruct HD as (Hyb & Ht & HX0 & _). assert (NX : no_columns Z0 = false) by (unfold no_columns; destruct (f_cols Z0); [congruence|reflexivity]). cbv zeta in HX0. rewrite NX in HX0. eauto. }
  destruct HB as (Xb & HB).
  assert (RY : f_rows y <> []) by (eapply ComponentFacts.hierarchical_index; eauto).
  assert (NTS : ts <> []). { rewrite <- TI. unfold time_ids. destruct (f_rows y) as [|r l] eqn:E; [congruence|]. intros Q. assert (I : In (r_time r) (times_unique (map r_time (r :: l)))) by (apply times_unique_In; now left). rewrite Q in I. destruct I. }
  destruct (c76_hierarchical ns_of order keep tr_fit_transform tr_transform svi_run nuts_run latent_sites transformers c ob y Z0 ob' f Xb H Hc L NC (or_introl OT) HB) as (ys & m & m' & yb & tensor & t & E1 & E2 & E3 & PM & _ & _ & _ & SB).
  { intros z Hz. assert (Iz : In z ts) by (rewrite <- TI; unfold time_ids; now apply times_unique_In).
    destruct (bottom_series_ids _ _ WZ LZ HB) as (SI & _ & LB & RB & _). pose proof (OverlapForecaster.covers_bottom _ _ _ WZ NTS CV HB) as CB.
    assert (SO : exists p, nth_error (series_of Xb) 0 = Some p).
    { unfold series_of. rewrite LB. destruct (f_levels Z0); [congruence|]. unfold series_ids. destruct (f_rows Xb) as [|r l]; [congruence|]. assert (Ir : In (r_path r) (paths_unique (map r_path (r :: l)))) by (apply paths_unique_In; now left).
      destruct (paths_unique (map r_path (r :: l))) as [|q qs]; [destruct Ir|]. now exists q. }
    destruct SO as (p & SO). apply In_nth_error in Iz as (j & Hj). destruct (OverlapFrames.covered_nth _ _ _ _ _ _ CB SO Hj) as (r & Hr & _ & <-). apply in_map. apply nth_error_In in Hr. unfold filter_fh, filter_rows in Hr. cbn [f_rows] in Hr. now apply filter_In in Hr. }
  exists ys, m. do 3 (split; [assumption|]). intros e o tr RU. destruct (insample_values _ _ _ _ _ _ SB RU) as (o' & tr' & RU' & MV). rewrite TI in PM.
  destruct (max_time (map snd (p_index (ft_prepared f)))) as [cutoff|] eqn:CU; [|exfalso; unfold predict_model, hierarchical_predict_model in PM; rewrite Hc, CU in PM; discriminate].
  destruct (c104_hierarchical ns_of order Order keep tr_fit_transform tr_transform svi_run nuts_run latent_sites c ob y Z0 ob' f H Hc L W NT CC SP OT WZ LZ NC shared SH CP) with (y2 := y) (X2 := Z0) (fh := Absolute ts) (m := m') (cutoff := cutoff) (ts := ts) (e := e) (o := o') (tr := tr') as (tv & GT & V); auto.
  exists tv. split; [apply MV; [discriminate|exact GT]|]. intros name ef I. destruct (V _ _ I) as (ef0 & cols & w & V1 & V2 & V3 & V4 & V5 & V6). exists ef0, cols, w. do 2 (split; [assumption|]).
  split; [apply MV; [eapply not_obs; eauto|exact V3]|]. split; [exact V4|]. split; [exact V5|]. eapply priors_moved; [exact MV|exact V6].
Qed.
End Forecaster.
