(** A column of predicted samples of a panel belongs to one posterior draw. *)
From Coq Require Import Reals Lra ZArith String Bool List Lia Permutation.
From Verif.Model Require Import Base Num XFloat Frame Arr Prog Likelihood Effect Trend TrendProg Aggregate Scale Expand Engine Predict Forecaster.
From Verif.Spec Require Import FrameSpec ScaleSpec PredictSpec ForecasterSpec SiteSpec OverlapSpec HistorySpec DrawSpec ShapeSpec ProgSpec TrendSpec.
From Verif.Facts Require Import BaseFacts ArrFacts FrameFacts LikelihoodFacts ForecasterInv ForecasterProps EngineFacts AlikeFacts ComponentFacts PredictProps PredictFacts ForecasterFacts HistoryTimes PanelBottom ObservedForecaster DrawFacts.
From Verif.Spec Require Import AlignSpec.
From Verif.Spec Require Import FrameSpec HistorySpec.
Import ListNotations.
Local Open Scope string_scope.

Lemma stacked_panel a vs s T n k i j : a_flat a = concat (map a_flat vs) -> a_shape a = [s; 1; T; n] -> List.length vs = s -> (forall v, In v vs -> List.length (a_flat v) = T * n) -> k < s -> j < T -> i < n ->
  aget a [k; 0; j; i]%nat = nth (j * n + i) (a_flat (nth k vs (mkArr [] []))) 0%R.
Proof.
  intros F S L W Hk Hj Hi. unfold aget. rewrite S, F. replace (ravel [s; 1; T; n] [k; 0; j; i]%nat) with (k * (T * n) + (j * n + i)) by (unfold ravel; cbn; lia).
  rewrite (nth_concat_uniform _ (T * n)).
  - replace (nth k (map a_flat vs) []) with (a_flat (nth k vs (mkArr [] []))); [reflexivity|]. symmetry. apply (map_nth a_flat vs (mkArr [] [])).
  - intros l Hl. apply in_map_iff in Hl as (v & <- & Hv). auto.
  - rewrite map_length. lia.
  - nia.
Qed.

Section Any.
Variable ns_of : Z -> Z.
Variable order : list string -> list string.
Variable keep : path -> bool.
Context {TS P : Type}.
Variable tr_fit_transform : TS -> frame R -> TS * res (frame R).
Variable tr_transform : TS -> frame R -> res (frame R).
Variable svi_run : Z -> nat -> nat -> prog arr -> res (list xr * P).
Variable nuts_run : Z -> nat -> nat -> nat -> prog arr -> res (nat -> nat -> env).
Variable latent_sites : prog arr -> list string.
Variable guide_draw : P -> Z -> nat -> prog arr -> env.
Variable complete_draw : env -> Z -> nat -> prog arr -> env.
Notation fit_data := (fit_data ns_of order keep tr_fit_transform).
Notation fit_forecaster := (fit_forecaster ns_of order keep tr_fit_transform svi_run nuts_run latent_sites).
Notation predict_model := (predict_model ns_of keep tr_transform).
Notation forecast_samples := (forecast_samples ns_of keep tr_transform guide_draw complete_draw).
Notation draws := (draws guide_draw complete_draw).

Lemma panel_index c ob y X ob' (f : fitted (P := P)) : fit_forecaster c ob y X = (ob', Ok f) -> c_hier c = true ->
  f_levels y <> 0 -> frame_wf y -> (forall r, In r (f_rows y) -> ~ In "__total" (r_path r)) ->
  Permutation (index_series (labeller_of c f y)) (series_ids y) /\ (forall l, In l (lb_index (labeller_of c f y)) -> List.length (fst l) = f_levels y) /\
  (forall q, In q (index_series (labeller_of c f y)) -> is_bottom q = true) /\ f_rows y <> [].
Proof.
  intros H Hc L W NT. destruct (hierarchical_index _ _ _ _ _ _ _ _ _ _ _ _ _ H Hc L W NT) as (_ & RY & LE). specialize (LE y eq_refl).
  pose proof H as H0. apply fit_forecaster_inv in H0. destruct H0 as (s & ys & p & m0 & post & _ & HY & HF & _ & ->).
  pose proof (CompleteFacts.scale_y_wf _ _ _ _ W HY) as WS. apply scale_y_index in HY. destruct HY as [IY LY].
  unfold fit_data in HF. rewrite Hc in HF. apply hierarchical_fit_inv in HF.
  destruct HF as (yb & tens & X0 & X1 & X3 & ob1 & t1 & t & td2 & data2 & HF). destruct HF as (Hyb & _ & _ & _ & _ & _ & _ & _ & _ & _ & _ & _ & _ & HI & _).
  assert (LS : f_levels ys <> 0) by congruence. destruct (aggregate_levels keep ys) as [LA _].
  set (f := mkFitted s p post) in *.
  assert (IS : index_series (labeller_of c f y) = filter (fun p => negb (String.eqb (last p "") total_name)) (paths_unique (map fst (index_of (aggregate keep ys))))).
  { unfold index_series, labeller_of. cbn [lb_levels lb_index lb_hier ft_prepared f]. rewrite HI, Hc. destruct (f_levels y); [congruence|reflexivity]. }
  assert (SUB : forall q, In q (series_ids y) -> In q (index_series (labeller_of c f y))).
  { intros q Hq. unfold series_ids in Hq. rewrite paths_unique_In in Hq. rewrite IS. apply filter_In. assert (NQ : ~ In "__total" q) by (apply in_map_iff in Hq as (r & <- & Hr); now apply NT).
    split.
    - apply paths_unique_In. assert (RP : map r_path (f_rows ys) = map r_path (f_rows y)) by (unfold index_of in IY; apply (f_equal (map fst)) in IY; rewrite !map_map in IY; exact IY).
      rewrite <- RP in Hq. apply in_map_iff in Hq as (r & <- & Hr). unfold index_of. rewrite map_map. apply in_map_iff. exists r. split; [reflexivity|]. apply aggregate_bottom_In; auto.
      rewrite <- is_bottom_no_total. unfold is_bottom. apply forallb_forall. intros x Hx. apply negb_true_iff, String.eqb_neq. intros ->. contradiction.
    - apply negb_true_iff, String.eqb_neq. intros E. apply NQ. clear -E. unfold total_name in E. induction q as [|a q IH]; [discriminate|]. destruct q as [|b q]; [left; exact E|]. right. apply IH. exact E. }
  assert (N1 : NoDup (index_series (labeller_of c f y))) by (rewrite IS; apply NoDup_filter, paths_unique_NoDup).
  assert (N2 : NoDup (series_ids y)) by apply paths_unique_NoDup.
  assert (SAME : forall q, In q (index_series (labeller_of c f y)) <-> In q (series_ids y)).
  { intros q. split; [|apply SUB]. apply (NoDup_length_incl N2); [lia|exact SUB]. }
  split; [apply NoDup_Permutation; assumption|]. split; [|split; [|exact RY]].
  - intros [q t0] Hl. cbn [labeller_of lb_index ft_prepared f fst] in *. rewrite HI in Hl. unfold index_of in Hl. apply in_map_iff in Hl as (r & E & Hr). injection E as <- _. rewrite <- LY, <- LA. apply (aggregate_wf keep ys WS LS). exact Hr.
  - intros q Hq. apply SAME in Hq. unfold series_ids in Hq. rewrite paths_unique_In in Hq. apply in_map_iff in Hq as (r & <- & Hr). unfold is_bottom. apply forallb_forall. intros x Hx. apply negb_true_iff, String.eqb_neq. intros ->. now apply (NT r Hr).
Qed.

Lemma panel_rows c ob y X ob' (f : fitted (P := P)) : fit_forecaster c ob y X = (ob', Ok f) -> clean_config c -> c_hier c = true -> f_levels y <> 0 -> frame_wf y ->
  (forall r, In r (f_rows y) -> ~ In "__total" (r_path r)) -> scalar_piecewise (o_trend ob') -> List.length (series_ids y) <> 1 ->
  forall X2 fh f2 out ts u, forecast_samples c ob' f y X2 fh = (f2, Ok out) -> fh_to_index y fh = Ok ts -> in_order ts ->
  (forall q, In q (series_ids y) -> unit_of (discrete c) (ft_scale f) q (u q)) ->
  exists m ids, predict_model c ob' f y X2 fh = Ok m /\ ids = index_series (labeller_of c f y) /\ Permutation ids (series_ids y) /\
    forall row, In row (f_rows out) /\ is_bottom (r_path row) = true <-> exists i j, i < List.length ids /\ j < List.length ts /\
      row = mkRow (nth i ids []) (nth j ts 0%Z) (map (fun e => e "obs" (j * List.length ids + i)%nat * u (nth i ids []))%R (draws (engine_of c) (ft_posterior f) m)).
Proof.
  intros H CC Hc L W NT SP N1 X2 fh f2 out ts u HF FT OT HU. destruct (panel_index _ _ _ _ _ _ H Hc L W NT) as (PI & LI & BI & RY).
  destruct (samples_inv _ _ _ _ _ _ _ _ _ _ _ _ _ HF) as (m & ts' & traces & ds & PM & FT' & HM & HS & HP). rewrite FT in FT'. injection FT' as <-. exists m, (index_series (labeller_of c f y)). split; [exact PM|]. split; [reflexivity|]. split; [exact PI|].
  assert (BC : bottom_complete y).
  { intros r Hr. exists r. split; [exact Hr|]. split; [|reflexivity]. unfold is_bottom. apply forallb_forall. intros x Hx. apply negb_true_iff, String.eqb_neq. intros ->. now apply (NT r Hr). }
  pose proof (fit_ends _ _ _ _ _ _ _ _ _ _ _ _ _ Hc BC H) as EN.
  unfold fh_to_index in FT. inv_bind FT.
  assert (TS' : to_absolute x fh = ts) by congruence.
  set (n := List.length (index_series (labeller_of c f y))) in *. assert (LN : n = List.length (series_ids y)) by (apply Permutation_length; exact PI).
  assert (O : exists obs, dict_get ds "obs" = Some obs).
  { unfold predict_samples in HP. inv_bind HP. unfold predict_samples_base in E0. inv_bind E0. unfold dict_item in E1. destruct (dict_get ds "obs"); [eauto|discriminate]. }
  destruct O as (obs & HO). set (es := draws (engine_of c) (ft_posterior f) m) in *. set (T := List.length ts) in *.
  destruct (stacked_obs m es traces _ ds obs (fun e v => v = mkArr [1; T; n] (map (e "obs") (seq 0 (T * n)))) HM HS HO) as (vs & sh & FV & S & F & WV & NE).
  { intros e o tr _ RU. destruct (c105_panel_forecast _ _ _ _ _ _ _ _ _ _ _ _ _ _ H CC Hc L W NT SP _ _ _ _ _ _ PM EN TS' OT n e o tr RU (eq_sym LN)) as (_ & Q). destruct Q as (_ & d & sm & G & _); [congruence|]. eauto. }
  pose proof (Forall2_len _ _ _ FV) as LE. assert (NL : List.length es <> 0) by (destruct es; [congruence|discriminate]).
  assert (SH : sh = [1; T; n]) by (destruct FV as [|e v es' vs' -> FV]; [congruence|]; symmetry; apply (WV (mkArr [1; T; n] (map (e "obs") (seq 0 (T * n))))); now left). subst sh.
  assert (NE2 : index_series (labeller_of c f y) <> []).
  { intros Q. rewrite Q in PI. apply Permutation_nil in PI. destruct (f_rows y) as [|r0 rs] eqn:ER; [congruence|]. assert (I : In (r_path r0) (series_ids y)) by (unfold series_ids; apply paths_unique_In; rewrite ER; now left). rewrite PI in I. contradiction. }
  destruct (c52_hier keep (labeller_of c f y) ts ds obs (List.length es) n u Hc L NE2 LI BI HO NL S eq_refl) as (out' & EO & _ & _ & RR).
  { intros q Hq. apply HU. now apply (Permutation_in _ PI). }
  rewrite HP in EO. injection EO as <-.
  assert (V : forall i j w, i < n -> j < T -> map (fun k => aget obs [k; 0; j; i]%nat * w)%R (seq 0 (List.length es)) = map (fun e => e "obs" (j * n + i)%nat * w)%R es).
  { intros i j w Hi Hj. symmetry. etransitivity; [apply (map_nth_seq _ es (fun _ _ => 0%R))|]. symmetry. apply map_ext_in. intros k Hk. apply in_seq in Hk. f_equal.
    assert (WL : forall v, In v vs -> List.length (a_flat v) = T * n).
    { intros v Hv. apply Forall2_In_both in FV. destruct FV as [_ FV]. destruct (FV v Hv) as (e & _ & ->). cbn [a_flat]. now rewrite map_length, seq_length. }
    rewrite (stacked_panel obs vs (List.length es) T n k i j F S (eq_sym LE) WL) by lia.
    assert (Q : a_flat (nth k vs (mkArr [] [])) = map (nth k es (fun _ _ => 0%R) "obs") (seq 0 (T * n))).
    { clear -FV Hk. destruct Hk as [_ Hk]. cbn in Hk. revert k Hk. induction FV as [|e v es vs E FE IH]; intros k Hk; [simpl in Hk; lia|]. destruct k as [|k]; [subst v; reflexivity|]. apply IH. simpl in Hk. lia. }
    assert (B : j * n + i < T * n) by nia.
    rewrite Q. rewrite (nth_indep _ 0%R (nth k es (fun _ _ => 0%R) "obs" 0)) by (rewrite map_length, seq_length; exact B). rewrite map_nth, seq_nth by exact B. reflexivity. }
  intros row. rewrite RR. split; intros (i & j & Hi & Hj & ->); exists i, j; (split; [exact Hi|split; [exact Hj|]]); now rewrite V.
Qed.

Lemma c110_panel_mcmc c ob y X ob' f : fit_forecaster c ob y X = (ob', Ok f) -> clean_config c -> c_hier c = true -> f_levels y <> 0 -> frame_wf y ->
  (forall r, In r (f_rows y) -> ~ In "__total" (r_path r)) -> scalar_piecewise (o_trend ob') -> List.length (series_ids y) <> 1 -> c_method c = "mcmc" ->
  exists ys m0 r, scale_y (discrete c) (ft_scale f) y = Ok ys /\ fit_data c ob (ft_scale f) ys X = (ob', Ok (ft_prepared f, m0)) /\
    nuts_run (en_key (engine_of c)) (c_warmup c) (c_samples c) (c_chains c) m0 = Ok r /\
    forall X2 fh f2 out ts u, forecast_samples c ob' f y X2 fh = (f2, Ok out) -> fh_to_index y fh = Ok ts -> in_order ts ->
    (forall q, In q (series_ids y) -> unit_of (discrete c) (ft_scale f) q (u q)) ->
    exists m ids, predict_model c ob' f y X2 fh = Ok m /\ ids = index_series (labeller_of c f y) /\ Permutation ids (series_ids y) /\
      panel_samples_of out ids ts (fun k => complete_draw (chain_draw (c_samples c) r k) (en_key (engine_of c)) k m) (c_samples c * c_chains c) u.
Proof.
  intros H CC Hc L W NT SP N1 M. pose proof H as H0. apply fit_forecaster_inv in H0. destruct H0 as (s & ys & p & m0 & post & _ & E2 & E3 & E4 & ->). cbn [ft_scale ft_prepared ft_posterior].
  destruct (mcmc_draws svi_run nuts_run latent_sites guide_draw complete_draw c m0 post m0 E4 M) as (r & N & _). exists ys, m0, r. do 3 (split; [assumption|]). intros X2 fh f2 out ts u HF FT OT HU.
  destruct (panel_rows _ _ _ _ _ _ H CC Hc L W NT SP N1 _ _ _ _ _ u HF FT OT HU) as (m & ids & PM & EI & PI & R). exists m, ids. split; [exact PM|]. split; [exact EI|]. split; [exact PI|]. cbn [ft_posterior] in R.
  destruct (mcmc_draws svi_run nuts_run latent_sites guide_draw complete_draw c m0 post m E4 M) as (r' & N' & D). rewrite N in N'. injection N' as <-. rewrite D in R. intros row. rewrite R.
  split; intros (i & j & Hi & Hj & ->); exists i, j; (split; [exact Hi|split; [exact Hj|]]); now rewrite map_map.
Qed.
Lemma c110_panel_map c ob y X ob' f : fit_forecaster c ob y X = (ob', Ok f) -> clean_config c -> c_hier c = true -> f_levels y <> 0 -> frame_wf y ->
  (forall r, In r (f_rows y) -> ~ In "__total" (r_path r)) -> scalar_piecewise (o_trend ob') -> List.length (series_ids y) <> 1 -> c_method c = "map" ->
  exists ys m0 losses params, scale_y (discrete c) (ft_scale f) y = Ok ys /\ fit_data c ob (ft_scale f) ys X = (ob', Ok (ft_prepared f, m0)) /\
    svi_run (en_key (engine_of c)) (c_optimizer c) (c_steps c) m0 = Ok (losses, params) /\
    forall X2 fh f2 out ts u, forecast_samples c ob' f y X2 fh = (f2, Ok out) -> fh_to_index y fh = Ok ts -> in_order ts ->
    (forall q, In q (series_ids y) -> unit_of (discrete c) (ft_scale f) q (u q)) ->
    exists m ids, predict_model c ob' f y X2 fh = Ok m /\ ids = index_series (labeller_of c f y) /\ Permutation ids (series_ids y) /\
      panel_samples_of out ids ts (fun k => guide_draw params (en_key (engine_of c)) k m) (Z.to_nat 1000) u.
Proof.
  intros H CC Hc L W NT SP N1 M. pose proof H as H0. apply fit_forecaster_inv in H0. destruct H0 as (s & ys & p & m0 & post & _ & E2 & E3 & E4 & ->). cbn [ft_scale ft_prepared ft_posterior].
  destruct (map_draws svi_run nuts_run latent_sites guide_draw complete_draw c m0 post m0 E4 M) as (losses & params & N & _). exists ys, m0, losses, params. do 3 (split; [assumption|]). intros X2 fh f2 out ts u HF FT OT HU.
  destruct (panel_rows _ _ _ _ _ _ H CC Hc L W NT SP N1 _ _ _ _ _ u HF FT OT HU) as (m & ids & PM & EI & PI & R). exists m, ids. split; [exact PM|]. split; [exact EI|]. split; [exact PI|]. cbn [ft_posterior] in R.
  destruct (map_draws svi_run nuts_run latent_sites guide_draw complete_draw c m0 post m E4 M) as (losses' & params' & N' & D). rewrite N in N'. injection N' as <- <-. rewrite D in R. intros row. rewrite R.
  split; intros (i & j & Hi & Hj & ->); exists i, j; (split; [exact Hi|split; [exact Hj|]]); now rewrite map_map.
Qed.
End Any.
