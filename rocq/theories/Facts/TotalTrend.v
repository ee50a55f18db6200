(** Valid inputs can be fitted and forecast: the trend of a single series. *)
From Coq Require Import Reals Lra String Bool ZArith List Sorted Permutation Lia.
From Verif.Model Require Import Base Num XFloat Regex Frame Arr Expand Aggregate Scale Prog Likelihood Effect Trend TrendProg Engine Predict Forecaster.
From Verif.Spec Require Import FrameSpec ScaleSpec TrendSpec ProgSpec EffectSpec ForecasterSpec AlignSpec SiteSpec TotalSpec.
From Verif.Facts Require Import BaseFacts NumFacts OrderFacts FrameFacts FrameProps ArrFacts ProgFacts MeanFacts LikelihoodFacts ExpandFacts EffectFacts EffectFourier EffectPredict
  TimeFacts TrendFacts AlignFacts PredictFacts ForecasterFacts ForecasterInv ForecasterProps ForecasterTransformer CompleteFacts ShapeFacts SiteFacts TotalFacts.
Import ListNotations.
Local Open Scope string_scope.

Definition trend_ready (cols : list string) (t : trend) : Prop :=
  match t with
  | TPiecewise p _ b (Some f) =>
      b = mkBase (Some cols) (Some true) /\ pf_params f = p /\ pw_squeeze p = true /\ pf_n_series f = 1 /\ pf_series f = None /\
      (exists cp, pf_cps f = [cp] /\ List.length (pf_cp_loc f) = List.length cp /\ List.length (pf_cp_scale f) = List.length cp) /\
      exists m, pf_offset_loc f = [XF m]
  | TFlat _ b (Some _) => b = mkBase (Some cols) (Some true)
  | _ => False
  end.

Lemma trend_rows_total cols X fh : single X -> (forall c, In c cols -> In c (f_cols X)) ->
  exists XC, trend_rows (mkBase (Some cols) (Some true)) X fh = Ok XC /\ List.length (f_rows XC) = List.length (f_rows (filter_fh fh X)).
Proof.
  intros S0 I. unfold trend_rows. cbn [b_fitted b_cols attr bind negb]. destruct (select_columns 0%R (filter_fh fh X) cols) as [XC|e] eqn:E.
  - exists XC. split; [reflexivity|]. apply (select_single _ _ _ (filter_single fh X S0) E).
  - exfalso. assert (G : exists XC, select_columns 0%R (filter_fh fh X) cols = Ok XC) by (apply select_columns_iff; exact I). destruct G as (XC & G). congruence.
Qed.

Lemma single_matrix cp ts : exists m, get_changepoint_matrix true [cp] ts = D2 m /\ List.length m = List.length ts /\ forall r, In r m -> List.length r = List.length cp.
Proof.
  unfold get_changepoint_matrix, multi_changepoint_matrix. cbn [List.length seq map concat]. rewrite app_nil_r. eexists. split; [reflexivity|]. split; [apply map_length|].
  intros r Hr. apply in_map_iff in Hr as (t & <- & _). rewrite map_length, combine_length, seq_length. apply Nat.min_id.
Qed.

Lemma piecewise_predict_total cp ts o (c : list R) : List.length c = List.length cp -> exists a, piecewise_predict true 1 (get_changepoint_matrix true [cp] ts) [o] c = Ok a /\
  a_shape a = [List.length ts; 1] /\ arr_wf a.
Proof.
  intros L. destruct (single_matrix cp ts) as (m & -> & Lm & W). unfold piecewise_predict.
  assert (B : forallb (fun r : list R => (List.length r =? List.length c)%nat) m = true) by (apply forallb_forall; intros r Hr; apply Nat.eqb_eq; rewrite (W r Hr); auto).
  rewrite B. set (l := map _ m). assert (Ll : List.length l = List.length ts) by (unfold l; now rewrite map_length).
  assert (E : exists lo, broadcast2 l [o] = Ok lo /\ List.length lo = List.length ts).
  { unfold broadcast2. destruct (List.length l =? List.length [o])%nat eqn:EE.
    - apply Nat.eqb_eq in EE. eexists. split; [reflexivity|]. rewrite combine_length, <- EE, Nat.min_id. exact Ll.
    - destruct l as [|x [|x' l]]; [|discriminate|]; eexists; (split; [reflexivity|]); rewrite map_length; exact Ll. }
  destruct E as (lo & -> & Lo). cbn [bind]. eexists. split; [reflexivity|]. rewrite Lo. split; [reflexivity|]. unfold arr_wf. cbn [a_flat a_shape]. rewrite map_length, Lo. unfold prod_shape. simpl. lia.
Qed.

Lemma trend_total ns_of cols t X fh : trend_ready cols t -> single X -> (forall c, In c cols -> In c (f_cols X)) ->
  List.length (f_rows (filter_fh fh X)) = List.length fh ->
  exists td, trend_transform ns_of t X fh = Ok td /\
    forall env, exists a, yields env (trend_predict t td) a /\ a_shape a = [List.length fh; 1] /\ arr_wf a.
Proof.
  intros RD S0 I LF. destruct t as [p cap b [f|]|s b [loc|]|e]; try contradiction; cbn [trend_ready] in RD.
  - destruct RD as (-> & Hp & Hq & Hn & Hs & (cp & Hc & L1 & L2) & (m & Ho)). destruct (trend_rows_total cols X fh S0 I) as (XC & E & _).
    unfold trend_transform. rewrite E. cbn [bind attr]. eexists. split; [reflexivity|]. intros env. unfold trend_predict, piecewise_transform, piecewise_prog.
    rewrite Hs, Hp, Hq, Hc, Hn, Ho. set (ts := map _ fh). assert (Lt : List.length ts = List.length fh) by (unfold ts; apply map_length).
    set (ev := env "changepoint_coefficients").
    destruct (piecewise_predict_total cp ts (env "offset" 0%nat) (map ev (seq 0 (prod_shape [List.length (pf_cp_loc f)])))) as (a & Ea & Sa & Wa).
    { rewrite map_length, seq_length. unfold prod_shape. simpl. lia. }
    assert (V : forall k, yields env (k [env "offset" 0%nat] (map ev (seq 0 (prod_shape [List.length (pf_cp_loc f)])))) a ->
       yields env (locs <~ lift_res (mapM finite [XF m]) ;;
    o <~ sample "offset" (DNormal (vector locs) (const_arr [List.length locs] (pw_offset_scale p))) [List.length locs] ;;
    _ <~ (if Nat.eqb (List.length (pf_cp_loc f)) (List.length (pf_cp_scale f)) then Ret tt else Raise ValueError) ;;
    c <~ sample "changepoint_coefficients" (DLaplace (vector (pf_cp_loc f)) (vector (pf_cp_scale f))) [List.length (pf_cp_loc f)] ;;
    k (a_flat o) (a_flat c)) a).
    { intros k Y. apply yields_bind. exists [m]. split; [now apply yields_lift|]. apply yields_bind. eexists. split; [now apply yields_sample|].
      apply yields_bind. exists tt. split; [rewrite L1, L2, Nat.eqb_refl; now apply yields_ret|]. apply yields_bind. eexists. split; [now apply yields_sample|]. exact Y. }
    destruct (pw_logistic p) as [c|].
    + destruct (arr_map (logistic (env "capacity" 0%nat)) a) as [sh fl] eqn:EM. exists (mkArr sh fl). rewrite <- EM. split; [|split].
      * apply yields_bind. exists tt. split; [apply yields_plate|]. apply yields_bind. eexists. split; [now apply yields_sample|].
        apply yields_bind. exists [m]. split; [now apply yields_lift|]. apply yields_bind. eexists. split; [now apply yields_sample|].
        apply yields_bind. exists tt. split; [rewrite L1, L2, Nat.eqb_refl; now apply yields_ret|]. apply yields_bind. eexists. split; [now apply yields_sample|].
        apply yields_lift. cbn [a_flat]. change (map (env "offset") (seq 0 (prod_shape [List.length [m]]))) with [env "offset" 0%nat].
        change (map (env "capacity") (seq 0 (prod_shape [1; 1; 1]))) with [env "capacity" 0%nat]. unfold logistic_predict. fold ev. rewrite Ea. reflexivity.
      * cbn. now rewrite Lt in Sa.
      * unfold arr_wf, arr_map in *. cbn [a_flat a_shape]. now rewrite map_length.
    + exists a. rewrite Lt in Sa. split; [|auto]. refine (V (fun o c => lift_res (piecewise_predict true 1 (get_changepoint_matrix true [cp] ts) o c)) _). now apply yields_lift.
  - subst b. destruct (trend_rows_total cols X fh S0 I) as (XC & E & LC). unfold trend_transform. rewrite E. cbn [bind]. eexists. split; [reflexivity|]. intros env.
    cbn [trend_predict]. unfold flat_prog. destruct (flat_prior loc s) as [cc rr] eqn:Ep.
    assert (Y : exists a, yields env (flat_prog s loc (flat_transform XC)) a).
    { unfold flat_prog. rewrite Ep. eexists. apply yields_bind. eexists. split; [now apply yields_sample|]. now apply yields_ret. }
    destruct Y as (a & Y). exists a. pose proof (flat_value _ _ _ _ _ Y) as [Sa Wa]. unfold flat_prog in Y. rewrite Ep in Y. rewrite LC, LF in Sa. auto.
Qed.

Lemma trend_fit_total ns_of order c name X y : single y -> (2 <= List.length (f_rows y)) -> NoDup (map r_time (f_rows y)) ->
  increasing (map (fun t => days_since_epoch (ns_of t)) (map r_time (f_rows y))) ->
  (0 < c_interval c)%R -> (0 < c_range c)%R ->
  name = "linear" \/ name = "linear_raw" \/ name = "flat" \/ (name = "logistic" /\ forall r, In r (f_rows (detrend_frame y)) -> (0 < val0 r)%R) ->
  exists t t', named_trend c name = Ok t /\ trend_fit ns_of order t X y 1 = (t', None) /\ trend_ready (columns_seen X) t'.
Proof.
  intros S0 L2 ND INC HI HR HN. assert (N : f_rows y <> []) by (destruct (f_rows y); [simpl in L2; lia|discriminate]).
  set (pw := fun d l => mkPW (Scalar (c_interval c)) (Scalar (c_range c)) (Scalar (c_changepoint_scale c)) (c_offset_scale c) true d l).
  set (capacity := DShifted (DHalfNormal (scalar (c_capacity_scale c))) (c_capacity_loc c)).
  assert (G : forall d l, match l with None => True | Some None => forall r, In r (f_rows (start_series (pw d l) y)) -> (0 < val0 r)%R | Some (Some _) => False end ->
     exists t', trend_fit ns_of order (TPiecewise (pw d l) capacity base_init None) X y 1 = (t', None) /\ trend_ready (columns_seen X) t').
  { intros d l HL. destruct (piecewise_fit_total ns_of (pw d l) y (c_interval c) (c_range c)) as (f & cp & k & m & E & H1 & H2 & H3 & H4 & H5 & H6); auto.
    unfold trend_fit. rewrite E. eexists. split; [reflexivity|]. cbn [trend_ready]. repeat split; auto; [|eauto]. exists cp. split; [exact H1|].
    destruct (piecewise_fit_inv _ _ _ _ E) as (ts & _ & _ & _ & _ & _ & _ & Hv & _). unfold changepoint_prior_vectors in Hv. rewrite H1, H3 in Hv. cbn in Hv. injection Hv as -> ->.
    rewrite ?app_nil_r. unfold zeros_with_first_value. rewrite ?app_length, !repeat_length. simpl. lia. }
  destruct HN as [->|[->|[->|[-> HP]]]].
  - destruct (G true None I) as (t' & E & RD). exists (TPiecewise (pw true None) capacity base_init None), t'. auto.
  - destruct (G false None I) as (t' & E & RD). exists (TPiecewise (pw false None) capacity base_init None), t'. auto.
  - eexists _, _. split; [reflexivity|]. split; reflexivity.
  - destruct (G true (Some None) HP) as (t' & E & RD). exists (TPiecewise (pw true (Some None)) capacity base_init None), t'. auto.
Qed.
