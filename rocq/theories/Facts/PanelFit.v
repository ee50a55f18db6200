(** Well-posed panels can be fitted. *)
From Coq Require Import Reals Lra String Bool ZArith List Sorted Permutation Lia.
From Verif.Model Require Import Base Num XFloat Regex Frame Arr Expand Aggregate Scale Prog Likelihood Effect Trend TrendProg Engine Predict Forecaster.
From Verif.Spec Require Import FrameSpec ScaleSpec TrendSpec ProgSpec EffectSpec ForecasterSpec AlignSpec SiteSpec ShapeSpec LineSpec TotalSpec PanelSpec.
From Verif.Facts Require Import BaseFacts NumFacts OrderFacts FrameFacts FrameProps ArrFacts ProgFacts MeanFacts LikelihoodFacts ScaleFacts ExpandFacts EffectFacts EffectFourier EffectPredict
  TimeFacts TrendFacts AlignFacts PredictFacts ForecasterFacts ForecasterInv ForecasterProps ForecasterTransformer CompleteFacts ShapeFacts SiteFacts AlignForecaster TotalFacts TotalTrend LineFacts TotalFit
  PanelGrid PanelEffects PanelTrend PanelBottom PanelScale.
Import ListNotations.
Local Open Scope string_scope.

(** what a fit establishes: [exog] are the columns of the given table, [cols] those after expansion *)
Definition panel_ready (ids : list path) (exog cols : list string) (t : trend) (p : prepared) : Prop :=
  trend_ready_panel ids cols t /\ Forall (panel_entry ids cols) (p_fitted p) /\ non_skipped (p_fitted p) = Ok (p_effects p) /\
  ~ In "trend" (map fst (p_effects p)) /\ p_single p = false /\
  (if p_has_exogenous p
   then exog <> [] /\ exists ex, p_expander p = Some ex /\ ex_skip ex = false /\ (forall c, In c (ex_matched ex) -> In c exog) /\
        forall c, In c cols -> (In c exog \/ exists m q, In m (ex_matched ex) /\ In q ids /\ c = get_col_name m q) /\ ~ In c (ex_matched ex)
   else cols = [] /\ exog = []).

Lemma panel_entry_more ids cols cols' f : (forall c, In c cols -> In c cols') -> panel_entry ids cols f -> panel_entry ids cols' f.
Proof. intros I [H1 H2]. split; [auto|exact H2]. Qed.

Lemma non_skipped_names fitted effs n : non_skipped fitted = Ok effs -> In n (map fst effs) -> exists f, In f fitted /\ fe_name f = n.
Proof.
  intros H I. apply non_skipped_list in H. rewrite H in I. unfold dict_of_list in I. apply dict_of_list_keys in I as [[]|I].
  rewrite map_map in I. cbn [fst] in I. apply in_map_iff in I as (f & E & I). apply filter_In in I as [I _]. eauto.
Qed.

(** the model function on data for a horizon *)
Lemma ready_model_panel ns_of c s p t ids exog cols X times fh : NoDup ids -> 2 <= List.length ids -> c_hier c = true ->
  panel_ready ids exog cols t p -> grid ids times X -> (forall x, In x cols -> In x (f_cols X)) -> (forall t, In t fh -> In t times) -> NoDup fh -> fh <> [] ->
  exists td data, trend_transform ns_of t X fh = Ok td /\ transform_effects (p_fitted p) X fh = Ok data /\
    (forall env, exists a, yields env (trend_predict t td) a /\ a_shape a = [List.length ids; List.length fh; 1] /\ arr_wf a) /\
    forall env y, match y with None => True | Some y => a_shape y = [List.length ids; List.length fh; 1] end -> exists o, yields env (model_call c s p t td y (Some data)) o.
Proof.
  intros Ni Two HC (TR & ER & NS & NT & SG & _) G I0 If Nf Ef.
  destruct (trend_panel ids Two ns_of cols t X times fh TR G I0 Nf) as (td & Et & Yt).
  assert (ER' : Forall (panel_entry ids (f_cols X)) (p_fitted p)) by (rewrite Forall_forall in *; intros f Hf; apply (panel_entry_more ids cols); [exact I0|now apply ER]).
  destruct (effects_panel ids Ni Two times X fh (p_fitted p) G If Nf Ef ER') as (effs & data & Ed & En & F & ND). rewrite NS in En. injection En as En.
  exists td, data. split; [exact Et|]. split; [exact Ed|]. split; [exact Yt|]. intros env y Hy.
  apply (model_panel c s p t td y data env (List.length ids) (List.length fh) HC SG); auto.
  intros name e I. rewrite En in I. assert (ND' : NoDup (map fst data)).
  { replace (map fst data) with (map fst effs); [exact ND|]. clear -F. induction F as [|a b l l' H F IH]; [reflexivity|]. simpl. rewrite IH. f_equal. apply H. }
  apply Forall2_In_both in F as [F _]. destruct (F _ I) as ([n d] & Hd & En2 & EV). cbn in En2, EV. subst n. exists d. split; [apply dict_get_iff; assumption|apply EV].
Qed.

Lemma divided_strip tab y : strip (divided_panel tab y) = divided_panel tab (strip y).
Proof.
  unfold strip, divided_panel, filter_rows. cbn [f_levels f_cols f_rows]. f_equal. induction (f_rows y) as [|r l IH]; [reflexivity|]. cbn [map filter]. change (r_path (divide_row tab r)) with (r_path r).
  destruct (no_total (r_path r)); cbn [map]; [f_equal|]; exact IH.
Qed.
Lemma strip_points ids times y q : panel ids times y -> target_totals ids times y -> (forall p, In p ids -> ~ total_path p) -> In q ids -> series_points (strip y) q = series_points y q.
Proof.
  intros PY TT NI Hq. unfold series_points, strip, filter_rows. cbn [f_rows]. rewrite filter_filter. f_equal. apply filter_ext_in. intros r Hr.
  destruct (path_eqb (r_path r) q) eqn:E; [|apply andb_false_r]. rewrite andb_true_r. apply path_eqb_eq in E. unfold no_total. apply negb_true_iff, str_in_false. intros T.
  destruct (TT r Hr T) as [(q' & _ & Q) _]. apply total_of_path in Q. rewrite E in Q. exact (NI q Hq Q).
Qed.

Section Fit.
Variable ns_of : Z -> Z.
Variable order : list string -> list string.
Hypothesis Order : forall l, Permutation (order l) l.
Variable keep : path -> bool.
Context {TS : Type}.
Variable tr_fit_transform : TS -> frame R -> TS * res (frame R).

Lemma expand_bottom_total ids times (X : frame R) shared : grid ids times X -> ids <> [] -> times <> [] ->
  (forall col, In col (f_cols X) -> ~ In col shared -> compiles col) ->
  exists Y ex, expand_bottom 0%R (fun _ => false) order shared X = Ok (Y, ex) /\ grid ids times Y /\ ex_skip ex = false /\
    (forall c, In c (ex_matched ex) -> In c (f_cols X)) /\
    forall c, In c (f_cols Y) <-> (In c (f_cols X) \/ exists m q, In m (ex_matched ex) /\ In q ids /\ c = get_col_name m q) /\ ~ In c (ex_matched ex).
Proof.
  intros G Ei Et HC. unfold expand_bottom.
  assert (EF : exists ex, expand_fit order (columns_to_expand (f_cols X) shared) X = Ok ex /\ ex_skip ex = false /\ forall c, In c (ex_matched ex) -> In c (f_cols X)).
  { unfold expand_fit. destruct (mapM_total (fun p => match compile p with Some r => Ok r | None => Err ValueError end) (fun _ _ => True) (columns_to_expand (f_cols X) shared)) as (rs & E & _).
    - intros p Hp. unfold columns_to_expand in Hp. apply (proj1 (str_sort_In _ _)) in Hp. apply (proj1 (strs_unique_In _ _)) in Hp. apply filter_In in Hp as [Hp Q]. apply negb_true_iff, str_in_false in Q.
      destruct (HC p Hp Q) as (r & ->). eauto.
    - rewrite E. cbn [bind]. destruct (f_levels X) eqn:L; [destruct G as (_ & L0 & _); congruence|]. eexists. split; [reflexivity|]. split; [reflexivity|]. cbn [ex_matched]. intros c Hc.
      apply (Permutation_in _ (Order _)) in Hc. apply filter_In in Hc as [Hc _]. exact (proj1 (strs_unique_In _ _) Hc). }
  destruct EF as (ex & EF & SX & MX). rewrite EF. cbn [bind]. destruct (expand_total ids times X ex G Ei Et MX) as (Y & ex' & EE & GE & CE). specialize (CE SX).
  assert (EX' : ex_matched ex' = ex_matched ex /\ ex_skip ex' = false).
  { unfold expand_transform in EE. rewrite SX in EE. destruct (f_levels X); [discriminate|]. destruct (copy_columns _ _ _ _ _ _); [|discriminate]. cbn [bind] in EE. injection EE as <- <-. auto. }
  destruct EX' as [EM ES]. exists Y, ex'. rewrite EM. split; [exact EE|]. auto.
Qed.

Lemma fit_data_panel c (ob : objects (TS := TS)) ids times y X tab : well_posed_panel ns_of c ids times y X -> clean_config c -> o_transformer ob = None -> tab_covers tab ids ->
  exists ob' p m cols, fit_data ns_of order keep tr_fit_transform c ob (STable tab) (divided_panel tab y) X = (ob', Ok (p, m)) /\ o_transformer ob' = None /\
    panel_ready ids (used_cols X) cols (o_trend ob') p /\ p_index p = index_of (aggregate keep (divided_panel tab y)) /\
    forall env, exists o tr, run env [] m = Ok (o, tr).
Proof.
  intros W CL HT TC. destruct (pp_ids _ _ _ _ _ _ W) as (Ni & Two & NTI). destruct (pp_times _ _ _ _ _ _ W) as (St & TwoT). destruct (pp_target _ _ _ _ _ _ W) as (PY & C1 & NTY).
  pose proof (ids_nonempty ids Two) as Ei. pose proof (times_nonempty times TwoT) as Et. pose proof (nodup_increasing _ St) as Nt.
  pose proof (strip_grid ids times y PY NTY NTI) as G. pose proof (divided_grid ids times tab _ G) as GS. pose proof (target_times ids times y PY NTY NTI Ei) as TY.
  set (yf := divided_panel tab y). assert (EYF : aggregate keep yf = aggregate keep (divided_panel tab (strip y))).
  { unfold yf. rewrite <- divided_strip. symmetry. apply aggregate_strip. exact (proj1 (proj2 PY)). }
  rewrite EYF. set (ys := divided_panel tab (strip y)) in *.
  assert (NTS : forall r, In r (f_rows ys) -> ~ In "__total" (r_path r)) by (intros r Hr; unfold ys, divided_panel in Hr; cbn [f_rows] in Hr; apply in_map_iff in Hr as (r0 & <- & Hr); exact (strip_no_totals y r0 Hr)).
  pose proof (grid_sort ids times ys GS) as GB. set (yb := sort_index ys) in *. assert (CB : List.length (f_cols yb) = 1) by exact C1.
  pose proof (sorted_times ids times ys GS St Ei Et) as TB. fold yb in TB.
  pose proof (bottom_of_aggregate_all keep ys (proj1 GS) (proj1 (proj2 GS)) (grid_nonempty ids times ys GS Ei Et) NTS) as EB. fold yb in EB.
  pose proof (grid_tensor ids times yb GB Nt Ei Et) as ETB.
  pose proof (aggregate_panel keep ids times ys GS Ei Et NTS) as PA. set (ya := aggregate keep ys) in *.
  assert (FH : (forall t, In t (time_ids yf) <-> In t times) /\ NoDup (time_ids yf) /\ time_ids yf <> [] /\ List.length (time_ids yf) = List.length times).
  { assert (Q : forall t, In t (time_ids yf) <-> In t times).
    { intros t. unfold time_ids. rewrite times_unique_In, <- TY. unfold yf, divided_panel. cbn [f_rows]. rewrite map_map. reflexivity. }
    split; [exact Q|]. split; [apply times_unique_NoDup|]. split; [destruct (nonempty_In _ Et) as (t & Ht); apply Q in Ht; destruct (time_ids yf); [contradiction|discriminate]|].
    apply NoDup_same_length; [apply times_unique_NoDup|exact Nt|exact Q]. }
  destruct FH as (FI & FN & FE & FL).
  (* the exogenous data *)
  set (X0 := match X with None => empty_frame (f_levels ya) (index_of ya) | Some X => if no_columns X then empty_frame (f_levels ya) (index_of ya) else X end).
  assert (HX0 : exists times', panel ids times' X0 /\ (forall t, In t times -> In t times') /\ f_cols X0 = used_cols X /\ forall col, In col (f_cols X0) -> ~ In col (match c_shared c with None => [] | Some l => l end) -> compiles col).
  { pose proof (pp_exog _ _ _ _ _ _ W) as WX. unfold X0, used_cols, given in *. destruct X as [X|]; [destruct (no_columns X)|].
    - exists times. split; [now apply panel_empty|]. split; [auto|]. split; [reflexivity|]. intros col [].
    - destruct WX as [(times' & P' & I') HC]. exists times'. auto.
    - exists times. split; [now apply panel_empty|]. split; [auto|]. split; [reflexivity|]. intros col []. }
  destruct HX0 as (times' & PX & IX & CX & HC). assert (Et' : times' <> []) by (destruct (nonempty_In _ Et) as (t & Ht); apply IX in Ht; destruct times'; [contradiction|discriminate]).
  destruct (panel_bottom ids times' X0 PX NTI Ei Et') as (Xb & EXb & GXb & CXb).
  assert (HE : exists Xe ex, (if negb (no_columns Xb) then '(X, ex) <- expand_bottom 0%R (fun _ => false) order (match c_shared c with None => [] | Some l => l end) Xb ;; Ok (X, Some ex) else Ok (Xb, None)) = Ok (Xe, ex) /\
      grid ids times' Xe /\
      (if negb (no_columns Xb) then used_cols X <> [] /\ exists ex0, ex = Some ex0 /\ ex_skip ex0 = false /\ (forall c, In c (ex_matched ex0) -> In c (used_cols X)) /\
         forall c, In c (f_cols Xe) -> (In c (used_cols X) \/ exists m q, In m (ex_matched ex0) /\ In q ids /\ c = get_col_name m q) /\ ~ In c (ex_matched ex0)
       else f_cols Xe = [] /\ used_cols X = [])).
  { rewrite <- CX, <- CXb. unfold no_columns. destruct (f_cols Xb) as [|c0 cs] eqn:EC.
    - cbn [negb]. exists Xb, None. rewrite EC. auto.
    - cbn [negb]. destruct (expand_bottom_total ids times' Xb (match c_shared c with None => [] | Some l => l end) GXb Ei Et') as (Y & ex & E & GY & SX & MX & CY).
      { rewrite EC. rewrite <- CXb in HC. exact HC. }
      rewrite E. cbn [bind]. exists Y, (Some ex). split; [reflexivity|]. split; [exact GY|]. split; [discriminate|]. exists ex. rewrite EC in *. split; [reflexivity|]. split; [exact SX|]. split; [exact MX|].
      intros c1 Hc. now apply CY. }
  destruct HE as (Xe & ex & EE & GE & HR).
  (* the trend *)
  destruct (pp_trend _ _ _ _ _ _ W) as (name & Etr & HN).
  destruct (trend_fit_panel ids times Ni Two St TwoT ns_of order c name (Some Xe) yb (scale_number (STable tab)) GB CB TB (pp_clock _ _ _ _ _ _ W) (pp_interval _ _ _ _ _ _ W) (pp_range _ _ _ _ _ _ W)) as (t & t' & E1 & E2 & TR).
  { destruct HN as [HN|[-> HN]]; [left; exact HN|right]. split; [reflexivity|]. apply (sorted_line ids times tab (strip y)); auto. intros q Hq. rewrite (strip_points ids times y q PY NTY NTI Hq). now apply HN. }
  rewrite (columns_seen_all Xe) in TR by (exact (grid_nonempty ids times' Xe GE Ei Et')).
  (* the effects *)
  destruct (fit_effects_panel order Order ids Ni Two (c_default c) (effects_of c) times' Xe (scale_number (STable tab)) GE Et') as (fitted & EFt & FP & FNm).
  { intros l Hl. destruct (pp_effects _ _ _ _ _ _ W l Hl) as [HRe HP]. split; [|exact HP]. unfold match_columns. destruct (l_regex l) as [re|]; [|eauto]. destruct HRe as (r & ->). eauto. }
  { exact (pp_default _ _ _ _ _ _ W). }
  assert (If : forall t0, In t0 (time_ids yf) -> In t0 times') by (intros t0 Ht; apply IX, FI, Ht).
  destruct (effects_panel ids Ni Two times' Xe (time_ids yf) fitted GE If FN FE FP) as (effs & data & Ed & En & _ & _).
  assert (NTr : ~ In "trend" (map fst effs)).
  { intros I. destruct (non_skipped_names _ _ _ En I) as (f & Hf & Ef). destruct (FNm f Hf) as [Q|(l & Hl & Q)]; [rewrite Ef in Q; discriminate|]. destruct CL as [CL _]. destruct (CL l Hl) as [[_ Q2] _]. apply Q2. rewrite <- Q, Ef. simpl. auto. }
  assert (SG : Nat.eqb (n_series (f_levels ya) (index_of ya)) 1 = false).
  { unfold ya. rewrite (n_series_bottom keep ys (proj1 GS) (proj1 (proj2 GS)) (grid_nonempty ids times ys GS Ei Et) NTS). rewrite (grid_n ids times ys GS Ni Et). apply Nat.eqb_neq. lia. }
  set (p := mkPrepared (index_of ya) fitted effs (negb (no_columns Xb)) ex false).
  assert (RP : panel_ready ids (used_cols X) (f_cols Xe) t' p).
  { split; [exact TR|]. split; [exact FP|]. split; [exact En|]. split; [exact NTr|]. split; [reflexivity|]. exact HR. }
  destruct (ready_model_panel ns_of c (STable tab) p t' ids (used_cols X) (f_cols Xe) Xe times' (time_ids yf) Ni Two (pp_class _ _ _ _ _ _ W) RP GE (fun x H => H) If FN FE) as (td & data' & Etd & Ed' & _ & YM).
  cbn [p_fitted p] in Ed'. rewrite Ed in Ed'. injection Ed' as <-.
  set (m := model_call c (STable tab) p t' td (Some (arr_of_data 1 (D3 (map (fun p => map r_vals (rows_of yb p)) (series_ids yb))))) (Some data)).
  assert (FD : fit_data ns_of order keep tr_fit_transform c ob (STable tab) yf X = (mkObjects t' None, Ok (p, m))).
  { unfold fit_data. rewrite (pp_class _ _ _ _ _ _ W). unfold hierarchical_fit_data. cbv zeta. rewrite EYF. fold ya. rewrite EB, ETB. fold X0. rewrite EXb. unfold run_fit_transform. rewrite HT.
    cbv zeta. rewrite EE. unfold get_trend_model. rewrite Etr, E1, E2. cbn [o_transformer]. rewrite HT, Etd. cbn [bind]. rewrite EFt. cbn [bind]. rewrite Ed, En. cbn [bind]. rewrite SG. reflexivity. }
  exists (mkObjects t' None), p, m, (f_cols Xe). split; [exact FD|]. split; [reflexivity|]. split; [exact RP|]. split; [reflexivity|]. intros env.
  destruct (YM env (Some (arr_of_data 1 (D3 (map (fun p => map r_vals (rows_of yb p)) (series_ids yb)))))) as (o & Y).
  { rewrite (proj1 (grid_data ids times yb GB Ni Nt Ei Et 1 CB)), FL. reflexivity. }
  destruct (c71_fit _ _ _ _ _ _ _ _ _ _ _ _ FD CL env o Y) as (tr & Hr & _). eauto.
Qed.
End Fit.
