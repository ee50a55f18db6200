(** One series given to the hierarchical forecaster. *)
From Coq Require Import Reals Lra String Bool ZArith List Permutation Lia.
From Verif.Model Require Import Base Num XFloat Regex Frame Arr Expand Aggregate Scale Prog Likelihood Effect Trend TrendProg Engine Predict Forecaster.
From Verif.Spec Require Import FrameSpec ScaleSpec TrendSpec ProgSpec EffectSpec ForecasterSpec AlignSpec ShapeSpec SiteSpec SingleSpec.
From Verif.Facts Require Import BaseFacts NumFacts OrderFacts FrameFacts ArrFacts ProgFacts MeanFacts LikelihoodFacts ExpandFacts EffectFacts EffectFourier EffectPredict
  TrendFacts AlignFacts PredictFacts ForecasterFacts ForecasterInv ForecasterProps CompleteFacts ShapeFacts SiteFacts InsampleFacts TotalFacts TotalFit EngineFacts RaiseFacts.
Import ListNotations.
Local Open Scope string_scope.

(** * Traces *)
Lemma record_keys tr n s tr' : record tr n s = Ok tr' -> forall k, In k (map fst tr') -> In k (map fst tr) \/ k = n.
Proof.
  unfold record. intros H k. assert (E : tr' = dict_set tr n s) by (destruct s; destruct (dict_get tr n); congruence). rewrite E.
  intros I. apply dict_set_keys in I. tauto.
Qed.

Lemma record_all_keys l : forall tr tr', record_all tr l = Ok tr' -> forall k, In k (map fst tr') -> In k (map fst tr) \/ In k (map fst l).
Proof.
  induction l as [|[n s] l IH]; intros tr tr' H k Hk.
  - cbn in H. injection H as <-. auto.
  - rewrite record_all_cons in H. inv_bind H. destruct (IH _ _ H k Hk) as [I|I]; [|simpl; auto]. destruct (record_keys _ _ _ _ E k I) as [I2|I2]; simpl; auto.
Qed.

Lemma run_keys {A} e (p : prog A) v tr : run e [] p = Ok (v, tr) -> forall k, In k (map fst tr) -> In k (actions e p).
Proof.
  intros H k Hk. apply run_eval in H as (l & E & HR). rewrite (actions_eval _ _ _ _ E). destruct (record_all_keys _ _ _ HR k Hk) as [[]|I]; exact I.
Qed.

Lemma tail_fresh {A B} e (p : prog A) (f : A -> prog B) v tr n : NoDup (actions e (pbind p f)) -> run e [] p = Ok (v, tr) ->
  In n (actions e (f v)) -> ~ In n (map fst tr).
Proof.
  intros ND H I K. apply (run_keys _ _ _ _ H) in K. apply run_eval in H as (l & E & _). rewrite actions_bind, E in ND. cbn [fst] in ND.
  revert ND K I. generalize (actions e p) (actions e (f v)). clear. induction l as [|a l IH]; intros l2 ND K I; [contradiction|]. simpl in ND. inversion ND; subst.
  destruct K as [->|K]; [apply H1, in_or_app; auto|exact (IH _ H2 K I)].
Qed.

Lemma yields_observe e n d sh o : yields e (Sample n d sh o Ret) (site_value e n sh o).
Proof. destruct o; repeat constructor. Qed.

(** the two tails *)
Lemma tail3 e tr1 n1 d1 n2 k n3 d3 sh ob : ~ In n1 (map fst tr1) -> ~ In n2 (map fst tr1) -> ~ In n3 (map fst tr1) -> NoDup [n1; n2; n3] ->
  run e tr1 (std <~ sample n1 d1 [] ;; _ <~ plate n2 k ;; observe n3 (d3 std) sh ob) =
  Ok (site_value e n3 sh ob, tr1 ++ [(n1, SSample d1 (mkArr [] [e n1 0]) false); (n2, SPlate k);
      (n3, SSample (d3 (mkArr [] [e n1 0])) (site_value e n3 sh ob) (match ob with Some _ => true | None => false end))])%list.
Proof.
  intros H1 H2 H3 ND. inversion ND as [|? ? N1 ND1]; subst. inversion ND1 as [|? ? N2 _]; subst. simpl in N1, N2.
  unfold sample, plate, observe. cbn [pbind run]. rewrite record_fresh by exact H1. cbn [bind].
  rewrite record_fresh by (rewrite map_app, in_app_iff; simpl; intuition congruence). cbn [bind].
  rewrite record_fresh by (rewrite !map_app, !in_app_iff; simpl; intuition congruence). cbn [bind].
  rewrite <- !app_assoc. reflexivity.
Qed.

(** * The two model functions *)
Section Models.
Variables (tp : prog arr) (data : dict edata) (effs : dict effect) (noise conc : R).
Variables (yh yu : option arr).
Hypothesis Y : match yh, yu with
               | None, None => True
               | Some a, Some b => exists s, squeeze_last a = Ok s /\ transpose s = b
               | _, _ => False
               end.
Let mh := multivariate_model yh tp (Some data) (Some (effect_fns effs)) noise conc true.
Let mu := univariate_model yu tp (Some data) (Some (effect_fns effs)) noise.
Let mean := compute_mean tp (Some data) (Some (effect_fns effs)).

Lemma multi_unfold : mh = (m <~ mean ;; std <~ sample "std_observation" (DHalfNormal (scalar noise)) [] ;; _ <~ plate "time" 1 ;;
   observe "obs" (DNormal (reshape_col m) (const_arr (a_shape (reshape_col m)) (item0 std))) (a_shape (reshape_col m)) yu).
Proof.
  unfold mh, multivariate_model, mean. f_equal. destruct yh as [a|], yu as [b|]; try contradiction.
  - destruct Y as (s & -> & <-). reflexivity.
  - reflexivity.
Qed.

Lemma models_agree :
  (forall e o, yields e mh o -> NoDup (actions e mh)) -> (forall e o, yields e mu o -> NoDup (actions e mu)) ->
  (forall e v, yields e tp v -> arr_wf v /\ exists n tl, a_shape v = n :: tl) ->
  same_but_noise mh mu.
Proof.
  intros CH CU HT e HE o.
  assert (ML : forall m tr1, run e [] mean = Ok (m, tr1) -> exists n, len m = Ok n).
  { intros m tr1 E. apply mean_shape in E as (tv & Yt & E). destruct (HT e tv Yt) as (W & n & tl & ES). destruct (E W) as [Sm _]. unfold len. rewrite Sm, ES. eauto. }
  assert (KH : forall m tr1, run e [] mean = Ok (m, tr1) -> forall n, In n ["std_observation"; "time"; "obs"] -> ~ In n (map fst tr1)).
  { intros m tr1 E n Hn. assert (YM : exists o', yields e mh o').
    { apply run_eval in E as (l & E & _). assert (Y1 : yields e mean m) by (apply eval_yields; eauto).
      rewrite multi_unfold. eexists. apply yields_bind. exists m. split; [exact Y1|]. unfold sample, plate, observe. cbn [pbind]. do 2 constructor. apply yields_observe. }
    destruct YM as (o' & YM). apply CH in YM. rewrite multi_unfold in YM. refine (tail_fresh _ _ _ _ _ _ YM E _). unfold sample, plate, observe. cbn [pbind actions]. exact Hn. }
  assert (KU : forall m tr1, run e [] mean = Ok (m, tr1) -> forall n, In n ["noise_scale"; "data"; "obs"] -> ~ In n (map fst tr1)).
  { intros m tr1 E n Hn. destruct (ML _ _ E) as (k & EL). assert (YM : exists o', yields e mu o').
    { apply run_eval in E as (l & E & _). assert (Y1 : yields e mean m) by (apply eval_yields; eauto).
      unfold mu, univariate_model. fold mean. eexists. apply yields_bind. exists m. split; [exact Y1|]. unfold sample, plate, observe. cbn [pbind]. constructor. rewrite EL. cbn [lift_res pbind]. constructor. apply yields_observe. }
    destruct YM as (o' & YM). apply CU in YM. unfold mu, univariate_model in YM. fold mean in YM. refine (tail_fresh _ _ _ _ _ _ YM E _). unfold sample, plate, observe. cbn [pbind actions].
    rewrite EL. cbn [lift_res pbind actions]. exact Hn. }
  assert (RH : forall m tr1, run e [] mean = Ok (m, tr1) -> let sh := a_shape (reshape_col m) in let sd := mkArr [] [e "std_observation" 0] in
      run e [] mh = Ok (site_value e "obs" sh yu, tr1 ++ [("std_observation", SSample (DHalfNormal (scalar noise)) sd false); ("time", SPlate 1);
        ("obs", SSample (DNormal (reshape_col m) (const_arr sh (item0 sd))) (site_value e "obs" sh yu) (match yu with Some _ => true | None => false end))])%list).
  { intros m tr1 E sh sd. rewrite multi_unfold, run_bind, E. cbn [bind].
    refine (tail3 e tr1 "std_observation" (DHalfNormal (scalar noise)) "time" 1 "obs" (fun std => DNormal (reshape_col m) (const_arr sh (item0 std))) sh yu _ _ _ _);
      try (apply (KH m tr1 E); simpl; auto). repeat constructor; simpl; intuition discriminate. }
  assert (RU : forall m tr1, run e [] mean = Ok (m, tr1) -> let sh := a_shape (reshape_col m) in let sd := mkArr [] [e "noise_scale" 0] in
      exists n, run e [] mu = Ok (site_value e "obs" sh yu, tr1 ++ [("noise_scale", SSample (DHalfNormal (scalar noise)) sd false); ("data", SPlate n);
        ("obs", SSample (DNormal (reshape_col m) (const_arr sh (item0 sd))) (site_value e "obs" sh yu) (match yu with Some _ => true | None => false end))])%list).
  { intros m tr1 E sh sd. destruct (ML _ _ E) as (n & EL). exists n. unfold mu, univariate_model. fold mean. rewrite run_bind, E. cbn [bind]. rewrite EL.
    refine (tail3 e tr1 "noise_scale" (DHalfNormal (scalar noise)) "data" n "obs" (fun std => DNormal (reshape_col m) (const_arr sh (item0 std))) sh yu _ _ _ _);
      try (apply (KU m tr1 E); simpl; auto). repeat constructor; simpl; intuition discriminate. }
  rewrite HE in RU. destruct (run e [] mean) as [[m tr1]|x] eqn:E.
  - specialize (RH m tr1 eq_refl). destruct (RU m tr1 eq_refl) as (n & RU'). clear RU. cbv zeta in *. split.
    + split; intros (tr & H); [rewrite RH in H; injection H as <- _; eauto|rewrite RU' in H; injection H as <- _; eauto].
    + intros tr H. rewrite RH in H. injection H as <- <-. eexists _, _, _, _. split; [reflexivity|]. exact RU'.
  - assert (F1 : run e [] mh = Err x) by (rewrite multi_unfold, run_bind, E; reflexivity).
    assert (F2 : run e [] mu = Err x) by (unfold mu, univariate_model; fold mean; rewrite run_bind, E; reflexivity).
    rewrite F1, F2. split; [split; intros (? & ?); discriminate|discriminate].
Qed.
End Models.

(** * Data of one series *)
Lemma all_idx_col T : all_idx [T; 1] = map (fun i => [i; 0]) (seq 0 T).
Proof. simpl. induction (seq 0 T) as [|i l IH]; [reflexivity|]. simpl. now rewrite IH. Qed.

Lemma transpose_row (v : list R) : transpose (mkArr [1; List.length v] v) = mkArr [List.length v; 1] v.
Proof.
  unfold transpose, tabulate. cbn [a_shape rev app]. rewrite all_idx_col, map_map. f_equal.
  transitivity (map (fun x => x) v); [|apply map_id]. rewrite (map_nth_seq (fun x => x) v 0%R). apply map_ext. intros i. unfold aget. cbn [rev app a_shape a_flat ravel]. f_equal. unfold prod_shape. simpl. lia.
Qed.

Lemma tensor_column (y : frame R) : one_column y ->
  exists s, squeeze_last (arr_of_data 1 (D3 [map r_vals (f_rows y)])) = Ok s /\
    transpose s = reshape_col (mkArr [] (flat_map r_vals (f_rows y))).
Proof.
  intros [W C]. unfold arr_of_data, squeeze_last. cbn [a_shape rev app a_flat map concat]. eexists. split; [reflexivity|].
  rewrite app_nil_r, map_length, <- flat_map_concat_map. unfold reshape_col. cbn [a_flat].
  assert (L : List.length (flat_map r_vals (f_rows y)) = List.length (f_rows y)) by (apply column_values; intros r Hr; destruct (W r Hr); congruence).
  rewrite <- L. apply transpose_row.
Qed.

Lemma same_index_loc (X y : frame R) : single X -> index_of X = index_of y -> NoDup (map r_time (f_rows y)) -> loc_index X (index_of y) = Ok X.
Proof.
  intros SX EI ND. assert (NL : NoDup (labels X)).
  { change (labels X) with (index_of X). rewrite EI. unfold index_of. apply (NoDup_map_inv snd). rewrite map_map. exact ND. }
  pose proof (loc_is_filter X (map r_time (f_rows X)) NL) as Q. rewrite filter_fh_all in Q by (intros r Hr; now apply in_map). change (labels X) with (index_of X) in Q. now rewrite EI in Q.
Qed.

Lemma empty_of (X : frame R) : single X -> f_cols X = [] -> X = empty_frame 0 (index_of X).
Proof.
  intros [W L] C. destruct X as [l cols rows]. cbn in L, C. subst. unfold empty_frame, index_of. cbn [f_rows]. f_equal. rewrite map_map. cbn [fst snd].
  rewrite <- (map_id rows) at 1. apply map_ext_in. intros r Hr. destruct (W r Hr) as [E _]. cbn in E. destruct r as [p t v]. cbn in *. destruct v; [reflexivity|discriminate].
Qed.

(** the data of the fit is the same in both classes *)
Lemma fit_frames y X : single y -> NoDup (map r_time (f_rows y)) ->
  match X with None => True | Some X => single X /\ index_of X = index_of y end ->
  (match X with
   | None => empty_frame (f_levels y) (index_of y)
   | Some X => if no_columns X then empty_frame (f_levels y) (index_of y) else X
   end) = fit_frame y X /\ single (fit_frame y X) /\ loc_index (fit_frame y X) (index_of y) = Ok (fit_frame y X) /\
  columns_seen X = columns_seen (Some (fit_frame y X)).
Proof.
  intros SY ND HX. destruct X as [X|]; cbn [fit_frame].
  - destruct HX as [SX EI]. split; [|split; [exact SX|split; [now apply same_index_loc|reflexivity]]].
    unfold no_columns. destruct (f_cols X) eqn:C; [|reflexivity]. rewrite (proj2 SY), <- EI. symmetry. now apply empty_of.
  - assert (S0 : single (empty_frame (f_levels y) (index_of y))).
    { rewrite (proj2 SY). apply empty_frame_single. intros pt Hp. rewrite (single_index y SY) in Hp. now apply in_map_iff in Hp as (t & <- & _). }
    split; [reflexivity|]. split; [exact S0|]. split; [|reflexivity]. apply same_index_loc; [exact S0| |exact ND].
    unfold index_of, empty_frame. cbn [f_rows]. rewrite !map_map. reflexivity.
Qed.

Lemma expand_flat {V} (zero : V) isna order shared (X X' : frame V) ex : f_levels X = 0 -> expand_bottom zero isna order shared X = Ok (X', ex) ->
  X' = X /\ ex_skip ex = true.
Proof.
  intros L H. unfold expand_bottom, expand_fit in H. rewrite L in H. repeat inv_bind H. inv_bind E. injection E as <-. cbn [expand_transform ex_skip] in H.
  unfold expand_transform in H. cbn [ex_skip] in H. injection H as <- <-. auto.
Qed.

Lemma library_fit ns_of order t0 X X' y s s' t : trend_fit ns_of order t0 X y s = (t, None) -> library_trend t -> columns_seen X = columns_seen X' ->
  trend_fit ns_of order t0 X' y s' = (t, None).
Proof.
  intros H L C. destruct t0 as [pp cap b f|ps b l|e]; cbn [trend_fit] in *.
  - now rewrite <- C.
  - now rewrite <- C.
  - destruct (fit order e X s) as [e' err]. injection H as <- _. destruct L as [[]|[]].
Qed.

(** values of the trend are not scalars *)
Lemma library_value ns_of order t0 X (y : frame R) s t Xe fh td e v : trend_fit ns_of order t0 X y s = (t, None) -> library_trend t -> f_levels y = 0 ->
  trend_transform ns_of t Xe fh = Ok td -> yields e (trend_predict t td) v -> arr_wf v /\ exists n tl, a_shape v = n :: tl.
Proof.
  intros H L Ly HT Y. destruct L as [SP|FT].
  - destruct (fitted_trend ns_of order _ _ _ _ _ H SP) as (pp & cap & b & f & iv & rg & -> & PF & PI & PR).
    cbn [trend_transform] in HT. inv_bind HT. cbn [attr bind] in HT. injection HT as <-. cbn [trend_predict] in Y.
    destruct (trend_value _ _ _ _ _ _ _ _ _ _ PF PI PR ltac:(congruence) Y) as [Sh Wv]. split; [exact Wv|]. rewrite Sh. unfold trend_shape. destruct (_ && _); eauto.
  - destruct t as [|ps b loc|]; try contradiction. cbn [trend_transform] in HT. inv_bind HT. injection HT as <-.
    destruct loc as [loc|]; [|inversion Y]. cbn [trend_predict] in Y. apply flat_value in Y as [Sh Wv]. split; [exact Wv|]. rewrite Sh. eauto.
Qed.

(** * Forecasters *)
Section Forecaster.
Variable ns_of : Z -> Z.
Variable order : list string -> list string.
Variable keep : path -> bool.
Context {TS : Type}.
Variable tr_fit_transform : TS -> frame R -> TS * res (frame R).
Variable tr_transform : TS -> frame R -> res (frame R).
Context {P : Type}.
Notation fit_data := (fit_data ns_of order keep tr_fit_transform).
Notation predict_model := (predict_model ns_of keep tr_transform).

Lemma calls_agree c s p p' t td yh yu data :
  c_hier c = true -> p_single p = true -> p_effects p' = p_effects p -> p_has_exogenous p' = true ->
  NoDup (map fst (p_effects p)) -> (forall n ef, In (n, ef) (p_effects p) -> free_name n /\ unnested ef) ->
  match yh, yu with
  | None, None => True
  | Some a, Some b => exists s, squeeze_last a = Ok s /\ transpose s = b
  | _, _ => False
  end ->
  (forall e v, yields e (trend_predict t td) v -> arr_wf v /\ exists n tl, a_shape v = n :: tl) ->
  same_but_noise (model_call c s p t td yh (Some data)) (model_call (as_univariate c) s p' t td yu (Some data)).
Proof.
  intros Hc HS HE HX ND HC HY HT.
  assert (A1 : forall e o, yields e (model_call c s p t td yh (Some data)) o -> NoDup (actions e (model_call c s p t td yh (Some data)))).
  { intros e o. apply model_sites; [congruence|exact ND|exact HC]. }
  assert (A2 : forall e o, yields e (model_call (as_univariate c) s p' t td yu (Some data)) o -> NoDup (actions e (model_call (as_univariate c) s p' t td yu (Some data)))).
  { intros e o. apply model_sites; [auto|rewrite HE; exact ND|rewrite HE; exact HC]. }
  unfold model_call in A1, A2 |- *. cbn [as_univariate c_hier c_likelihood c_noise] in *. rewrite Hc, HS in *. rewrite HX, HE in *.
  change (String.eqb "normal" "normal") with true in *. cbv iota in *. now apply models_agree.
Qed.

Section Fit.
Variables (c : config) (ob ob' : objects (TS := TS)) (s : scale) (y : frame R) (X : option (frame R)) (p : prepared) (m : prog arr).
Hypothesis Hc : c_hier c = true.
Hypothesis HTr : o_transformer ob = None.
Hypothesis HL : library_trend (o_trend ob').
Hypothesis HC : clean_config c.
Hypothesis HY : one_column y.
Hypothesis Ly : f_levels y = 0.
Hypothesis ND : NoDup (map r_time (f_rows y)).
Hypothesis HX : match X with None => True | Some X => frame_wf X /\ f_levels X = 0 /\ index_of X = index_of y end.
Hypothesis H : fit_data c ob s y X = (ob', Ok (p, m)).

Definition univariate_prepared : prepared := mkPrepared (index_of y) (p_fitted p) (p_effects p) true None false.

Lemma single_fit_inv : exists t0 ex td data,
    o_transformer ob' = None /\ ob' = mkObjects (o_trend ob') None /\
    p_has_exogenous p = negb (no_columns (fit_frame y X)) /\ p_expander p = (if p_has_exogenous p then Some ex else None) /\ ex_skip ex = true /\
    p_index p = index_of y /\ p_single p = true /\
    get_trend_model c ob = Ok t0 /\ trend_fit ns_of order t0 (Some (fit_frame y X)) y (scale_number s) = (o_trend ob', None) /\
    trend_transform ns_of (o_trend ob') (fit_frame y X) (time_ids y) = Ok td /\
    fit_effects order (c_default c) (effects_of c) (Some (fit_frame y X)) (scale_number s) = Ok (p_fitted p) /\
    transform_effects (p_fitted p) (fit_frame y X) (time_ids y) = Ok data /\ non_skipped (p_fitted p) = Ok (p_effects p) /\
    m = model_call c s p (o_trend ob') td (Some (arr_of_data 1 (D3 [map r_vals (f_rows y)]))) (Some data).
Proof.
  pose proof H as Q. unfold Forecaster.fit_data in Q. rewrite Hc in Q. apply hierarchical_fit_inv in Q.
  destruct Q as (yb & tensor & X0 & X1 & X2 & ob1 & t0 & t & td & data & B & T & B0 & QT & QE & QX & QG & QF & QO & QTr & QFE & QTE & QN & QI & QS & QM).
  assert (EA : aggregate keep y = y) by (unfold aggregate; now rewrite Ly). rewrite EA in *. unfold loc_bottom_series in B. rewrite Ly in B. injection B as <-.
  unfold series_to_tensor in T. rewrite Ly in T. injection T as <-.
  assert (SY : single y) by (split; [exact (proj1 HY)|exact Ly]).
  destruct (fit_frames y X SY ND) as (E1 & S1 & _ & _).
  { destruct X as [x|]; [|exact I]. destruct HX as (W & L & EI). exact (conj (conj W L) EI). }
  rewrite E1 in B0. unfold loc_bottom_series in B0. rewrite (proj2 S1) in B0. injection B0 as <-.
  unfold run_fit_transform in QT. rewrite HTr in QT. injection QT as <- <-. rewrite HTr in QO. subst ob'. cbn [o_trend] in *.
  unfold n_series in QS. rewrite Ly in QS.
  assert (QX' : X2 = fit_frame y X /\ exists ex, ex_skip ex = true /\ p_expander p = (if p_has_exogenous p then Some ex else None)).
  { rewrite QE in *. destruct (negb (no_columns (fit_frame y X))).
    - destruct QX as (ex & EX & ->). destruct (expand_flat _ _ _ _ _ _ _ (proj2 S1) EX) as [-> SK]. eauto.
    - destruct QX as [-> ->]. split; [reflexivity|]. exists (mkExpander true [] [] []). auto. }
  destruct QX' as [-> (ex & SK & EE)]. exists t0, ex, td, data. repeat split; auto.
Qed.

Lemma single_fit : exists m', fit_data (as_univariate c) ob s y X = (ob', Ok (univariate_prepared, m')) /\ same_but_noise m m'.
Proof.
  destruct single_fit_inv as (t0 & ex & td & data & QO1 & QO & QE & QX & SK & QI & QS & QG & QF & QTr & QFE & QTE & QN & QM).
  assert (SY : single y) by (split; [exact (proj1 HY)|exact Ly]).
  destruct (fit_frames y X SY ND) as (_ & S1 & LI & CS).
  { destruct X as [x|]; [|exact I]. destruct HX as (W & L & EI). exact (conj (conj W L) EI). }
  unfold Forecaster.fit_data at 1. cbn [as_univariate c_hier]. unfold univariate_fit_data.
  assert (G : get_trend_model (as_univariate c) ob = Ok t0) by exact QG. rewrite G. cbn [as_univariate discrete c_hier c_likelihood].
  change (String.eqb "normal" "negbinomial") with false. cbv iota.
  rewrite (library_fit _ _ _ _ X _ _ 1%R _ QF HL (eq_sym CS)).
  unfold run_fit_transform. cbn [o_transformer]. rewrite HTr. fold (fit_frame y X). cbn [bind]. rewrite LI. cbn [bind]. rewrite QTr. cbn [bind].
  change (c_default (as_univariate c)) with (c_default c). change (effects_of (as_univariate c)) with (effects_of c). rewrite QFE. cbn [bind]. rewrite QTE. cbn [bind]. rewrite QN. cbn [bind].
  rewrite truthy_invert. fold univariate_prepared. rewrite <- QO. eexists. split; [reflexivity|]. rewrite QM.
  destruct (fit_effects_clean ns_of order keep tr_fit_transform _ _ _ _ _ _ _ _ H HC) as (N1 & N2 & _).
  apply calls_agree; auto.
  - now apply tensor_column.
  - intros e v Yv. exact (library_value _ _ _ _ _ _ _ _ _ _ _ _ QF HL Ly QTr Yv).
Qed.

Lemma single_predict (f f' : fitted (P := P)) y2 Xp fh mp : f_levels y2 = 0 -> map r_time (f_rows y2) = map r_time (f_rows y) -> ft_prepared f = p -> ft_prepared f' = univariate_prepared -> ft_scale f' = ft_scale f ->
  match Xp with None => True | Some X => f_levels X = 0 /\ f_cols X <> [] end ->
  predict_model c ob' f y2 Xp fh = Ok mp ->
  exists m', predict_model (as_univariate c) ob' f' y2 Xp fh = Ok m' /\ same_but_noise mp m'.
Proof.
  intros L2 T2 EP EP' ES HXp HP.
  destruct single_fit_inv as (t0 & ex & td & data & QO1 & QO & QE & QX & SK & QI & QS & QG & QF & QTr & QFE & QTE & QN & QM).
  destruct (fit_effects_clean ns_of order keep tr_fit_transform _ _ _ _ _ _ _ _ H HC) as (N1 & N2 & _).
  unfold ForecasterSpec.predict_model in *. cbn [as_univariate c_hier]. rewrite Hc in HP. inv_bind HP. injection HP as <-. unfold hierarchical_predict_model in E. rewrite EP in E.
  inv_bind E. rewrite QI in E0. unfold index_of in E0. rewrite map_map in E0. cbn [snd] in E0.
  change (max_time (map r_time (f_rows y)) = Ok x0) in E0. unfold univariate_predict_model. rewrite T2, E0. cbn [bind]. set (times := to_absolute x0 fh) in *.
  set (Xu := match Xp with None => empty_frame 0 (map (fun t => ([], t)) times) | Some X0 => X0 end).
  assert (EX : (match Xp with
      | None => aggregate keep (empty_frame (f_levels y2) (map fst (reindex_time_series y2 times)))
      | Some X0 => if no_columns X0 then aggregate keep (empty_frame (f_levels y2) (map fst (reindex_time_series y2 times))) else X0
      end) = Xu /\ f_levels Xu = 0).
  { unfold Xu. destruct Xp as [X0|].
    - destruct HXp as [L0 C0]. unfold no_columns. destruct (f_cols X0); [congruence|auto].
    - split; [|reflexivity]. unfold aggregate. cbn [empty_frame f_levels]. rewrite L2. f_equal. unfold reindex_time_series. rewrite L2, !map_map. reflexivity. }
  destruct EX as [EX LX]. rewrite EX in E. unfold loc_bottom_series in E. rewrite LX in E. cbn [bind] in E.
  unfold run_transform in *. rewrite QO1 in *. cbn [bind] in E |- *.
  assert (E1 : (if p_has_exogenous p then
           if forallb (fun t => existsb (Z.eqb t) (map r_time (f_rows Xu))) times then
             ex <- attr (p_expander p) ;;
             '(Xb, ex) <- expand_transform 0%R (fun _ => false) ex Xu ;; Ok (Xb, Some ex)
           else Err AssertionError
         else Ok (Xu, p_expander p)) = Ok (Xu, p_expander p) \/
     (if p_has_exogenous p then
           if forallb (fun t => existsb (Z.eqb t) (map r_time (f_rows Xu))) times then
             ex <- attr (p_expander p) ;;
             '(Xb, ex) <- expand_transform 0%R (fun _ => false) ex Xu ;; Ok (Xb, Some ex)
           else Err AssertionError
         else Ok (Xu, p_expander p)) = Err AssertionError).
  { destruct (p_has_exogenous p); [|auto]. destruct (forallb _ _); [|auto]. left. rewrite QX. cbn [attr bind]. unfold expand_transform. now rewrite SK. }
  destruct E1 as [E1|E1]; rewrite E1 in E; [|discriminate]. clear E1. cbn [bind] in E. inv_bind E. cbn [bind]. rewrite EP'. cbn [univariate_prepared p_has_exogenous p_fitted]. inv_bind E. cbn [bind]. injection E as <-. cbn [fst].
  rewrite ES. eexists. split; [reflexivity|].
  apply calls_agree; auto. intros e v Yv. exact (library_value _ _ _ _ _ _ _ _ _ _ _ _ QF HL Ly E1 Yv).
Qed.
End Fit.

(** from the same draws of the observations both forecasters return the same frame *)
Lemma single_labels_frame c (f f' : fitted (P := P)) (y : frame R) times ds ds' : c_hier c = true -> f_levels y = 0 -> ft_scale f' = ft_scale f ->
  dict_get ds "obs" = dict_get ds' "obs" ->
  predict_samples keep (labeller_of c f y) times ds = predict_samples keep (labeller_of (as_univariate c) f' y) times ds'.
Proof.
  intros Hc Ly ES ED. unfold predict_samples, predict_samples_base, dict_item, labeller_of. cbn [as_univariate c_hier lb_hier lb_levels lb_scale lb_discrete]. rewrite <- ED.
  destruct (dict_get ds "obs") as [a|]; [|reflexivity]. cbn [bind]. destruct (a_shape a) as [|n sh]; [reflexivity|]. destruct (rows_of_width n (transpose a)) as [rows|]; [|reflexivity]. cbn [bind].
  unfold periodindex_to_multiindex. cbn [lb_levels]. rewrite Ly. cbn [bind]. destruct (frame_of _ _ _ _) as [g|] eqn:EG; [|reflexivity]. cbn [bind].
  assert (LG : f_levels g = 0) by (unfold frame_of in EG; destruct (Nat.eqb _ _); [injection EG as <-; reflexivity|discriminate]).
  unfold discrete. cbn [c_hier c_likelihood]. rewrite Hc, ES. change (String.eqb "normal" "negbinomial") with false. unfold inv_scale_y, apply_scale.
  destruct (ft_scale f) as [k|z|tab|tab]; try reflexivity; cbn [bind].
  - unfold aggregate, map_vals. cbn [f_levels sort_index]. now rewrite LG.
  - unfold scale_for_each_obs. cbn [sort_index f_levels]. now rewrite LG.
  - unfold scale_for_each_obs. cbn [sort_index f_levels]. now rewrite LG.
Qed.

(** * From the constructor to the forecast *)
Variable svi_run : Z -> nat -> nat -> prog arr -> res (list xr * P).
Variable nuts_run : Z -> nat -> nat -> nat -> prog arr -> res (nat -> nat -> env).
Variable latent_sites : prog arr -> list string.
Notation fit_forecaster := (fit_forecaster ns_of order keep tr_fit_transform svi_run nuts_run latent_sites).

Lemma single_forecast c ob ob' ob2 y X (f f' : fitted (P := P)) :
  c_hier c = true -> o_transformer ob = None -> library_trend (o_trend ob') -> clean_config c ->
  one_column y -> f_levels y = 0 -> NoDup (map r_time (f_rows y)) ->
  match X with None => True | Some X => frame_wf X /\ f_levels X = 0 /\ index_of X = index_of y end ->
  fit_forecaster c ob y X = (ob', Ok f) -> fit_forecaster (as_univariate c) ob y X = (ob2, Ok f') ->
  ob2 = ob' /\ ft_scale f' = ft_scale f /\ p_fitted (ft_prepared f') = p_fitted (ft_prepared f) /\
  forall Xp fh m, match Xp with None => True | Some X => f_levels X = 0 /\ f_cols X <> [] end ->
    predict_model c ob' f y Xp fh = Ok m ->
    exists m', predict_model (as_univariate c) ob2 f' y Xp fh = Ok m' /\ same_but_noise m m'.
Proof.
  intros Hc HTr HL HC HY Ly ND HX F F'.
  destruct (RaiseFacts.fit_inv _ _ _ _ _ _ _ _ _ _ _ _ _ F) as (s & ys & m & E1 & E2 & E3 & _ & E5).
  destruct (RaiseFacts.fit_inv _ _ _ _ _ _ _ _ _ _ _ _ _ F') as (s' & ys' & m' & E1' & E2' & E3' & _ & E5').
  change (c_scale (as_univariate c)) with (c_scale c) in E1'. assert (ES : s' = s) by congruence. rewrite ES in *. clear ES s'.
  assert (D : discrete (as_univariate c) = discrete c) by (unfold discrete; rewrite Hc; reflexivity). rewrite D in E2'. assert (EYS : ys' = ys) by congruence. rewrite EYS in *. clear EYS ys'.
  pose proof (scale_y_index _ _ _ _ E2) as [IY LY]. pose proof (CompleteFacts.scale_y_wf _ _ _ _ (proj1 HY) E2) as WS.
  assert (TY : map r_time (f_rows ys) = map r_time (f_rows y)) by (unfold index_of in IY; apply (f_equal (map snd)) in IY; rewrite !map_map in IY; exact IY).
  assert (HY' : one_column ys) by (split; [exact WS|]; unfold scale_y in E2; rewrite (EngineFacts.apply_scale_cols _ _ _ _ _ E2); apply HY).
  assert (HX' : match X with None => True | Some X => frame_wf X /\ f_levels X = 0 /\ index_of X = index_of ys end) by (destruct X; [now rewrite IY|exact I]).
  assert (ND' : NoDup (map r_time (f_rows ys))) by now rewrite TY.
  assert (L' : f_levels ys = 0) by congruence.
  destruct (single_fit c ob ob' s ys X _ m Hc HTr HL HC HY' L' ND' HX' E3) as (mu & EU & _). rewrite EU in E3'. injection E3' as <- EP <-.
  split; [reflexivity|]. split; [congruence|]. split; [now rewrite <- EP|]. intros Xp fh mp HXp HP.
  eapply (single_predict c ob ob' s ys X _ m Hc HTr HL HC HY' L' ND' HX' E3 f f'); eauto; congruence.
Qed.
End Forecaster.
