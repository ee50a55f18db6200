(** A feature transformer acts only through the table it returns. *)
From Coq Require Import Reals String Bool ZArith List Lia.
From Verif.Model Require Import Base Num XFloat Regex Frame Arr Expand Aggregate Scale Predict Prog Likelihood Trend Effect
  TrendProg Engine Forecaster.
From Verif.Spec Require Import FrameSpec ProgSpec EffectSpec ForecasterSpec AlignSpec TotalSpec TransformerSpec.
From Verif.Facts Require Import BaseFacts FrameFacts ForecasterFacts ForecasterInv ForecasterTransformer HistoryTimes ShiftFacts InsampleFacts.
Import ListNotations.

(** * labels of aggregated tables *)
Definition bare_row (r : row R) : row R := mkRow (r_path r) (r_time r) [].

Lemma key_insert_bare x l : key_insert label (bare_row x) (map bare_row l) = map bare_row (key_insert label x l).
Proof.
  induction l as [|y tl IH]; cbn [map key_insert]; [reflexivity|].
  change (label (bare_row x)) with (label x). change (label (bare_row y)) with (label y).
  destruct (label_leb (label x) (label y)); [reflexivity|]. cbn [map]. now rewrite IH.
Qed.
Lemma key_sort_bare l : key_sort label (map bare_row l) = map bare_row (key_sort label l).
Proof. induction l as [|x tl IH]; simpl; [reflexivity|]. rewrite IH. apply key_insert_bare. Qed.

Lemma aggregate_bare keep f : aggregate keep (strip f) = strip (aggregate keep f).
Proof.
  unfold aggregate. change (f_levels (strip f)) with (f_levels f). destruct (f_levels f) as [|n] eqn:L; [reflexivity|].
  rewrite strip_rows. change (fun r : row R => mkRow (r_path r) (r_time r) []) with bare_row.
  rewrite filter_map. change (fun a => no_total (r_path (bare_row a))) with (fun a : row R => no_total (r_path a)).
  set (bottom := filter _ (f_rows f)). rewrite map_map. change (fun x => r_path (bare_row x)) with (@r_path R).
  set (nodes := filter keep _). unfold strip, empty_frame, index_of. cbn [f_levels f_cols f_rows]. f_equal.
  rewrite (map_map _ (fun pt => mkRow (fst pt) (snd pt) [])). cbn [fst snd]. change (fun r : row R => mkRow (r_path r) (r_time r) []) with bare_row.
  rewrite <- key_sort_bare. f_equal. rewrite map_app. f_equal. rewrite map_flat_map. apply flat_map_same. intros q _.
  rewrite filter_map, !map_map. change (fun x => r_time (bare_row x)) with (@r_time R).
  change (fun a => below q (r_path (bare_row a))) with (fun a : row R => below q (r_path a)). reflexivity.
Qed.

Lemma strip_same (f g : frame R) : f_levels f = f_levels g -> index_of f = index_of g -> strip f = strip g.
Proof. intros L I. unfold strip. now rewrite L, I. Qed.
Lemma aggregate_index keep (f g : frame R) : f_levels f = f_levels g -> index_of f = index_of g ->
  index_of (aggregate keep f) = index_of (aggregate keep g).
Proof.
  intros L I. assert (E : strip (aggregate keep f) = strip (aggregate keep g)) by (rewrite <- !aggregate_bare; f_equal; now apply strip_same).
  assert (G : forall h, index_of (strip h) = index_of h).
  { intros h. unfold index_of. rewrite strip_rows, map_map. reflexivity. }
  rewrite <- (G (aggregate keep f)), E. apply G.
Qed.
Lemma aggregate_levels keep f : f_levels (aggregate keep f) = f_levels f.
Proof. unfold aggregate. destruct (f_levels f) eqn:E; [exact E|reflexivity]. Qed.

(** * rows of bottom series *)
Lemma bottom_again (T X0 X1 : frame R) : frame_wf T -> loc_bottom_series T = Ok X0 -> keeps_rows X0 X1 -> loc_bottom_series X1 = Ok X1.
Proof.
  intros W H (KL & KI & KW). destruct (Nat.eq_dec (f_levels T) 0) as [Z|N].
  - unfold loc_bottom_series in H |- *. rewrite Z in H. injection H as <-. rewrite KL, Z. reflexivity.
  - rewrite (loc_bottom_spec T W N) in H. cbn zeta in H.
    set (P := fun r : row R => negb (String.eqb (last (r_path r) ""%string) total_name)) in H.
    destruct (f_rows (filter_rows P T)) as [|r0 l] eqn:E; [discriminate|]. injection H as <-.
    rewrite loc_bottom_spec; [|exact KW|rewrite KL; exact N]. cbn zeta. fold P.
    assert (A : forall r, In r (f_rows X1) -> P r = true).
    { intros r Hr. assert (I : In (r_path r, r_time r) (labels (filter_rows P T))) by (rewrite <- KI; apply in_map_iff; now exists r).
      apply in_map_iff in I as (r1 & I1 & I2). cbn [filter_rows f_rows] in I2. apply filter_In in I2 as [_ I2]. unfold P in I2 |- *. injection I1 as I1 _. now rewrite <- I1. }
    assert (F : filter_rows P X1 = X1).
    { destruct X1 as [ln cs rs]. unfold filter_rows. cbn [f_levels f_cols f_rows] in *. f_equal. now apply FrameFacts.filter_all. }
    rewrite F. assert (NE : f_rows X1 <> []).
    { intros Z. assert (L : labels (filter_rows P T) = []) by (rewrite <- KI; unfold labels; now rewrite Z).
      unfold labels in L. rewrite E in L. discriminate. }
    destruct (f_rows X1); [congruence|reflexivity].
Qed.

(** * trends *)
Lemma forget_predict t t' td : forget_columns t = forget_columns t' -> trend_predict t td = trend_predict t' td.
Proof. destruct t, t'; cbn; intros [=]; subst; reflexivity. Qed.

Section Trend.
Variable ns_of : Z -> Z.
Variable order : list string -> list string.

Lemma fit_forget t X X' y s : ~ is_effect t ->
  snd (trend_fit ns_of order t X y s) = snd (trend_fit ns_of order t X' y s) /\
  forget_columns (fst (trend_fit ns_of order t X y s)) = forget_columns (fst (trend_fit ns_of order t X' y s)).
Proof.
  intros N. destruct t as [p d b f|sc b f|e]; [| |exfalso; apply N; eexists; reflexivity]; cbn [trend_fit].
  - destruct (piecewise_fit ns_of p y); split; reflexivity.
  - split; reflexivity.
Qed.

Lemma select_rows cols cols' (X A B : frame R) : select_columns 0%R X cols = Ok A -> select_columns 0%R X cols' = Ok B ->
  f_levels A = f_levels B /\ index_of A = index_of B.
Proof.
  unfold select_columns. intros H H'. inv_bind H. inv_bind H'. injection H as <-. injection H' as <-. split; [reflexivity|].
  unfold index_of. cbn [f_rows]. rewrite !map_map. reflexivity.
Qed.
Definition recorded (t : trend) : option (list string) :=
  match t with TPiecewise _ _ b _ | TFlat _ b _ => b_cols b | TEffect _ => None end.
Definition knows (t : trend) (X : frame R) : Prop := forall l, recorded t = Some l -> forall col, In col l -> In col (f_cols X).

Lemma rows_some b (X : frame R) fh l : b_cols b = Some l -> (forall col, In col l -> In col (f_cols X)) -> b_fitted b = Some true ->
  exists A, trend_rows b X fh = Ok A /\ select_columns 0%R (filter_fh fh X) l = Ok A.
Proof.
  intros B K F. unfold trend_rows. rewrite F, B. cbn [attr bind negb].
  destruct (proj2 (select_columns_iff 0%R (filter_fh fh X) l)) as (A & E); [exact K|]. eauto.
Qed.

Definition ready (t : trend) : Prop :=
  match t with TPiecewise _ _ b f => b_fitted b = Some true | TFlat _ b f => b_fitted b = Some true | TEffect _ => False end /\
  exists l, recorded t = Some l.

Lemma transform_forget t t' (X : frame R) fh : forget_columns t = forget_columns t' -> ready t -> ready t' -> knows t X -> knows t' X ->
  trend_transform ns_of t X fh = trend_transform ns_of t' X fh.
Proof.
  intros E [R1 (l & Hl)] [R2 (l' & Hl')] K K'. specialize (K l Hl). specialize (K' l' Hl').
  destruct t as [p d b f|sc b f|e], t' as [p' d' b' f'|sc' b' f'|e']; cbn in E; try discriminate; try contradiction; injection E as; subst;
    cbn [recorded] in Hl, Hl'; cbn [trend_transform];
    destruct (rows_some b X fh l Hl K R1) as (A & EA & SA); destruct (rows_some b' X fh l' Hl' K' R2) as (B & EB & SB);
    rewrite EA, EB; cbn [bind].
  - reflexivity.
  - f_equal. f_equal. unfold flat_transform. destruct (select_rows _ _ _ _ _ SA SB) as [_ I].
    assert (L : length (f_rows A) = length (f_rows B)).
    { apply (f_equal (@length _)) in I. unfold index_of in I. now rewrite !map_length in I. }
    now rewrite L.
Qed.

Lemma fit_ready t X y s t' : ~ is_effect t -> trend_fit ns_of order t X y s = (t', None) -> ready t' /\ recorded t' = Some (columns_seen X).
Proof.
  intros N H. destruct t as [p d b f|sc b f|e]; [| |exfalso; apply N; eexists; reflexivity]; cbn [trend_fit] in H.
  - destruct (piecewise_fit ns_of p y); [|discriminate]. injection H as <-. cbn. unfold ready. cbn. eauto.
  - injection H as <-. cbn. unfold ready. cbn. eauto.
Qed.
End Trend.

Lemma seen_cols (X : option (frame R)) col : In col (columns_seen X) -> match X with None => False | Some X => In col (f_cols X) end.
Proof. destruct X as [X|]; cbn; [|contradiction]. destruct (frame_empty X); [contradiction|auto]. Qed.

Section Forecaster.
Variable ns_of : Z -> Z.
Variable order : list string -> list string.
Variable keep : path -> bool.
Context {TS : Type}.
Variable tr_fit_transform : TS -> frame R -> TS * res (frame R).
Variable tr_transform : TS -> frame R -> res (frame R).
Context {P : Type}.
Variable svi_run : Z -> nat -> nat -> prog arr -> res (list xr * P).
Variable nuts_run : Z -> nat -> nat -> nat -> prog arr -> res (nat -> nat -> env).
Variable latent_sites : prog arr -> list string.
Variable guide_draw : P -> Z -> nat -> prog arr -> env.
Variable complete_draw : env -> Z -> nat -> prog arr -> env.
Notation fit_forecaster := (fit_forecaster ns_of order keep tr_fit_transform svi_run nuts_run latent_sites).
Notation fit_data := (fit_data ns_of order keep tr_fit_transform).
Notation univariate_fit_data := (univariate_fit_data ns_of order tr_fit_transform).
Notation hierarchical_fit_data := (hierarchical_fit_data ns_of order keep tr_fit_transform).
Notation objects := (objects (TS := TS)).

(** trends of the two forecasters after fitting *)
Definition trends_agree (c : config) (X : option (frame R)) (X1 : frame R) (t t' : trend) : Prop :=
  if c_hier c then t = t'
  else forget_columns t = forget_columns t' /\ ready t /\ ready t' /\
       recorded t = Some (columns_seen X) /\ recorded t' = Some (columns_seen (Some X1)).

Lemma univariate_same c (ob : objects) s y X tr tr' X1 : c_hier c = false ->
  (forall e, get_trend_model c ob <> Ok (TEffect e)) ->
  o_transformer ob = Some tr ->
  tr_fit_transform tr (match X with None => empty_frame (f_levels y) (index_of y) | Some X => X end) = (tr', Ok X1) ->
  (forall col, In col (columns_seen X) -> In col (f_cols X1)) ->
  snd (univariate_fit_data c ob s y X) = snd (univariate_fit_data c (without_transformer ob) s y (Some X1)) /\
  forall r, snd (univariate_fit_data c ob s y X) = Ok r ->
    o_transformer (fst (univariate_fit_data c ob s y X)) = Some tr' /\
    o_transformer (fst (univariate_fit_data c (without_transformer ob) s y (Some X1))) = None /\
    trends_agree c X X1 (o_trend (fst (univariate_fit_data c ob s y X)))
                        (o_trend (fst (univariate_fit_data c (without_transformer ob) s y (Some X1)))).
Proof.
  intros Hc NE HT HX K. unfold Forecaster.univariate_fit_data.
  replace (get_trend_model c (without_transformer ob)) with (get_trend_model c ob) by reflexivity.
  destruct (get_trend_model c ob) as [t0|e] eqn:G; [|split; [reflexivity|discriminate]].
  destruct (if discrete c then divide_target s y else Ok y) as [yt|e]; [|split; [reflexivity|discriminate]].
  assert (N : ~ is_effect t0) by (intros (e & ->); exact (NE e eq_refl)).
  destruct (fit_forget ns_of order t0 X (Some X1) yt 1 N) as [F1 F2].
  destruct (trend_fit ns_of order t0 X yt 1) as [t er] eqn:FT, (trend_fit ns_of order t0 (Some X1) yt 1) as [t' er'] eqn:FT'.
  cbn [fst snd] in F1, F2. subst er'. destruct er as [e|]; [split; [reflexivity|discriminate]|].
  destruct (fit_ready _ _ _ _ _ _ _ N FT) as [R1 C1]. destruct (fit_ready _ _ _ _ _ _ _ N FT') as [R2 C2].
  unfold run_fit_transform, without_transformer. cbn [o_transformer o_trend]. rewrite HT, HX. cbn [fst snd bind o_transformer o_trend].
  split.
  - destruct (loc_index X1 (index_of y)) as [Xe|e] eqn:LI; [|reflexivity]. cbn [bind].
    apply loc_index_inv in LI. destruct LI as (_ & LC & _).
    rewrite (transform_forget ns_of t t' Xe (time_ids y) F2 R1 R2).
    + destruct (trend_transform ns_of t' Xe (time_ids y)) as [td|]; [|reflexivity]. cbn [bind].
      destruct (fit_effects _ _ _ _ _) as [fitted|]; [|reflexivity]. cbn [bind].
      destruct (transform_effects _ _ _) as [data|]; [|reflexivity]. cbn [bind].
      destruct (non_skipped _) as [effs|]; [|reflexivity]. cbn [bind]. f_equal. f_equal.
      unfold model_call. rewrite (forget_predict t t' td F2). reflexivity.
    + intros l Hl col Hcol. rewrite LC. apply K. congruence.
    + intros l Hl col Hcol. rewrite LC. rewrite C2 in Hl. injection Hl as <-. exact (seen_cols (Some X1) _ Hcol).
  - intros r Hr. split; [reflexivity|]. split; [reflexivity|]. unfold trends_agree. rewrite Hc. auto.
Qed.

Lemma hierarchical_same c (ob : objects) s y X tr tr' T X0 X1 : c_hier c = true ->
  o_transformer ob = Some tr -> given_table keep c y X = T -> frame_wf T ->
  loc_bottom_series T = Ok X0 -> tr_fit_transform tr X0 = (tr', Ok X1) -> keeps_rows X0 X1 -> f_cols X1 <> [] ->
  snd (hierarchical_fit_data c ob s y X) = snd (hierarchical_fit_data c (without_transformer ob) s y (Some X1)) /\
  forall r, snd (hierarchical_fit_data c ob s y X) = Ok r ->
    o_transformer (fst (hierarchical_fit_data c ob s y X)) = Some tr' /\
    o_transformer (fst (hierarchical_fit_data c (without_transformer ob) s y (Some X1))) = None /\
    trends_agree c X X1 (o_trend (fst (hierarchical_fit_data c ob s y X)))
                        (o_trend (fst (hierarchical_fit_data c (without_transformer ob) s y (Some X1)))) /\
    p_has_exogenous (fst r) = true.
Proof.
  intros Hc HT HTb W HB HX K NC. pose proof (bottom_again _ _ _ W HB K) as HB1.
  unfold Forecaster.hierarchical_fit_data.
  destruct (loc_bottom_series (aggregate keep y)) as [yb|]; [|split; [reflexivity|discriminate]].
  destruct (series_to_tensor yb) as [tensor|]; [|split; [reflexivity|discriminate]].
  assert (E0 : match X with
     | None => empty_frame (f_levels (aggregate keep y)) (index_of (aggregate keep y))
     | Some X => if no_columns X then empty_frame (f_levels (aggregate keep y)) (index_of (aggregate keep y)) else X end = T).
  { rewrite <- HTb. unfold given_table. rewrite Hc. rewrite aggregate_levels. destruct X; [cbn [andb]|]; reflexivity. }
  rewrite E0, HB. assert (NC1 : no_columns X1 = false) by (unfold no_columns; destruct (f_cols X1); [congruence|reflexivity]).
  rewrite NC1, HB1. unfold run_fit_transform, without_transformer. cbn [o_transformer o_trend]. rewrite HT, HX. cbn [fst snd].
  rewrite NC1. cbn [negb]. destruct (expand_bottom _ _ _ _ X1) as [[Xe ex]|e]; cbn [bind].
  2:{ split; [reflexivity|discriminate]. }
  unfold get_trend_model. cbn [o_trend]. destruct (match c_trend c with TrendName s0 => named_trend c s0 | TrendObject => Ok (o_trend ob) end) as [t0|]; [|split; [reflexivity|discriminate]].
  destruct (trend_fit ns_of order t0 (Some Xe) yb (scale_number s)) as [t er]. cbn [fst snd o_trend o_transformer].
  split; [reflexivity|]. intros r Hr. split; [reflexivity|]. split; [reflexivity|]. split; [unfold trends_agree; now rewrite Hc|].
  destruct er; [discriminate|]. repeat inv_bind Hr. injection Hr as <-. reflexivity.
Qed.

Lemma univariate_has c (ob : objects) s y X r : snd (univariate_fit_data c ob s y X) = Ok r -> p_has_exogenous (fst r) = true.
Proof.
  intros H. destruct (univariate_fit_data c ob s y X) as [ob' x] eqn:E. cbn [snd] in H. subst x. destruct r as [p m].
  apply univariate_fit_inv in E. destruct E as (t0 & t & yt & X1 & Xe & td & data & H). destruct H as (_ & _ & _ & _ & _ & _ & _ & _ & _ & _ & -> & _). reflexivity.
Qed.

Lemma given_index c y y' X : f_levels y' = f_levels y -> index_of y' = index_of y -> given_table keep c y' X = given_table keep c y X.
Proof. intros L I. unfold given_table. rewrite (aggregate_index keep y' y L I), L, I. reflexivity. Qed.

Theorem transformer_fit c (ob : objects) y X tr tr' X0 X1 :
  o_transformer ob = Some tr -> (c_hier c = false -> forall e, get_trend_model c ob <> Ok (TEffect e)) ->
  frame_wf (given_table keep c y X) -> transformer_input c (given_table keep c y X) = Ok X0 ->
  tr_fit_transform tr X0 = (tr', Ok X1) -> usable_table c (columns_seen X) X0 X1 ->
  snd (fit_forecaster c ob y X) = snd (fit_forecaster c (without_transformer ob) y (Some X1)) /\
  forall f, snd (fit_forecaster c ob y X) = Ok f ->
    o_transformer (fst (fit_forecaster c ob y X)) = Some tr' /\
    o_transformer (fst (fit_forecaster c (without_transformer ob) y (Some X1))) = None /\
    trends_agree c X X1 (o_trend (fst (fit_forecaster c ob y X)))
                        (o_trend (fst (fit_forecaster c (without_transformer ob) y (Some X1)))) /\
    p_has_exogenous (ft_prepared f) = true.
Proof.
  intros HT NE W HI HX U. unfold Forecaster.fit_forecaster.
  destruct (set_y_scales (c_scale c) y) as [s|]; [|split; [reflexivity|discriminate]]. cbn [bind].
  destruct (scale_y (discrete c) s y) as [ys|] eqn:SY; [|split; [reflexivity|discriminate]]. cbn [bind].
  apply apply_scale_index in SY. destruct SY as [SI SL].
  assert (K : snd (fit_data c ob s ys X) = snd (fit_data c (without_transformer ob) s ys (Some X1)) /\
    forall r, snd (fit_data c ob s ys X) = Ok r ->
      o_transformer (fst (fit_data c ob s ys X)) = Some tr' /\
      o_transformer (fst (fit_data c (without_transformer ob) s ys (Some X1))) = None /\
      trends_agree c X X1 (o_trend (fst (fit_data c ob s ys X))) (o_trend (fst (fit_data c (without_transformer ob) s ys (Some X1)))) /\
      p_has_exogenous (fst r) = true).
  { unfold Forecaster.fit_data. unfold transformer_input in HI. unfold usable_table in U. destruct (c_hier c) eqn:Hc.
    - destruct U as [U1 U2]. apply (hierarchical_same c ob s ys X tr tr' (given_table keep c y X) X0 X1); auto. exact (given_index c y ys X SL SI).
    - injection HI as HI. destruct (univariate_same c ob s ys X tr tr' X1 Hc (NE eq_refl) HT) as [A B].
      + rewrite SL, SI. rewrite <- HX, <- HI. unfold given_table. rewrite Hc. destruct X; reflexivity.
      + exact U.
      + split; [exact A|]. intros r Hr. destruct (B r Hr) as (B1 & B2 & B3). repeat (split; [assumption|]). exact (univariate_has _ _ _ _ _ _ Hr). }
  destruct K as [K1 K2]. destruct (fit_data c ob s ys X) as [ob1 d1], (fit_data c (without_transformer ob) s ys (Some X1)) as [ob2 d2].
  cbn [fst snd] in *. subst d2. split; [reflexivity|]. intros f Hf. destruct d1 as [[p m]|]; [|discriminate]. cbn [bind] in Hf. inv_bind Hf. injection Hf as <-.
  destruct (K2 _ eq_refl) as (A & B & C & D). auto.
Qed.

(** * forecasts *)
Notation univariate_predict_model := (univariate_predict_model ns_of tr_transform).
Notation hierarchical_predict_model := (hierarchical_predict_model ns_of keep tr_transform).
Notation predictive_samples_dict := (predictive_samples_dict ns_of keep tr_transform guide_draw complete_draw).

Lemma dict_same c (ob ob' : objects) (f : fitted (P := P)) y X X1 X2 times fh tr X20 X21 :
  o_transformer ob = Some tr -> o_transformer ob' = None -> trends_agree c X X1 (o_trend ob) (o_trend ob') ->
  p_has_exogenous (ft_prepared f) = true -> asked c f y fh = Ok times ->
  frame_wf (given_future keep c y times X2) -> transformer_input c (given_future keep c y times X2) = Ok X20 ->
  tr_transform tr X20 = Ok X21 -> usable_table c (columns_seen X ++ columns_seen (Some X1)) X20 X21 ->
  predictive_samples_dict c ob f y X2 fh = predictive_samples_dict c ob' f y (Some X21) fh.
Proof.
  intros HT HT' TA HE HA W HI HX U. unfold Forecaster.predictive_samples_dict. unfold asked in HA. unfold transformer_input in HI. unfold usable_table in U. unfold trends_agree in TA.
  destruct (c_hier c) eqn:Hc.
  - destruct U as [U1 U2]. pose proof (bottom_again _ _ _ W HI U1) as HB.
    assert (E : hierarchical_predict_model c ob f y X2 fh = hierarchical_predict_model c ob' f y (Some X21) fh).
    { unfold Forecaster.hierarchical_predict_model. cbv zeta. inv_bind HA. injection HA as HA. cbn [bind]. rewrite HA.
      assert (E0 : match X2 with
         | None => aggregate keep (empty_frame (f_levels y) (map fst (reindex_time_series y times)))
         | Some X => if no_columns X then aggregate keep (empty_frame (f_levels y) (map fst (reindex_time_series y times))) else X end
         = given_future keep c y times X2).
      { unfold given_future. rewrite Hc. destruct X2; reflexivity. }
      rewrite E0, HI. cbn [bind].
      assert (NC1 : no_columns X21 = false) by (unfold no_columns; destruct (f_cols X21); [congruence|reflexivity]).
      rewrite NC1, HB. cbn [bind]. rewrite HE.
      assert (TM : map r_time (f_rows X21) = map r_time (f_rows X20)).
      { destruct U1 as (_ & I & _). unfold labels in I. apply (f_equal (map snd)) in I. rewrite !map_map in I. exact I. }
      rewrite TM. unfold run_transform. rewrite HT, HT', HX. cbn [bind]. rewrite TA. reflexivity. }
    rewrite E. reflexivity.
  - injection HI as HI. f_equal. f_equal. unfold Forecaster.univariate_predict_model. cbv zeta. inv_bind HA. injection HA as HA. cbn [bind]. rewrite HA.
    assert (E0 : match X2 with None => empty_frame 0 (map (fun t => ([], t)) times) | Some X => X end = X20).
    { rewrite <- HI. unfold given_future. rewrite Hc. destruct X2; reflexivity. }
    rewrite E0. unfold run_transform. rewrite HT, HT', HX. cbn [bind]. destruct TA as (F & R1 & R2 & C1 & C2).
    rewrite (transform_forget ns_of _ _ X21 times F R1 R2).
    + destruct (trend_transform ns_of (o_trend ob') X21 times) as [td|]; [|reflexivity]. cbn [bind].
      rewrite HE. destruct (transform_effects _ _ _); [|reflexivity]. cbn [bind]. f_equal. unfold model_call. now rewrite (forget_predict _ _ td F).
    + intros l Hl col Hcol. apply U. apply in_or_app. left. congruence.
    + intros l Hl col Hcol. apply U. apply in_or_app. right. congruence.
Qed.

Notation forecast_samples := (forecast_samples ns_of keep tr_transform guide_draw complete_draw).
Notation forecast_point := (forecast_point ns_of keep tr_transform guide_draw complete_draw).
Notation forecast_quantiles := (forecast_quantiles ns_of keep tr_transform guide_draw complete_draw).
Notation forecast_all_sites := (forecast_all_sites ns_of keep tr_transform guide_draw complete_draw).
Notation forecast_all_sites_samples := (forecast_all_sites_samples ns_of keep tr_transform guide_draw complete_draw).

Notation fit_transformed := (fit_transformed keep tr_fit_transform).
Notation future_transformed := (future_transformed keep tr_transform).

Lemma seen_exog (X : option (frame R)) col : In col (columns_seen X) -> In col (exog_cols X).
Proof. intros H. apply seen_cols in H. destruct X; [exact H|contradiction]. Qed.
Lemma usable_less c l l' X0 X1 : (forall col, In col l' -> In col l) -> usable_table c l X0 X1 -> usable_table c l' X0 X1.
Proof. unfold usable_table. destruct (c_hier c); auto. Qed.

Theorem transformer_same_fit c (ob : objects) y X tr' X1 : fit_transformed c ob y X tr' X1 ->
  snd (fit_forecaster c ob y X) = snd (fit_forecaster c (without_transformer ob) y (Some X1)) /\
  forall f, snd (fit_forecaster c ob y X) = Ok f -> o_transformer (fst (fit_forecaster c ob y X)) = Some tr' /\
    forget_columns (o_trend (fst (fit_forecaster c ob y X))) = forget_columns (o_trend (fst (fit_forecaster c (without_transformer ob) y (Some X1)))).
Proof.
  intros (tr & X0 & H1 & H2 & H3 & H4 & H5 & H6). apply (usable_less _ _ (columns_seen X)) in H6; [|exact (seen_exog X)]. destruct (transformer_fit _ _ _ _ _ _ _ _ H1 H2 H3 H4 H5 H6) as [A B].
  split; [exact A|]. intros f Hf. destruct (B f Hf) as (B1 & _ & B3 & _). split; [exact B1|].
  unfold trends_agree in B3. destruct (c_hier c); [now rewrite B3|exact (proj1 B3)].
Qed.

Theorem transformer_same_dict c (ob0 : objects) y X tr X1 ob f ob' X2 fh X21 : fit_transformed c ob0 y X tr X1 ->
  fit_forecaster c ob0 y X = (ob, Ok f) -> fst (fit_forecaster c (without_transformer ob0) y (Some X1)) = ob' ->
  future_transformed c f y X X1 tr X2 fh X21 ->
  predictive_samples_dict c ob f y X2 fh = predictive_samples_dict c ob' f y (Some X21) fh.
Proof.
  intros (tr0 & X0 & H1 & H2 & H3 & H4 & H5 & H6) HF HO (times & X20 & K1 & K2 & K3 & K4 & K5).
  apply (usable_less _ _ (columns_seen X)) in H6; [|exact (seen_exog X)].
  apply (usable_less _ _ (columns_seen X ++ columns_seen (Some X1))) in K5.
  2:{ intros col Hc. apply in_app_or in Hc. apply in_or_app. destruct Hc as [Hc|Hc]; [left; exact (seen_exog X col Hc)|right; exact (seen_exog (Some X1) col Hc)]. }
  destruct (transformer_fit _ _ _ _ _ _ _ _ H1 H2 H3 H4 H5 H6) as [A B]. destruct (B f) as (B1 & B2 & B3 & B4); [now rewrite HF|].
  rewrite HO in B2, B3. rewrite HF in B1, B3. cbn [fst] in B1, B3. eapply dict_same; eauto.
Qed.

Theorem transformer_same_forecasts c (ob0 : objects) y X tr X1 ob f ob' X2 fh X21 : fit_transformed c ob0 y X tr X1 ->
  fit_forecaster c ob0 y X = (ob, Ok f) -> fst (fit_forecaster c (without_transformer ob0) y (Some X1)) = ob' ->
  future_transformed c f y X X1 tr X2 fh X21 ->
  forecast_samples c ob f y X2 fh = forecast_samples c ob' f y (Some X21) fh /\
  forecast_point c ob f y X2 fh = forecast_point c ob' f y (Some X21) fh /\
  (forall alpha, forecast_quantiles c ob f y X2 fh alpha = forecast_quantiles c ob' f y (Some X21) fh alpha) /\
  forecast_all_sites c ob f y X2 fh = forecast_all_sites c ob' f y (Some X21) fh /\
  forecast_all_sites_samples c ob f y X2 fh = forecast_all_sites_samples c ob' f y (Some X21) fh.
Proof.
  intros H1 H2 H3 H4. pose proof (transformer_same_dict _ _ _ _ _ _ _ _ _ _ _ _ H1 H2 H3 H4) as E.
  unfold Forecaster.forecast_all_sites_samples, Forecaster.forecast_all_sites, Forecaster.forecast_quantiles, Forecaster.forecast_point, Forecaster.forecast_samples.
  rewrite E. auto.
Qed.

(** a transformer that raises *)
Theorem transformer_raises c (ob : objects) y X tr tr' X0 e : o_transformer ob = Some tr ->
  transformer_input c (given_table keep c y X) = Ok X0 -> tr_fit_transform tr X0 = (tr', Err e) ->
  exists e', snd (fit_forecaster c ob y X) = Err e'.
Proof.
  intros HT HI HX. destruct (fit_forecaster c ob y X) as [ob' [f|e']] eqn:E; [|eexists; reflexivity]. exfalso.
  unfold Forecaster.fit_forecaster in E.
  destruct (set_y_scales (c_scale c) y) as [s|]; [|discriminate]. cbn [bind] in E.
  destruct (scale_y (discrete c) s y) as [ys|] eqn:SY; [|discriminate]. cbn [bind] in E.
  apply apply_scale_index in SY. destruct SY as [SI SL].
  destruct (fit_data c ob s ys X) as [ob1 [[p m]|]] eqn:FD; [|discriminate]. clear E.
  unfold Forecaster.fit_data in FD. unfold transformer_input in HI. rewrite <- (given_index c y ys X SL SI) in HI. unfold given_table in HI. destruct (c_hier c).
  - apply hierarchical_fit_inv in FD. destruct FD as (yb & tensor & X0' & X1 & X2 & ob1' & t0 & t & td & data & _ & _ & B & Q & _).
    rewrite aggregate_levels in B.
    assert (X0' = X0) by (destruct X; cbn [andb] in HI; rewrite B in HI; congruence). subst X0'.
    unfold run_fit_transform in Q. rewrite HT, HX in Q. discriminate.
  - apply univariate_fit_inv in FD. destruct FD as (t0 & t & yt & X1 & Xe & td & data & _ & _ & _ & Q & _).
    assert (E0 : match X with None => empty_frame (f_levels ys) (index_of ys) | Some X => X end = X0) by (destruct X; cbn [andb] in HI; congruence).
    rewrite E0 in Q. unfold run_fit_transform in Q. cbn [o_transformer] in Q. rewrite HT, HX in Q. discriminate.
Qed.
End Forecaster.
