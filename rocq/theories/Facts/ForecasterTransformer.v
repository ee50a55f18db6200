(** Feature transformers and the columns the trend asks for. *)
From Coq Require Import Reals String Bool ZArith List Lia.
From Verif.Model Require Import Base Num XFloat Regex Frame Arr Expand Aggregate Scale Predict Prog Likelihood Trend Effect
  TrendProg Engine Forecaster.
From Verif.Spec Require Import RegexSpec FrameSpec ProgSpec EffectSpec ForecasterSpec.
From Verif.Facts Require Import BaseFacts ExpandFacts FrameFacts EffectFacts ForecasterFacts ForecasterInv.
Import ListNotations.
Local Open Scope string_scope.

Lemma col_pos_In cols c : (exists i, col_pos cols c = Some i) <-> In c cols.
Proof.
  destruct (col_pos cols c) as [i|] eqn:E.
  - split; [intros _; exact (nth_error_In _ _ (col_pos_nth _ _ _ E))|eauto].
  - apply col_pos_None in E. split; [intros (i & H); discriminate|contradiction].
Qed.

Lemma select_columns_iff {V} (z : V) (X : frame V) cols :
  (exists X', select_columns z X cols = Ok X') <-> (forall c, In c cols -> In c (f_cols X)).
Proof.
  unfold select_columns. split.
  - intros (X' & H). inv_bind H. apply mapM_ok in E. intros c Hc. apply Forall2_In_both in E. destruct E as [E _].
    destruct (E c Hc) as (i & _ & Hi). apply col_pos_In. destruct (col_pos (f_cols X) c); [eauto|discriminate].
  - intros H. assert (exists pos, mapM (fun c => match col_pos (f_cols X) c with Some i => Ok i | None => Err KeyError end) cols = Ok pos) as (pos & ->); [|eexists; reflexivity].
    induction cols as [|c cols IH]; [eexists; reflexivity|]. cbn [mapM].
    destruct (proj2 (col_pos_In (f_cols X) c)) as (i & ->); [apply H; now left|]. cbn [bind].
    destruct IH as (pos & ->); [intros d Hd; apply H; now right|]. eexists. reflexivity.
Qed.
Lemma select_columns_err {V} (z : V) (X : frame V) cols e : select_columns z X cols = Err e -> e = KeyError.
Proof.
  unfold select_columns. intros H. destruct (mapM _ cols) as [pos|e'] eqn:E; [discriminate|]. cbn [bind] in H. injection H as <-.
  induction cols as [|c cols IH]; [discriminate|]. cbn [mapM] in E. destruct (col_pos (f_cols X) c); [|cbn [bind] in E; congruence].
  cbn [bind] in E. destruct (mapM _ cols); [discriminate|]. cbn [bind] in E. injection E as ->. auto.
Qed.

Section Trend.
Variable ns_of : Z -> Z.
Variable order : list string -> list string.

(** A fitted trend's data can be prepared exactly when the columns of X at fitting are there. *)
Lemma trend_columns t0 X y s t (Xe : frame R) fh : trend_fit ns_of order t0 X y s = (t, None) -> ~ is_effect t0 ->
  if forallb (fun c => str_in c (f_cols Xe)) (columns_seen X)
  then exists td, trend_transform ns_of t Xe fh = Ok td else trend_transform ns_of t Xe fh = Err KeyError.
Proof.
  intros F N. assert (S : match select_columns 0%R (filter_fh fh Xe) (columns_seen X) with
     | Ok _ => forallb (fun c => str_in c (f_cols Xe)) (columns_seen X) = true
     | Err e => e = KeyError /\ forallb (fun c => str_in c (f_cols Xe)) (columns_seen X) = false end).
  { destruct (select_columns 0%R (filter_fh fh Xe) (columns_seen X)) as [X'|e] eqn:E.
    - apply forallb_forall. intros c Hc. apply str_in_iff. exact (proj1 (select_columns_iff _ _ _) (ex_intro _ _ E) c Hc).
    - split; [now apply select_columns_err in E|]. destruct (forallb _ _) eqn:B; [|reflexivity]. exfalso.
      destruct (proj2 (select_columns_iff 0%R (filter_fh fh Xe) (columns_seen X))) as (X' & E'); [|congruence].
      intros c Hc. apply str_in_iff. exact (proj1 (forallb_forall _ _) B c Hc). }
  destruct t0 as [p c b f|ps b loc|e]; [| |exfalso; apply N; eexists; reflexivity]; cbn [trend_fit] in F.
  - destruct (piecewise_fit ns_of p y) as [f'|]; [|discriminate]. injection F as <-. cbn [trend_transform]. unfold trend_rows. cbn [attr b_fitted b_cols bind negb].
    destruct (select_columns _ _ _) as [X'|e]; [rewrite S; cbn [bind attr]; eexists; reflexivity|]. destruct S as [-> ->]. reflexivity.
  - injection F as <-. cbn [trend_transform]. unfold trend_rows. cbn [attr b_fitted b_cols bind negb].
    destruct (select_columns _ _ _) as [X'|e]; [rewrite S; cbn [bind attr]; eexists; reflexivity|]. destruct S as [-> ->]. reflexivity.
Qed.
End Trend.

Section Forecaster.
Variable ns_of : Z -> Z.
Variable order : list string -> list string.
Variable keep : path -> bool.
Context {TS : Type}.
Variable tr_fit_transform : TS -> frame R -> TS * res (frame R).

Lemma c70_needs c ob s y X ob' p m tr tr' X1 : c_hier c = false ->
  (forall e, get_trend_model c ob <> Ok (TEffect e)) -> o_transformer ob = Some tr -> tr_fit_transform tr X = (tr', Ok X1) ->
  fit_data ns_of order keep tr_fit_transform c ob s y (Some X) = (ob', Ok (p, m)) -> f_rows X <> [] ->
  forall col, In col (f_cols X) -> In col (f_cols X1).
Proof.
  intros Hc NE Ht HX H NR col Hcol. unfold fit_data in H. rewrite Hc in H. apply univariate_fit_inv in H.
  destruct H as (t0 & t & yt & X1' & Xe & td & data & G & D & F & Q & L & _ & T & _).
  apply run_fit_transform_inv in Q. destruct Q as [_ Q]. cbn [o_transformer] in Q. rewrite Ht in Q. destruct Q as (tr'' & _ & Q).
  rewrite HX in Q. injection Q as _ <-. apply loc_index_inv in L. destruct L as (_ & LC & _).
  assert (N : ~ is_effect t0) by (intros (e & ->); exact (NE e G)).
  pose proof (trend_columns _ _ _ _ _ _ _ Xe (time_ids y) F N) as C. destruct (forallb _ _) eqn:B; [|congruence].
  rewrite forallb_forall in B. rewrite <- LC. apply str_in_iff. apply B. unfold columns_seen, frame_empty.
  destruct (f_cols X); [contradiction|]. destruct (f_rows X); [congruence|]. exact Hcol.
Qed.

(** With named trends the error is a KeyError, raised before any effect is fitted. *)
Lemma c70_fails c ob s y X t0 t tr tr' X1 Xe : c_hier c = false ->
  get_trend_model c ob = Ok t0 -> ~ is_effect t0 ->
  (exists yt, (if discrete c then divide_target s y else Ok y) = Ok yt /\ trend_fit ns_of order t0 (Some X) yt 1 = (t, None)) ->
  o_transformer ob = Some tr -> tr_fit_transform tr X = (tr', Ok X1) -> loc_index X1 (index_of y) = Ok Xe ->
  f_rows X <> [] -> (exists col, In col (f_cols X) /\ ~ In col (f_cols X1)) ->
  snd (fit_data ns_of order keep tr_fit_transform c ob s y (Some X)) = Err KeyError.
Proof.
  intros Hc G N (yt & D & F) Ht HX L NR (col & C1 & C2). unfold fit_data. rewrite Hc. unfold univariate_fit_data. rewrite G, D, F.
  unfold run_fit_transform. cbn [o_transformer]. rewrite Ht, HX. cbn [snd bind]. rewrite L. cbn [bind].
  pose proof (trend_columns _ _ _ _ _ _ _ Xe (time_ids y) F N) as T. destruct (forallb _ _) eqn:B.
  - exfalso. apply C2. apply loc_index_inv in L. destruct L as (_ & LC & _). rewrite <- LC. apply str_in_iff.
    rewrite forallb_forall in B. apply B. unfold columns_seen, frame_empty. destruct (f_cols X); [contradiction|].
    destruct (f_rows X); [congruence|]. exact C1.
  - rewrite T. reflexivity.
Qed.

Lemma c70_keeps t0 X y s t (X1 Xe : frame R) fh index : trend_fit ns_of order t0 X y s = (t, None) -> ~ is_effect t0 ->
  (forall col, In col (columns_seen X) -> In col (f_cols X1)) -> loc_index X1 index = Ok Xe ->
  exists td, trend_transform ns_of t Xe fh = Ok td.
Proof.
  intros F N K L. apply loc_index_inv in L. destruct L as (_ & LC & _).
  pose proof (trend_columns _ _ _ _ _ _ _ Xe fh F N) as T. replace (forallb _ _) with true in T; [exact T|].
  symmetry. apply forallb_forall. intros c Hc. apply str_in_iff. rewrite LC. auto.
Qed.

(** the hierarchical forecaster fits the trend on the transformed frame *)
Lemma c70_hierarchical t0 (X2 : frame R) yb s t fh : ~ is_effect t0 ->
  trend_fit ns_of order t0 (Some X2) yb s = (t, None) -> exists td, trend_transform ns_of t X2 fh = Ok td.
Proof.
  intros N F. pose proof (trend_columns _ _ _ _ _ _ _ X2 fh F N) as T. replace (forallb _ _) with true in T; [exact T|].
  symmetry. apply forallb_forall. intros c Hc. apply str_in_iff. unfold columns_seen in Hc. destruct (frame_empty X2); [contradiction|exact Hc].
Qed.
End Forecaster.
