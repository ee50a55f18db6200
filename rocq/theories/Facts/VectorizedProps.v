(** The statements about Prophetverse on panels, in the vocabulary of the specification. *)
From Coq Require Import Reals String Bool ZArith Arith List Lia.
From Verif.Model Require Import Base Num XFloat Regex Frame Arr Expand Aggregate Scale Predict Prog Likelihood Trend Effect
  TrendProg Engine Forecaster Vectorized.
From Verif.Spec Require Import VectorizedSpec.
From Verif.Facts Require Import BaseFacts FrameFacts PredictProps VectorizedFacts.
Import ListNotations.

Lemma path_dec_eqb (a b : path) : (if list_eq_dec string_dec a b then true else false) = path_eqb a b.
Proof. destruct (list_eq_dec string_dec a b) as [->|N]; [now rewrite path_eqb_refl|]. symmetry. now apply path_eqb_neq. Qed.
Lemma single_frame f p : single f p (series_frame f p).
Proof.
  split; [reflexivity|]. split; [reflexivity|]. eexists. split; [|reflexivity]. unfold series_frame, drop_levels, filter_rows. cbn [f_rows].
  f_equal. apply filter_ext. intros r. now rewrite path_dec_eqb.
Qed.
Lemma single_unique f p s : single f p s -> s = series_frame f p.
Proof.
  destruct s as [l c r]. intros (L & C & rows & E & ->). cbn in *. subst. unfold series_frame, drop_levels, filter_rows. cbn [f_cols f_rows]. f_equal. f_equal.
  apply filter_ext. intros r. now rewrite path_dec_eqb.
Qed.
Lemma single_X_unique X p s : single_X X p s -> s = option_map (fun X => series_frame X p) X.
Proof. destruct X, s; cbn; try tauto. intros H. now rewrite (single_unique _ _ _ H). Qed.

Section Any.
Variable ns_of : Z -> Z.
Variable order : list string -> list string.
Variable keep : path -> bool.
Context {TS : Type}.
Variable tr_clone : TS -> TS.
Variable tr_fit_transform : TS -> frame R -> TS * res (frame R).
Variable tr_transform : TS -> frame R -> res (frame R).
Context {P : Type}.
Variable svi_run : Z -> nat -> nat -> prog arr -> res (list xr * P).
Variable nuts_run : Z -> nat -> nat -> nat -> prog arr -> res (nat -> nat -> env).
Variable latent_sites : prog arr -> list string.
Variable guide_draw : P -> Z -> nat -> prog arr -> env.
Variable complete_draw : env -> Z -> nat -> prog arr -> env.
Notation fit_forecaster := (fit_forecaster ns_of order keep tr_fit_transform svi_run nuts_run latent_sites).
Notation forecast_samples := (forecast_samples ns_of keep tr_transform guide_draw complete_draw).
Notation forecast_all_sites := (forecast_all_sites ns_of keep tr_transform guide_draw complete_draw).
Notation forecast_point := (forecast_point ns_of keep tr_transform guide_draw complete_draw).
Notation panel_fit := (panel_fit ns_of order keep tr_clone tr_fit_transform svi_run nuts_run latent_sites).
Notation panel_point := (panel_point ns_of keep tr_transform guide_draw complete_draw).
Notation panel_samples := (panel_samples ns_of keep tr_transform guide_draw complete_draw).
Notation panel_all_sites := (panel_all_sites ns_of keep tr_transform guide_draw complete_draw).

Lemma c99_fit c ob y X ms : panel_fit c ob y X = Ok ms ->
  map fst ms = series_ids y /\ NoDup (map fst ms) /\ (forall p, In p (map fst ms) <-> exists r, In r (f_rows y) /\ r_path r = p) /\
  forall p m ys Xs, In (p, m) ms -> single y p ys -> single_X X p Xs ->
    fit_forecaster c (clone_objects tr_clone ob) ys Xs = (m_objects m, Ok (m_fitted m)) /\ m_y m = ys.
Proof.
  intros H. apply vec_fit in H. destruct H as [E H]. split; [exact E|]. rewrite E.
  split; [apply paths_unique_NoDup|]. split.
  { intros p. rewrite series_ids_In. reflexivity. }
  intros p m ys Xs I S SX. rewrite (single_unique _ _ _ S), (single_X_unique _ _ _ SX). exact (H p m I).
Qed.

Lemma c99_fails c ob y X e : panel_fit c ob y X = Err e <->
  exists before p after, series_ids y = (before ++ p :: after)%list /\
    (forall ys Xs, single y p ys -> single_X X p Xs -> snd (fit_forecaster c (clone_objects tr_clone ob) ys Xs) = Err e) /\
    forall q ys Xs, In q before -> single y q ys -> single_X X q Xs -> exists f, snd (fit_forecaster c (clone_objects tr_clone ob) ys Xs) = Ok f.
Proof.
  assert (SX : forall p, single_X X p (option_map (fun X => series_frame X p) X)) by (intros p; destruct X; [apply single_frame|exact I]).
  rewrite vec_fit_err. unfold alone. split; intros (b & p & a & E & H & A); exists b, p, a; (split; [exact E|]); split.
  - intros ys Xs S S'. rewrite (single_unique _ _ _ S), (single_X_unique _ _ _ S'). exact H.
  - intros q ys Xs I S S'. rewrite (single_unique _ _ _ S), (single_X_unique _ _ _ S'). exact (A q I).
  - exact (H _ _ (single_frame y p) (SX p)).
  - intros q I. exact (A q _ _ I (single_frame y q) (SX q)).
Qed.

Lemma c99_isolated c ob y X y' X' ms ms' p m m' ys Xs :
  panel_fit c ob y X = Ok ms -> panel_fit c ob y' X' = Ok ms' -> In (p, m) ms -> In (p, m') ms' ->
  single y p ys -> single y' p ys -> single_X X p Xs -> single_X X' p Xs -> m = m'.
Proof.
  intros F F' I I' S S' SX SX'. refine (vec_isolated ns_of order keep tr_clone tr_fit_transform svi_run nuts_run latent_sites c ob y X y' X' ms ms' p m m' F F' I I' _ _).
  - rewrite <- (single_unique _ _ _ S), <- (single_unique _ _ _ S'). reflexivity.
  - rewrite <- (single_X_unique _ _ _ SX), <- (single_X_unique _ _ _ SX'). reflexivity.
Qed.

Lemma panel_X_good (ms : list (path * member TS P)) X : panel_X (map fst ms) X -> good_X ms X.
Proof. destruct X as [X|]; [|tauto]. intros [W L]. split; [exact W|]. intros p m I. apply L. exact (in_map fst _ _ I). Qed.

Lemma Forall2_imp {A B} (Q Q' : A -> B -> Prop) la lb : (forall a b, Q a b -> Q' a b) -> Forall2 Q la lb -> Forall2 Q' la lb.
Proof. intros H. induction 1; constructor; auto. Qed.

Lemma c99_samples c ms X fh out : panel_X (map fst ms) X -> panel_samples c ms X fh = Ok out ->
  exists outs, f_rows out = flat_map (fun o => f_rows o) outs /\
    Forall2 (fun pm o => forall Xs, single_X X (fst pm) Xs ->
      snd (forecast_samples c (m_objects (snd pm)) (m_fitted (snd pm)) (m_y (snd pm)) Xs fh) = Ok o) ms outs.
Proof.
  intros G H. destruct (vec_samples _ _ _ _ _ _ _ _ _ _ (panel_X_good _ _ G) H) as (outs & F & E). exists outs. split; [exact E|].
  eapply Forall2_imp; [|exact F]. intros [p m] o Q Xs S. rewrite (single_X_unique _ _ _ S). exact Q.
Qed.
Lemma c99_all_sites c ms X fh out : panel_X (map fst ms) X -> panel_all_sites c ms X fh = Ok out ->
  exists outs, f_rows out = flat_map (fun o => f_rows o) outs /\
    Forall2 (fun pm o => forall Xs, single_X X (fst pm) Xs ->
      snd (forecast_all_sites c (m_objects (snd pm)) (m_fitted (snd pm)) (m_y (snd pm)) Xs fh) = Ok o) ms outs.
Proof.
  intros G H. destruct (vec_all_sites _ _ _ _ _ _ _ _ _ _ (panel_X_good _ _ G) H) as (outs & F & E). exists outs. split; [exact E|].
  eapply Forall2_imp; [|exact F]. intros [p m] o Q Xs S. rewrite (single_X_unique _ _ _ S). exact Q.
Qed.
Lemma c99_point c target levels ms X fh out p m Xs : NoDup (map fst ms) -> In (p, m) ms -> single_X X p Xs ->
  panel_point c target levels ms X fh = Ok out ->
  exists o, snd (forecast_point c (m_objects m) (m_fitted m) (m_y m) Xs fh) = Ok o /\
    filter (fun r => if list_eq_dec string_dec (r_path r) p then true else false) (f_rows out) = labelled p (f_rows o).
Proof.
  intros ND I S H. destruct (vec_point _ _ _ _ _ _ _ _ _ _ _ _ _ _ ND I H) as (o & Q & E). exists o. split.
  - rewrite (single_X_unique _ _ _ S). exact Q.
  - change (labelled p (f_rows o)) with (map (relabel p) (f_rows o)). rewrite <- E. unfold rows_of. apply filter_ext. intros r. apply path_dec_eqb.
Qed.
Lemma c99_recover c target levels ms X fh s f : panel_X (map fst ms) X ->
  panel_samples c ms X fh = Ok s -> panel_point c target levels ms X fh = Ok f ->
  List.length (f_rows f) = List.length (f_rows s) /\
  forall i rs rf, nth_error (f_rows s) i = Some rs -> nth_error (f_rows f) i = Some rf ->
    r_time rf = r_time rs /\ r_vals rf = [(Rsum (r_vals rs) / INR (List.length (r_vals rs)))%R].
Proof.
  intros G S H. pose proof (vec_recover _ _ _ _ _ _ _ _ _ _ _ _ _ (panel_X_good _ _ G) S H) as F. split; [apply Forall2_len in F; congruence|].
  clear -F. induction F as [|a b la lb Q F IH]; intros i rs rf; [destruct i; discriminate|].
  destruct i as [|i]; cbn; [|apply IH]. intros [= <-] [= <-]. exact Q.
Qed.
End Any.

Lemma clone_named c s t : named_trend c s = Ok t -> clone_trend t = t.
Proof.
  unfold named_trend. repeat (destruct (String.eqb s _)); intros H; inversion H; reflexivity.
Qed.
