(** Prophetverse on panels: every series is fitted and forecast like a single one. *)
From Coq Require Import Reals String Bool ZArith Arith List Lia.
From Verif.Model Require Import Base Num XFloat Regex Frame Arr Expand Aggregate Scale Predict Prog Likelihood Trend Effect
  TrendProg Engine Forecaster Vectorized.
From Verif.Facts Require Import BaseFacts FrameFacts PredictProps.
Import ListNotations.

Lemma series_frame_rows f f' p : f_cols f = f_cols f' ->
  map (fun r => (r_time r, r_vals r)) (rows_of f p) = map (fun r => (r_time r, r_vals r)) (rows_of f' p) ->
  series_frame f p = series_frame f' p.
Proof.
  intros C H. unfold series_frame, drop_levels, filter_rows. cbn [f_cols f_rows]. rewrite C. f_equal.
  change (filter (fun r => path_eqb (r_path r) p) (f_rows f)) with (rows_of f p).
  change (filter (fun r => path_eqb (r_path r) p) (f_rows f')) with (rows_of f' p).
  assert (G : forall l : list (row R), map (fun r => mkRow ([] : path) (r_time r) (r_vals r)) l =
     map (fun tv => mkRow [] (fst tv) (snd tv)) (map (fun r => (r_time r, r_vals r)) l)) by (intros l; rewrite map_map; reflexivity).
  rewrite !G, H. reflexivity.
Qed.

Lemma mapM_first_err {A B} (f : A -> res B) l e :
  mapM f l = Err e <-> exists l1 x l2, l = (l1 ++ x :: l2)%list /\ f x = Err e /\ forall z, In z l1 -> exists b, f z = Ok b.
Proof.
  induction l as [|x l IH]; simpl.
  - split; [discriminate|]. intros ([|? ?] & ? & ? & H & _); discriminate.
  - destruct (f x) as [b|e'] eqn:E; cbn [bind].
    + assert (Q : (x0 <- mapM f l ;; Ok (b :: x0)) = Err e <-> mapM f l = Err e).
      { destruct (mapM f l); cbn [bind]; split; congruence. }
      rewrite Q, IH. split.
      * intros (l1 & z & l2 & -> & Ez & A1). exists (x :: l1), z, l2. split; [reflexivity|]. split; [exact Ez|].
        intros w [<-|I]; [eauto|auto].
      * intros ([|w l1] & z & l2 & H & Ez & A1); injection H as -> ->; [congruence|].
        exists l1, z, l2. split; [reflexivity|]. split; [exact Ez|]. intros v I. apply A1. right. exact I.
    + split.
      * intros [= <-]. exists [], x, l. split; [reflexivity|]. split; [exact E|]. intros z [].
      * intros ([|w l1] & z & l2 & H & Ez & A1); injection H as -> ->; [congruence|].
        destruct (A1 w (or_introl eq_refl)) as [b Hb]. congruence.
Qed.

(** the frame each forecaster gets from [_vectorize_predict_method] *)
Lemma loc_series X p g : frame_wf X -> List.length p = f_levels X -> get_multiindex_loc X [p] = Ok g -> drop_levels g = series_frame X p.
Proof.
  intros W L [= <-]. unfold series_frame, drop_levels, filter_rows. cbn [f_cols f_rows]. f_equal. f_equal.
  apply filter_ext_in. intros r I. destruct (W r I) as [_ Lr].
  rewrite L, <- Lr, firstn_all. unfold path_in. simpl. now rewrite orb_false_r.
Qed.

Lemma Forall2_flat_map_nth {A B C} (f : A -> list C) (g : B -> list C) (Q : C -> C -> Prop) la lb :
  Forall2 (fun a b => Forall2 Q (f a) (g b)) la lb -> Forall2 Q (flat_map f la) (flat_map g lb).
Proof. induction 1; simpl; [constructor|]. apply Forall2_app; assumption. Qed.

Section Any.
Variable ns_of : Z -> Z.
Variable order : list string -> list string.
Variable keep : path -> bool.
Context {TS : Type}.
Variable tr_clone : TS -> TS.
Variable tr_fit_transform : TS -> frame R -> TS * res (frame R).
Variable tr_transform : TS -> frame R -> res (frame R).
Context {P : Type}.
Variable svi_run : Z -> nat -> nat -> prog arr -> res (list xr * P).
Variable nuts_run : Z -> nat -> nat -> nat -> prog arr -> res (nat -> nat -> env).
Variable latent_sites : prog arr -> list string.
Variable guide_draw : P -> Z -> nat -> prog arr -> env.
Variable complete_draw : env -> Z -> nat -> prog arr -> env.
Notation fit_forecaster := (fit_forecaster ns_of order keep tr_fit_transform svi_run nuts_run latent_sites).
Notation forecast_samples := (forecast_samples ns_of keep tr_transform guide_draw complete_draw).
Notation forecast_all_sites := (forecast_all_sites ns_of keep tr_transform guide_draw complete_draw).
Notation forecast_point := (forecast_point ns_of keep tr_transform guide_draw complete_draw).
Notation panel_fit := (panel_fit ns_of order keep tr_clone tr_fit_transform svi_run nuts_run latent_sites).
Notation panel_point := (panel_point ns_of keep tr_transform guide_draw complete_draw).
Notation panel_samples := (panel_samples ns_of keep tr_transform guide_draw complete_draw).
Notation panel_all_sites := (panel_all_sites ns_of keep tr_transform guide_draw complete_draw).

Definition alone (c : config) (ob : objects) (y : frame R) (X : option (frame R)) (p : path) :=
  fit_forecaster c (clone_objects tr_clone ob) (series_frame y p) (option_map (fun X => series_frame X p) X).

Lemma fit_member_ok c ob y X p q m :
  fit_member ns_of order keep tr_clone tr_fit_transform svi_run nuts_run latent_sites c ob y X p = Ok (q, m) <->
  q = p /\ alone c ob y X p = (m_objects m, Ok (m_fitted m)) /\ m_y m = series_frame y p.
Proof.
  unfold fit_member, alone. destruct (fit_forecaster c (clone_objects tr_clone ob) _ _) as [ob' [f|e]]; cbn [bind].
  - split.
    + intros [= <- <-]. auto.
    + intros (-> & [= -> ->] & E). destruct m. cbn in *. rewrite E. reflexivity.
  - split; [discriminate|]. intros (_ & [=] & _).
Qed.

Lemma vec_fit c ob y X ms : panel_fit c ob y X = Ok ms <->
  map fst ms = series_ids y /\
  forall p m, In (p, m) ms -> alone c ob y X p = (m_objects m, Ok (m_fitted m)) /\ m_y m = series_frame y p.
Proof.
  unfold Vectorized.panel_fit. rewrite mapM_ok. generalize (series_ids y) as ids. intros ids. split.
  - intros F. induction F as [|p [q m] ids ms E F IH]; [split; [reflexivity|intros p m []]|].
    apply fit_member_ok in E. destruct E as (-> & E & Y). destruct IH as [IH1 IH2]. split.
    + cbn. now rewrite IH1.
    + intros p' m' [[= <- <-]|I]; [auto|exact (IH2 p' m' I)].
  - intros [<- H]. induction ms as [|[p m] ms IH]; cbn; constructor.
    + apply fit_member_ok. destruct (H p m (or_introl eq_refl)). auto.
    + apply IH. intros p' m' I. apply H. right. exact I.
Qed.

Lemma vec_fit_err c ob y X e : panel_fit c ob y X = Err e <->
  exists before p after, series_ids y = (before ++ p :: after)%list /\ snd (alone c ob y X p) = Err e /\
    forall q, In q before -> exists f, snd (alone c ob y X q) = Ok f.
Proof.
  unfold Vectorized.panel_fit. rewrite mapM_first_err.
  assert (K : forall p, match fit_member ns_of order keep tr_clone tr_fit_transform svi_run nuts_run latent_sites c ob y X p with
                        | Ok _ => exists f, snd (alone c ob y X p) = Ok f
                        | Err e => snd (alone c ob y X p) = Err e end).
  { intros p. unfold fit_member, alone. destruct (fit_forecaster c (clone_objects tr_clone ob) _ _) as [ob' [f|e']]; cbn [bind snd]; [eauto|reflexivity]. }
  split; intros (l1 & p & l2 & E & H & A); exists l1, p, l2; (split; [exact E|]); (split).
  - specialize (K p). rewrite H in K. exact K.
  - intros q I. destruct (A q I) as [b Hb]. specialize (K q). rewrite Hb in K. exact K.
  - specialize (K p). destruct (fit_member _ _ _ _ _ _ _ _ _ _ _ _ p) as [b|e']; [destruct K; congruence|congruence].
  - intros q I. destruct (A q I) as [f Hf]. specialize (K q). destruct (fit_member _ _ _ _ _ _ _ _ _ _ _ _ q) as [b|e']; [eauto|congruence].
Qed.

(** the data of other series do not matter *)
Lemma vec_isolated c ob y X y' X' ms ms' p m m' :
  panel_fit c ob y X = Ok ms -> panel_fit c ob y' X' = Ok ms' -> In (p, m) ms -> In (p, m') ms' ->
  series_frame y p = series_frame y' p -> option_map (fun X => series_frame X p) X = option_map (fun X => series_frame X p) X' ->
  m = m'.
Proof.
  intros F F' I I' Ey EX. apply vec_fit in F. apply vec_fit in F'. destruct F as [_ F]. destruct F' as [_ F'].
  destruct (F _ _ I) as [A B]. destruct (F' _ _ I') as [A' B']. unfold alone in A, A'. rewrite Ey, EX in A. rewrite A in A'.
  destruct m as [a b d], m' as [a' b' d']. cbn in *. injection A' as -> ->. rewrite B, B', Ey. reflexivity.
Qed.

Definition good_X (ms : list (path * member TS P)) (X : option (frame R)) : Prop :=
  match X with None => True | Some X => frame_wf X /\ forall p m, In (p, m) ms -> List.length p = f_levels X end.

Lemma vectorize_outs (g : member TS P -> option (frame R) -> res (frame R)) ms X out : good_X ms X ->
  vectorize_predict (map (fun pm => (fst pm, g (snd pm))) ms) X = Ok out ->
  exists outs, Forall2 (fun pm o => g (snd pm) (option_map (fun X => series_frame X (fst pm)) X) = Ok o) ms outs /\
    f_rows out = flat_map (fun o => f_rows o) outs.
Proof.
  intros G H. unfold vectorize_predict in H.
  destruct (mapM _ (map (fun pm => (fst pm, g (snd pm))) ms)) as [outs|e] eqn:E; [|discriminate]. cbn [bind] in H.
  exists outs. split.
  - clear H. apply mapM_ok in E. revert outs E. induction ms as [|[p m] ms IH]; cbn [map]; intros outs E; inversion E as [|? o ? outs' E1 E2]; subst; constructor.
    + cbn [fst snd] in *. destruct X as [X|]; [|exact E1]. cbn [option_map] in *.
      destruct (get_multiindex_loc X [p]) as [xi|e] eqn:L; [|discriminate]. cbn [bind] in E1.
      destruct G as [W L']. rewrite (loc_series X p xi W (L' p m (or_introl eq_refl)) L) in E1. exact E1.
    + apply IH; [|exact E2]. destruct X as [X|]; [|exact I]. destruct G as [W L']. split; [exact W|]. intros p' m' I'. apply (L' p' m'). right. exact I'.
  - destruct outs as [|o outs]; [discriminate|]. injection H as <-. reflexivity.
Qed.

Lemma vec_samples c ms X fh out : good_X ms X -> panel_samples c ms X fh = Ok out ->
  exists outs, Forall2 (fun pm o => snd (forecast_samples c (m_objects (snd pm)) (m_fitted (snd pm)) (m_y (snd pm)) (option_map (fun X => series_frame X (fst pm)) X) fh) = Ok o) ms outs /\
    f_rows out = flat_map (fun o => f_rows o) outs.
Proof.
  intros G H. exact (vectorize_outs (fun m X => snd (forecast_samples c (m_objects m) (m_fitted m) (m_y m) X fh)) ms X out G H).
Qed.
Lemma vec_all_sites c ms X fh out : good_X ms X -> panel_all_sites c ms X fh = Ok out ->
  exists outs, Forall2 (fun pm o => snd (forecast_all_sites c (m_objects (snd pm)) (m_fitted (snd pm)) (m_y (snd pm)) (option_map (fun X => series_frame X (fst pm)) X) fh) = Ok o) ms outs /\
    f_rows out = flat_map (fun o => f_rows o) outs.
Proof.
  intros G H. exact (vectorize_outs (fun m X => snd (forecast_all_sites c (m_objects m) (m_fitted m) (m_y m) X fh)) ms X out G H).
Qed.

Definition point_of c (X : option (frame R)) fh (pm : path * member TS P) :=
  snd (forecast_point c (m_objects (snd pm)) (m_fitted (snd pm)) (m_y (snd pm)) (option_map (fun X => series_frame X (fst pm)) X) fh).
Definition relabel (p : path) (r : row R) : row R := mkRow p (r_time r) (r_vals r).

Lemma vec_point_outs c target levels ms X fh out : panel_point c target levels ms X fh = Ok out ->
  exists outs, Forall2 (fun pm o => point_of c X fh pm = Ok o) ms outs /\
    f_rows out = flat_map (fun po => map (relabel (fst po)) (f_rows (snd po))) (combine (map fst ms) outs).
Proof.
  unfold Vectorized.panel_point. destruct (mapM _ ms) as [outs|e] eqn:E; [|discriminate]. cbn [bind]. intros [= <-]. cbn [f_rows].
  exists (map snd outs). apply mapM_ok in E.
  induction E as [|[p m] [q o] ms outs E1 E2 IH]; [split; [constructor|reflexivity]|].
  unfold point_of at 1. cbn [fst snd map] in *.
  destruct (snd (forecast_point c (m_objects m) (m_fitted m) (m_y m) (option_map (fun X => series_frame X p) X) fh)) as [o'|] eqn:Q; [|discriminate].
  cbn [bind] in E1. injection E1 as <- <-. destruct IH as [IH1 IH2]. split.
  - constructor; [exact Q|exact IH1].
  - cbn [flat_map combine fst snd]. rewrite IH2. reflexivity.
Qed.

(** rows of series p in the labelled forecast *)
Lemma relabelled_of p (ps : list path) (outs : list (frame R)) : NoDup ps ->
  forall o i, nth_error ps i = Some p -> nth_error outs i = Some o ->
  filter (fun r => path_eqb (r_path r) p) (flat_map (fun po => map (relabel (fst po)) (f_rows (snd po))) (combine ps outs)) = map (relabel p) (f_rows o).
Proof.
  intros ND. revert outs. induction ps as [|q ps IH]; intros outs o i Hp Ho; [destruct i; discriminate|].
  destruct outs as [|o' outs]; [destruct i; discriminate|]. inversion ND as [|? ? NI ND']; subst.
  assert (ALL : forall (l : list (row R)), filter (fun r => path_eqb (r_path r) p) (map (relabel p) l) = map (relabel p) l).
  { induction l as [|r l IHl]; cbn; [reflexivity|]. rewrite path_eqb_refl. now f_equal. }
  assert (NONE : forall q' (l : list (row R)), q' <> p -> filter (fun r => path_eqb (r_path r) p) (map (relabel q') l) = []).
  { intros q' l N. induction l as [|r l IHl]; cbn; [reflexivity|]. rewrite (proj2 (path_eqb_neq _ _) N). exact IHl. }
  cbn [combine flat_map fst snd]. rewrite filter_app. destruct i as [|i]; cbn in Hp, Ho.
  - injection Hp as ->. injection Ho as ->. rewrite ALL.
    assert (E : filter (fun r => path_eqb (r_path r) p) (flat_map (fun po => map (relabel (fst po)) (f_rows (snd po))) (combine ps outs)) = []).
    { clear -NI NONE. revert outs. induction ps as [|q ps IH]; intros outs; [reflexivity|]. destruct outs as [|o' outs]; [reflexivity|].
      cbn [combine flat_map fst snd]. rewrite filter_app. rewrite NONE by (intros ->; apply NI; left; reflexivity).
      apply IH. intros I. apply NI. right. exact I. }
    rewrite E, app_nil_r. reflexivity.
  - rewrite NONE; [exact (IH ND' outs o i Hp Ho)|]. intros ->. apply NI. apply nth_error_In in Hp. exact Hp.
Qed.

Lemma vec_point c target levels ms X fh out p m : NoDup (map fst ms) -> In (p, m) ms ->
  panel_point c target levels ms X fh = Ok out ->
  exists o, point_of c X fh (p, m) = Ok o /\ rows_of out p = map (relabel p) (f_rows o).
Proof.
  intros ND I H. destruct (vec_point_outs _ _ _ _ _ _ _ H) as (outs & F & R). apply In_nth_error in I. destruct I as [i Hi].
  assert (O : exists o, nth_error outs i = Some o /\ point_of c X fh (p, m) = Ok o).
  { clear -F Hi. revert i Hi. induction F as [|a o ms outs Q F IH]; intros i Hi; [destruct i; discriminate|].
    destruct i as [|i]; cbn in Hi; [injection Hi as ->; exists o; auto|]. exact (IH i Hi). }
  destruct O as (o & Ho & Q). exists o. split; [exact Q|]. unfold rows_of. rewrite R.
  refine (relabelled_of p (map fst ms) outs ND o i _ Ho). rewrite nth_error_map, Hi. reflexivity.
Qed.

(** the labels of [predict] fit the unlabelled rows of [predict_samples], position by position *)
Lemma vec_recover c target levels ms X fh s f : good_X ms X ->
  panel_samples c ms X fh = Ok s -> panel_point c target levels ms X fh = Ok f ->
  Forall2 (fun rs rf => r_time rf = r_time rs /\ r_vals rf = [Rmean (r_vals rs)]) (f_rows s) (f_rows f).
Proof.
  intros G S H. destruct (vec_samples _ _ _ _ _ G S) as (ss & FS & RS). destruct (vec_point_outs _ _ _ _ _ _ _ H) as (outs & FO & RO).
  rewrite RS, RO. clear -FS FO. revert outs FO. induction FS as [|[p m] o ms ss Q FS IH]; intros outs FO; [constructor|].
  inversion FO as [|? o' ? outs' Q' FO']; subst. cbn [flat_map combine map fst snd]. apply Forall2_app; [|exact (IH outs' FO')].
  unfold point_of in Q'. cbn [fst snd] in Q, Q'. unfold Forecaster.forecast_point in Q'.
  destruct (forecast_samples c (m_objects m) (m_fitted m) (m_y m) (option_map (fun X => series_frame X p) X) fh) as [f' r]. cbn [snd] in Q, Q'. subst r. cbn [bind] in Q'. injection Q' as <-.
  unfold point_forecast. cbn [f_rows]. rewrite map_map. clear. induction (f_rows o) as [|r l IH]; cbn; constructor; [cbn; auto|exact IH].
Qed.
End Any.
