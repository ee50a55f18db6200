(** Objects passed by reference. *)
From Coq Require Import Reals String Bool ZArith List Lia.
From Verif.Model Require Import Base Num XFloat Regex Frame Arr Expand Aggregate Scale Predict Prog Effect TrendProg Engine Forecaster History Shared.
From Verif.Spec Require Import FrameSpec ForecasterSpec HistorySpec SharedSpec.
From Verif.Facts Require Import BaseFacts ForecasterInv.
Import ListNotations.
Local Open Scope string_scope.

(** * Effects *)
Lemma points_app h h2 a e : points_to h a e -> points_to (h ++ h2)%list a e.
Proof. unfold points_to. intros H. rewrite nth_error_app1; [exact H|]. apply nth_error_Some. congruence. Qed.

Lemma write_last h e e' : write (h ++ [e])%list (List.length h) e' = (h ++ [e'])%list.
Proof.
  unfold write. rewrite firstn_app, Nat.sub_diag, firstn_all. simpl firstn. rewrite app_nil_r. f_equal. f_equal.
  apply skipn_all2. rewrite app_length. simpl. lia.
Qed.

Lemma points_last h e : points_to (h ++ [e])%list (List.length h) e.
Proof. unfold points_to. rewrite nth_error_app2, Nat.sub_diag by lia. reflexivity. Qed.

(** cloning and fitting changes a new cell only *)
Lemma clone_fit order h a e X s : points_to h a e -> exists h1 h' err, clone_cell h a = (h1, List.length h) /\
  fit_cell order h1 (List.length h) X s = (h', err) /\ h' = (h ++ [fst (fit order (clone e) X s)])%list /\ err = snd (fit order (clone e) X s).
Proof.
  intros H. unfold clone_cell. unfold points_to in H. rewrite H. unfold alloc. eexists _, _, _. split; [reflexivity|].
  unfold fit_cell. pose proof (points_last h (clone e)) as PL. unfold points_to in PL. rewrite PL.
  rewrite (surjective_pairing (fit order (clone e) X s)). rewrite write_last. split; [reflexivity|]. split; reflexivity.
Qed.

Lemma fit_one_agrees order h X s lr l : listed_as h lr l -> exists new,
  fst (fit_one_ref order h X s lr) = (h ++ new)%list /\
  match snd (fit_one_ref order h X s lr), fit_one order X s l with
  | Err e1, Err e2 => e1 = e2
  | Ok fr, Ok f => fitted_as (h ++ new)%list fr f /\ List.length h <= snd (fst fr)
  | _, _ => False
  end.
Proof.
  destruct lr as [[n a] rg], l as [[n' e] rg']. intros (En & Er & Hp). cbn [fst snd] in *. subst n' rg'. unfold fit_one_ref, fit_one.
  destruct X as [X|].
  - destruct (match_columns (f_cols X) rg) as [cols|ex]; cbn [bind].
    2:{ exists []. rewrite app_nil_r. split; reflexivity. }
    destruct (select_columns 0%R X cols) as [XC|ex]; cbn [bind].
    2:{ exists []. rewrite app_nil_r. split; reflexivity. }
    destruct (clone_fit order h a e (Some XC) s Hp) as (h1 & h' & err & -> & E2 & E3 & E4). rewrite E2.
    destruct (fit order (clone e) (Some XC) s) as [e' er] eqn:F. cbn [fst snd] in *. subst h' err. exists [e']. destruct er; cbn [fst snd].
    + auto.
    + split; [reflexivity|]. split; [|lia]. repeat split. cbn [fst snd]. apply points_last.
  - destruct (clone_fit order h a e None s Hp) as (h1 & h' & err & -> & E2 & E3 & E4). rewrite E2.
    destruct (fit order (clone e) None s) as [e' er] eqn:F. cbn [fst snd] in *. subst h' err. exists [e']. destruct er; cbn [fst snd]; auto.
Qed.

Lemma fitted_as_app h h2 fr f : fitted_as h fr f -> fitted_as (h ++ h2)%list fr f.
Proof. intros (A & B & C). repeat split; auto. now apply points_app. Qed.
Lemma listed_as_app h h2 lr l : listed_as h lr l -> listed_as (h ++ h2)%list lr l.
Proof. intros (A & B & C). repeat split; auto. now apply points_app. Qed.

Lemma fit_listed_agrees order X s : forall lrs ls h, Forall2 (listed_as h) lrs ls -> exists new,
  fst (fit_listed_ref order h X s lrs) = (h ++ new)%list /\
  match snd (fit_listed_ref order h X s lrs), mapM (fit_one order X s) ls with
  | Err e1, Err e2 => e1 = e2
  | Ok frs, Ok fs => Forall2 (fitted_as (h ++ new)%list) frs fs /\ Forall (fun fr => List.length h <= snd (fst fr)) frs
  | _, _ => False
  end.
Proof.
  induction lrs as [|lr lrs IH]; intros ls h H; inversion H as [|? l ? ls' H1 H2]; subst; simpl.
  - exists []. rewrite app_nil_r. split; [reflexivity|]. split; constructor.
  - destruct (fit_one_agrees order h X s lr l H1) as (new & E1 & E2).
    destruct (fit_one_ref order h X s lr) as [h1 r1]. cbn [fst snd] in *. subst h1.
    destruct r1 as [fr|e1], (fit_one order X s l) as [f|e2]; try contradiction; cbn [bind].
    2:{ exists new. auto. }
    destruct (IH ls' (h ++ new)%list) as (new2 & E3 & E4).
    { clear -H2. induction H2; constructor; auto. now apply listed_as_app. }
    destruct (fit_listed_ref order (h ++ new)%list X s lrs) as [h2 r2]. cbn [fst snd] in *. subst h2. exists (new ++ new2)%list. rewrite app_assoc.
    destruct r2 as [frs|e1], (mapM (fit_one order X s) ls') as [fs|e2]; try contradiction; cbn [bind fst snd].
    2:{ split; [reflexivity|exact E4]. }
    split; [reflexivity|]. destruct E4 as [E4 E5]. split.
    + constructor; [|exact E4]. apply fitted_as_app. apply E2.
    + constructor; [apply E2|]. rewrite Forall_forall in *. intros x Hx. specialize (E5 x Hx). rewrite app_length in E5. lia.
Qed.

Lemma uncovered_agrees h cols frs fs : Forall2 (fitted_as h) frs fs -> uncovered_ref cols frs = uncovered cols fs.
Proof.
  intros H. unfold uncovered_ref, uncovered. do 2 f_equal. apply filter_ext. intros c. f_equal.
  induction H as [|fr f frs fs (_ & E & _) H IH]; simpl; [reflexivity|]. now rewrite IH, E.
Qed.

Lemma fit_effects_agrees order h d default lrs ls X s : Forall2 (listed_as h) lrs ls ->
  match d, default with None, None => True | Some a, Some e => points_to h a e | _, _ => False end ->
  exists new, fst (fit_effects_ref order h d lrs X s) = (h ++ new)%list /\
  match snd (fit_effects_ref order h d lrs X s), fit_effects order default ls X s with
  | Err e1, Err e2 => e1 = e2
  | Ok frs, Ok fs => Forall2 (fitted_as (h ++ new)%list) frs fs /\ Forall (fun fr => List.length h <= snd (fst fr)) frs
  | _, _ => False
  end.
Proof.
  intros H Hd. unfold fit_effects_ref, fit_effects. destruct (fit_listed_agrees order X s lrs ls h H) as (new & E1 & E2).
  destruct (fit_listed_ref order h X s lrs) as [h1 r]. cbn [fst snd] in *. subst h1.
  destruct r as [frs|e1], (mapM (fit_one order X s) ls) as [fs|e2]; try contradiction; cbn [bind].
  2:{ exists new. destruct X; auto. }
  destruct X as [X|]; [|exists new; auto]. destruct E2 as [E2 E3]. rewrite (uncovered_agrees _ _ _ _ E2).
  destruct (uncovered (f_cols X) fs) as [|c cs] eqn:U; [exists new; repeat split; assumption|].
  destruct (select_columns 0%R X (c :: cs)) as [XC|ex]; cbn [bind]; [|exists new; split; reflexivity].
  assert (exists h1 a e, (match d with None => alloc (h ++ new)%list default_linear | Some a => @pair effect_heap nat (h ++ new)%list a end) = @pair effect_heap nat (h ++ new ++ h1)%list a /\
     points_to (h ++ new ++ h1)%list a e /\ e = match default with None => default_linear | Some e => e end) as (h1 & a & e & Q1 & Q2 & Q3).
  { destruct d as [a|], default as [e|]; try contradiction.
    - exists [], a, e. rewrite app_nil_r. split; [reflexivity|]. split; [now apply points_app|reflexivity].
    - exists [default_linear], (List.length (h ++ new)%list), default_linear. unfold alloc. rewrite app_assoc. split; [reflexivity|]. split; [apply points_last|reflexivity]. }
  rewrite Q1, <- Q3.
  destruct (clone_fit order _ a e (Some XC) s Q2) as (h2 & h' & err & -> & K2 & K3 & K4). rewrite K2.
  destruct (fit order (clone e) (Some XC) s) as [e' er]. cbn [fst snd] in *. subst h' err.
  exists (new ++ h1 ++ [e'])%list. rewrite <- !app_assoc. destruct er; cbn [fst snd]; [auto|].
  split; [reflexivity|]. split.
  - apply Forall2_app.
    + replace (h ++ new ++ h1 ++ [e'])%list with ((h ++ new) ++ (h1 ++ [e']))%list by now rewrite <- app_assoc.
      clear -E2. induction E2; constructor; auto. now apply fitted_as_app.
    + constructor; [|constructor]. repeat split. cbn [fst snd].
      replace (h ++ new ++ h1 ++ [e'])%list with ((h ++ new ++ h1) ++ [e'])%list by now rewrite <- !app_assoc. apply points_last.
  - apply Forall_app. split; [exact E3|]. constructor; [|constructor]. cbn [fst snd]. rewrite !app_length. lia.
Qed.

Lemma unchanged_app h new : unchanged h (h ++ new)%list.
Proof. intros a e. apply points_app. Qed.

Lemma c65_effects order h d default lrs ls X s h' r : Forall2 (listed_as h) lrs ls ->
  match d, default with None, None => True | Some a, Some e => points_to h a e | _, _ => False end ->
  fit_effects_ref order h d lrs X s = (h', r) ->
  unchanged h h' /\
  match r, fit_effects order default ls X s with
  | Err e1, Err e2 => e1 = e2
  | Ok frs, Ok fs => Forall2 (fitted_as h') frs fs /\ Forall (fun fr => List.length h <= snd (fst fr)) frs
  | _, _ => False
  end.
Proof.
  intros H Hd E. destruct (fit_effects_agrees order h d default lrs ls X s H Hd) as (new & E1 & E2). rewrite E in E1, E2. cbn [fst snd] in *. subst h'.
  split; [apply unchanged_app|exact E2].
Qed.

(** * Several forecasters *)
Section World.
Variable ns_of : Z -> Z.
Variable order : list string -> list string.
Variable keep : path -> bool.
Context {TS : Type}.
Variable tr_fit_transform : TS -> frame R -> TS * res (frame R).
Variable tr_transform : TS -> frame R -> res (frame R).
Context {P : Type}.
Variable svi_run : Z -> nat -> nat -> prog arr -> res (list xr * P).
Variable nuts_run : Z -> nat -> nat -> nat -> prog arr -> res (nat -> nat -> env).
Variable latent_sites : prog arr -> list string.
Variable guide_draw : P -> Z -> nat -> prog arr -> env.
Variable complete_draw : env -> Z -> nat -> prog arr -> env.
Notation world := (world (TS := TS) (P := P)).
Notation step := (step ns_of order keep tr_fit_transform tr_transform svi_run nuts_run latent_sites guide_draw complete_draw).
Notation calls := (calls ns_of order keep tr_fit_transform tr_transform svi_run nuts_run latent_sites guide_draw complete_draw).
Notation world_step := (world_step ns_of order keep tr_fit_transform tr_transform svi_run nuts_run latent_sites guide_draw complete_draw).
Notation world_calls := (world_calls ns_of order keep tr_fit_transform tr_transform svi_run nuts_run latent_sites guide_draw complete_draw).
Notation fit_forecaster := (fit_forecaster ns_of order keep tr_fit_transform svi_run nuts_run latent_sites).

Definition has (o : option TS) : bool := match o with None => false | Some _ => true end.

Lemma run_fit_transform_has ob X : has (o_transformer (fst (run_fit_transform tr_fit_transform ob X))) = has (o_transformer ob).
Proof.
  unfold run_fit_transform. destruct (o_transformer ob) as [tr|] eqn:E; [|cbn; now rewrite E].
  destruct (tr_fit_transform tr X) as [tr' r]. reflexivity.
Qed.

Lemma univariate_has c ob s y X : has (o_transformer (fst (univariate_fit_data ns_of order tr_fit_transform c ob s y X))) = has (o_transformer ob).
Proof.
  unfold univariate_fit_data. destruct (get_trend_model c ob) as [t|]; [|reflexivity].
  destruct (if discrete c then divide_target s y else Ok y) as [yt|]; [|reflexivity].
  destruct (trend_fit ns_of order t X yt 1) as [t' [e|]]; [reflexivity|].
  set (X' := match X with None => _ | Some X => X end). set (ob' := mkObjects t' (o_transformer ob)).
  pose proof (run_fit_transform_has ob' X') as H. destruct (run_fit_transform tr_fit_transform ob' X') as [ob2 r]. exact H.
Qed.

Lemma hierarchical_has c ob s y X : has (o_transformer (fst (hierarchical_fit_data ns_of order keep tr_fit_transform c ob s y X))) = has (o_transformer ob).
Proof.
  unfold hierarchical_fit_data. destruct (loc_bottom_series (aggregate keep y)) as [yb|]; [|reflexivity].
  destruct (series_to_tensor yb) as [tensor|]; [|reflexivity].
  set (X' := match X with None => _ | Some X => _ end).
  destruct (loc_bottom_series X') as [Xb|]; [|reflexivity].
  pose proof (run_fit_transform_has ob Xb) as H. destruct (run_fit_transform tr_fit_transform ob Xb) as [ob2 r]. cbn [fst] in H.
  destruct r as [Xb2|]; [|exact H]. cbv zeta.
  match goal with |- context [match ?x with Ok _ => _ | Err _ => _ end] => destruct x as [[Xb3 ex]|] end; [|exact H].
  destruct (get_trend_model c ob2) as [t|]; [|exact H].
  destruct (trend_fit ns_of order t (Some Xb3) yb (scale_number s)) as [t' err]. exact H.
Qed.

Lemma fit_forecaster_has c ob y X : has (o_transformer (fst (fit_forecaster c ob y X))) = has (o_transformer ob).
Proof.
  unfold Forecaster.fit_forecaster. destruct (bind (set_y_scales (c_scale c) y) _) as [[s ys]|]; [|reflexivity].
  pose proof (univariate_has c ob s ys X) as U. pose proof (hierarchical_has c ob s ys X) as H.
  unfold fit_data. destruct (c_hier c).
  - destruct (hierarchical_fit_data ns_of order keep tr_fit_transform c ob s ys X) as [ob2 r]. exact H.
  - destruct (univariate_fit_data ns_of order tr_fit_transform c ob s ys X) as [ob2 r]. exact U.
Qed.

Lemma do_fit_has c st y X : has (o_transformer (st_objects (fst (do_fit ns_of order keep tr_fit_transform svi_run nuts_run latent_sites c st y X)))) = has (o_transformer (st_objects st)).
Proof.
  unfold do_fit. pose proof (fit_forecaster_has c (st_objects st) y X) as H.
  destruct (fit_forecaster c (st_objects st) y X) as [ob [f|]]; exact H.
Qed.

Lemma step_has c st cl : has (o_transformer (st_objects (fst (step c st cl)))) = has (o_transformer (st_objects st)).
Proof.
  destruct cl as [y X|y X up|m X fh]; cbn [History.step].
  - apply do_fit_has.
  - destruct (st_fitted st) as [f|]; [|reflexivity]. destruct (combine_first y (st_y st)) as [y2|]; [|reflexivity].
    match goal with |- context [match ?x with Ok _ => _ | Err _ => _ end] => destruct x as [X2|] end; [|reflexivity].
    destruct up; [apply do_fit_has|reflexivity].
  - destruct (st_fitted st) as [f|]; [|reflexivity].
    match goal with |- context [let '(_, _) := ?x in _] => destruct x as [f' r] end. reflexivity.
Qed.

Lemma upd_same {A} (f : nat -> A) a v : upd f a v a = v.
Proof. unfold upd. now rewrite Nat.eqb_refl. Qed.
Lemma upd_other {A} (f : nat -> A) a v b : b <> a -> upd f a v b = f b.
Proof. unfold upd. intros H. destruct (Nat.eqb_spec b a); [contradiction|reflexivity]. Qed.

(** what never changes *)
Lemma world_step_static w i cl j :
  m_config (w_members (fst (world_step w i cl)) j) = m_config (w_members w j) /\
  m_trend (w_members (fst (world_step w i cl)) j) = m_trend (w_members w j) /\
  m_transformer (w_members (fst (world_step w i cl)) j) = m_transformer (w_members w j).
Proof.
  unfold Shared.world_step. destruct (step (m_config (w_members w i)) (view w (w_members w i)) cl) as [st r]. cbn [fst w_members].
  unfold upd. destruct (Nat.eqb_spec j i) as [->|]; auto.
Qed.

Lemma alone_step w i j cl : alone w i -> alone (fst (world_step w j cl)) i.
Proof.
  intros H k Hk. destruct (H k Hk) as [A B].
  destruct (world_step_static w j cl i) as (_ & E1 & E2), (world_step_static w j cl k) as (_ & F1 & F2). rewrite E1, E2, F1, F2. auto.
Qed.

Lemma view_own w i cl : view (fst (world_step w i cl)) (w_members (fst (world_step w i cl)) i) =
  fst (step (m_config (w_members w i)) (view w (w_members w i)) cl).
Proof.
  pose proof (step_has (m_config (w_members w i)) (view w (w_members w i)) cl) as Hh.
  unfold Shared.world_step. destruct (step (m_config (w_members w i)) (view w (w_members w i)) cl) as [st r]. cbn [fst w_members] in *.
  rewrite upd_same. unfold view. cbn [m_trend m_transformer m_own m_y m_X m_fitted w_trends w_transformers].
  unfold view in Hh. cbn [st_objects o_transformer] in Hh. destruct st as [[t tr] y X f]. cbn [st_objects o_trend o_transformer st_y st_X st_fitted] in *.
  f_equal. f_equal.
  - destruct (m_trend (w_members w i)) as [a|]; [apply upd_same|reflexivity].
  - destruct (m_transformer (w_members w i)) as [a|], tr as [tr|]; cbn in *; try discriminate; [|reflexivity]. now rewrite upd_same.
Qed.

Lemma view_other w i j cl : alone w i -> j <> i ->
  view (fst (world_step w j cl)) (w_members (fst (world_step w j cl)) i) = view w (w_members w i).
Proof.
  intros H Hj. destruct (H j Hj) as [A B]. unfold Shared.world_step.
  destruct (step (m_config (w_members w j)) (view w (w_members w j)) cl) as [st r]. cbn [fst w_members].
  rewrite upd_other by congruence. unfold view. cbn [w_trends w_transformers]. f_equal. f_equal.
  - destruct (m_trend (w_members w i)) as [a|]; [|reflexivity]. destruct (m_trend (w_members w j)) as [b|]; [|reflexivity].
    apply upd_other. intros ->. now apply (A b).
  - destruct (m_transformer (w_members w i)) as [a|]; [|reflexivity]. cbn [option_map]. f_equal.
    destruct (m_transformer (w_members w j)) as [b|]; [|reflexivity]. destruct (o_transformer (st_objects st)); [|reflexivity].
    apply upd_other. intros ->. now apply (B b).
Qed.

Lemma world_calls_view cs : forall w i, alone w i ->
  m_config (w_members (world_calls w cs) i) = m_config (w_members w i) /\
  view (world_calls w cs) (w_members (world_calls w cs) i) = calls (m_config (w_members w i)) (view w (w_members w i)) (calls_to i cs).
Proof.
  induction cs as [|[j cl] cs IH]; intros w i H; [split; reflexivity|].
  unfold Shared.world_calls. cbn [fold_left fst snd]. fold (world_calls (fst (world_step w j cl)) cs).
  destruct (IH _ _ (alone_step w i j cl H)) as [E1 E2]. rewrite E1, E2. destruct (world_step_static w j cl i) as (C & _ & _). rewrite C.
  split; [reflexivity|]. unfold calls_to. cbn [filter fst]. destruct (Nat.eqb_spec j i) as [->|Hj].
  - cbn [map snd]. rewrite view_own. reflexivity.
  - now rewrite view_other.
Qed.

(** C65: the answers of forecaster [i] are those it gives without the other forecasters *)
Lemma c65 w i cs cl : alone w i ->
  snd (world_step (world_calls w cs) i cl) =
  snd (step (m_config (w_members w i)) (calls (m_config (w_members w i)) (view w (w_members w i)) (calls_to i cs)) cl).
Proof.
  intros H. destruct (world_calls_view cs w i H) as [E1 E2]. unfold Shared.world_step. rewrite E1, E2.
  destruct (step _ _ cl) as [st r]. reflexivity.
Qed.
End World.
