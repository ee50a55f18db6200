(** Fitting again forgets everything that happened before. *)
From Coq Require Import Reals String Bool ZArith List.
From Verif.Model Require Import Base Num XFloat Frame Arr Expand Aggregate Scale Predict Prog Effect Trend TrendProg Engine Forecaster History.
From Verif.Spec Require Import FrameSpec EffectSpec ForecasterSpec HistorySpec.
From Verif.Facts Require Import BaseFacts EffectFacts ForecasterProps.
Import ListNotations.
Local Open Scope string_scope.

(** effects with equal parameters are fitted alike *)
Lemma fit_params order : forall e1 e2 X s, no_fourier e1 = true -> clone e1 = clone e2 ->
  snd (fit order e1 X s) = snd (fit order e2 X s) /\ clone (fst (fit order e1 X s)) = clone e1 /\ no_fourier (fst (fit order e1 X s)) = true /\
  (snd (fit order e1 X s) = None -> fst (fit order e1 X s) = fst (fit order e2 X s)).
Proof.
  intros e1. induction e1 as [m p b|m p q b|m p q r b|i IH t ps b sc|]; intros e2 X s NF C; simpl in NF; try discriminate;
    destruct e2; simpl in C; try discriminate; injection C; intros; subst; cbn [fit]; unfold base_fit.
  1-3: cbn; destruct (is_panel X); cbn; repeat split; auto; discriminate.
  destruct (IH e2 X s NF ltac:(assumption)) as (A & B & N & D).
  destruct (fit order i X s) as [i1 o1], (fit order e2 X s) as [i2 o2]. cbn [fst snd] in *. subst o2.
  destruct o1 as [er|].
  - cbn. repeat split; auto; try congruence.
  - rewrite (D eq_refl) in *. cbn. destruct (is_panel X); cbn; repeat split; auto; try congruence.
Qed.

(** a trend object before any fit *)
Definition clear_trend (t : trend) : trend :=
  match t with
  | TPiecewise p c _ _ => TPiecewise p c base_init None
  | TFlat s _ _ => TFlat s base_init None
  | TEffect e => TEffect (clone e)
  end.

Lemma trend_fit_params ns order t1 t2 X y s : plain_trend t1 -> clear_trend t1 = clear_trend t2 ->
  snd (trend_fit ns order t1 X y s) = snd (trend_fit ns order t2 X y s) /\
  clear_trend (fst (trend_fit ns order t1 X y s)) = clear_trend t1 /\ plain_trend (fst (trend_fit ns order t1 X y s)) /\
  (snd (trend_fit ns order t1 X y s) = None -> fst (trend_fit ns order t1 X y s) = fst (trend_fit ns order t2 X y s)).
Proof.
  intros NF C. destruct t1 as [p c b f|sc b l|e], t2 as [p' c' b' f'|sc' b' l'|e']; simpl in C; try discriminate; injection C; intros; subst; cbn [trend_fit].
  - destruct (piecewise_fit ns p' y); cbn; repeat split; auto. discriminate.
  - cbn. auto.
  - destruct (fit_params order e e' X s NF ltac:(assumption)) as (A & B & N & D).
    destruct (fit order e X s) as [e1 o1], (fit order e' X s) as [e2 o2]. cbn [fst snd] in *. subst o2. cbn. rewrite B.
    repeat split; auto. intros E. now rewrite (D E).
Qed.

Section History.
Variable ns_of : Z -> Z.
Variable order : list string -> list string.
Variable keep : path -> bool.
Context {TS : Type}.
Variable tr_fit_transform : TS -> frame R -> TS * res (frame R).
Variable tr_transform : TS -> frame R -> res (frame R).
Context {P : Type}.
Variable svi_run : Z -> nat -> nat -> prog arr -> res (list xr * P).
Variable nuts_run : Z -> nat -> nat -> nat -> prog arr -> res (nat -> nat -> env).
Variable latent_sites : prog arr -> list string.
Variable guide_draw : P -> Z -> nat -> prog arr -> env.
Variable complete_draw : env -> Z -> nat -> prog arr -> env.
Notation step := (step ns_of order keep tr_fit_transform tr_transform svi_run nuts_run latent_sites guide_draw complete_draw).
Notation calls := (calls ns_of order keep tr_fit_transform tr_transform svi_run nuts_run latent_sites guide_draw complete_draw).
Notation fit_forecaster := (fit_forecaster ns_of order keep tr_fit_transform svi_run nuts_run latent_sites).
Notation objects := (objects (TS := TS)).

(** sktime's contract for transformers: [fit] resets *)
Hypothesis tr_forgets : forall s X X', tr_fit_transform (fst (tr_fit_transform s X)) X' = tr_fit_transform s X'.

Definition same_tr (a b : option TS) : Prop :=
  match a, b with
  | None, None => True
  | Some a, Some b => forall X, tr_fit_transform a X = tr_fit_transform b X
  | _, _ => False
  end.
Definition same_objects (c : config) (a b : objects) : Prop :=
  (c_trend c = TrendObject -> plain_trend (o_trend a) /\ clear_trend (o_trend a) = clear_trend (o_trend b)) /\
  same_tr (o_transformer a) (o_transformer b).

Lemma run_same ob1 ob2 X : same_tr (o_transformer ob1) (o_transformer ob2) ->
  snd (run_fit_transform tr_fit_transform ob1 X) = snd (run_fit_transform tr_fit_transform ob2 X) /\
  o_transformer (fst (run_fit_transform tr_fit_transform ob1 X)) = match o_transformer ob1 with None => None | Some t => Some (fst (tr_fit_transform t X)) end /\
  o_transformer (fst (run_fit_transform tr_fit_transform ob1 X)) = o_transformer (fst (run_fit_transform tr_fit_transform ob2 X)) /\
  o_trend (fst (run_fit_transform tr_fit_transform ob1 X)) = o_trend ob1 /\
  same_tr (o_transformer (fst (run_fit_transform tr_fit_transform ob1 X))) (o_transformer ob1).
Proof.
  unfold run_fit_transform. destruct ob1 as [t1 [s1|]], ob2 as [t2 [s2|]]; cbn; try contradiction; auto.
  intros H. rewrite (H X). pose proof (tr_forgets s2 X) as F. destruct (tr_fit_transform s2 X) as [s' r]. cbn in *. repeat split. intros X'. now rewrite F, H.
Qed.

Lemma same_tr_refl a : same_tr a a.
Proof. destruct a; simpl; auto. Qed.

Lemma trend_same c ob1 ob2 : same_objects c ob1 ob2 ->
  match get_trend_model c ob1, get_trend_model c ob2 with
  | Ok t1, Ok t2 => plain_trend t1 /\ clear_trend t1 = clear_trend t2 /\ (c_trend c = TrendObject -> t1 = o_trend ob1)
  | Err a, Err b => a = b
  | _, _ => False
  end.
Proof.
  intros (H & _). unfold get_trend_model. destruct (c_trend c) as [s|].
  - unfold named_trend. repeat match goal with |- context [if ?b then _ else _] => destruct b end; cbn; repeat split; discriminate.
  - destruct (H eq_refl). auto.
Qed.

(** [P]: everything but the objects agrees, and the objects agree after a success *)
Definition alike {A} (c : config) (ob : objects) (r1 r2 : objects * res A) : Prop :=
  snd r1 = snd r2 /\ same_objects c (fst r1) ob /\ (is_ok (snd r1) = true -> fst r1 = fst r2).

Lemma alike_err {A} c ob ob1 ob2 e : same_objects c ob1 ob -> alike (A := A) c ob (ob1, Err e) (ob2, Err e).
Proof. intros H. repeat split; cbn; try apply H; auto; discriminate. Qed.

Lemma same_objects_refl c ob ob2 : same_objects c ob ob2 -> same_objects c ob ob.
Proof. intros (A & B). split; [|apply same_tr_refl]. intros E. destruct (A E). auto. Qed.

Lemma univariate_same c ob1 ob2 s y X : same_objects c ob1 ob2 ->
  alike c ob1 (univariate_fit_data ns_of order tr_fit_transform c ob1 s y X) (univariate_fit_data ns_of order tr_fit_transform c ob2 s y X).
Proof.
  intros H. pose proof (trend_same c ob1 ob2 H) as HT. pose proof (same_objects_refl _ _ _ H) as HR. unfold univariate_fit_data.
  destruct (get_trend_model c ob1) as [t1|], (get_trend_model c ob2) as [t2|]; try contradiction; [|subst; now apply alike_err].
  destruct HT as (PT & CT & OT).
  destruct (if discrete c then _ else _) as [yt|e].
  2:{ apply alike_err. split; [|apply same_tr_refl]. cbn. intros E. rewrite (OT E) in *. auto. }
  destruct (trend_fit_params ns_of order t1 t2 X yt 1 PT CT) as (A & B & N & D).
  destruct (trend_fit ns_of order t1 X yt 1) as [t1' o1], (trend_fit ns_of order t2 X yt 1) as [t2' o2]. cbn [fst snd] in *. subst o2.
  destruct o1 as [e|].
  { apply alike_err. split; [|apply same_tr_refl]. cbn. intros E. rewrite (OT E) in *. auto. }
  rewrite <- (D eq_refl).
  set (X0 := match X with None => _ | Some X => X end).
  destruct (run_same (mkObjects t1' (o_transformer ob1)) (mkObjects t1' (o_transformer ob2)) X0 (proj2 H)) as (R1 & R2 & R3 & R4 & R5).
  pose proof (run_same (mkObjects t1' (o_transformer ob2)) (mkObjects t1' (o_transformer ob2)) X0 (same_tr_refl _)) as (_ & _ & _ & Q4 & _).
  destruct (run_fit_transform _ (mkObjects t1' (o_transformer ob1)) X0) as [ob1' x1], (run_fit_transform _ (mkObjects t1' (o_transformer ob2)) X0) as [ob2' x2].
  cbn [fst snd o_trend o_transformer] in *. subst x2. split; [reflexivity|]. cbn [fst]. split.
  - split; [|exact R5]. intros E. rewrite R4. rewrite (OT E) in *. auto.
  - intros _. destruct ob1', ob2'. cbn in *. congruence.
Qed.

Lemma hierarchical_same c ob1 ob2 s y X : same_objects c ob1 ob2 ->
  alike c ob1 (hierarchical_fit_data ns_of order keep tr_fit_transform c ob1 s y X) (hierarchical_fit_data ns_of order keep tr_fit_transform c ob2 s y X).
Proof.
  intros H. pose proof (same_objects_refl _ _ _ H) as HR. unfold hierarchical_fit_data.
  destruct (loc_bottom_series (aggregate keep y)) as [yb|]; [|now apply alike_err].
  destruct (series_to_tensor yb) as [tensor|]; [|now apply alike_err].
  destruct (loc_bottom_series _) as [Xb|]; [|now apply alike_err].
  destruct (run_same ob1 ob2 Xb (proj2 H)) as (R1 & R2 & R3 & R4 & R5).
  pose proof (run_same ob2 ob2 Xb (same_tr_refl _)) as (_ & _ & _ & Q4 & _).
  destruct (run_fit_transform _ ob1 Xb) as [ob1' x1], (run_fit_transform _ ob2 Xb) as [ob2' x2]. cbn [fst snd] in *. subst x2.
  assert (H1 : same_objects c ob1' ob1).
  { split; [|exact R5]. intros E. rewrite R4. apply HR. exact E. }
  destruct x1 as [X1|e]; [|now apply alike_err].
  assert (H2 : same_objects c ob1' ob2').
  { split; [|rewrite R3; apply same_tr_refl]. intros E. rewrite R4, Q4. apply H. exact E. }
  pose proof (trend_same c ob1' ob2' H2) as HT.
  destruct (if negb (no_columns X1) then _ else _) as [[Xe ex]|e]; [|now apply alike_err].
  destruct (get_trend_model c ob1') as [t1|], (get_trend_model c ob2') as [t2|]; try contradiction; [|subst; now apply alike_err].
  destruct HT as (PT & CT & OT).
  destruct (trend_fit_params ns_of order t1 t2 (Some Xe) yb (scale_number s) PT CT) as (A & B & N & D).
  destruct (trend_fit ns_of order t1 _ yb _) as [t1' o1], (trend_fit ns_of order t2 _ yb _) as [t2' o2]. cbn [fst snd] in *. subst o2.
  assert (H3 : same_objects c (mkObjects t1' (o_transformer ob1')) ob1).
  { split; [|exact R5]. cbn. intros E. rewrite (OT E), R4 in *. auto. }
  destruct o1 as [e|]; [now apply alike_err|]. rewrite <- (D eq_refl), <- R3.
  split; [reflexivity|]. split; [exact H3|]. reflexivity.
Qed.

Lemma fit_same c ob1 ob2 y X : same_objects c ob1 ob2 -> alike c ob1 (fit_forecaster c ob1 y X) (fit_forecaster c ob2 y X).
Proof.
  intros H. unfold Forecaster.fit_forecaster. pose proof (same_objects_refl _ _ _ H) as HR.
  destruct (s <- _ ;; _) as [[s ys]|e]; [|now apply alike_err].
  assert (HD : alike c ob1 (fit_data ns_of order keep tr_fit_transform c ob1 s ys X) (fit_data ns_of order keep tr_fit_transform c ob2 s ys X)).
  { unfold fit_data. destruct (c_hier c); [now apply hierarchical_same|now apply univariate_same]. }
  destruct (fit_data _ _ _ _ c ob1 s ys X) as [ob1' d1], (fit_data _ _ _ _ c ob2 s ys X) as [ob2' d2].
  destruct HD as (A & B & D). cbn [fst snd] in *. subst d2. split; [reflexivity|]. split; [exact B|]. cbn [fst snd].
  intros E. apply D. destruct d1; [reflexivity|discriminate].
Qed.

Lemma same_trans c a b d : same_objects c a b -> same_objects c b d -> same_objects c a d.
Proof.
  intros (A1 & A2) (B1 & B2). split.
  - intros E. destruct (A1 E), (B1 E). split; congruence.
  - destruct (o_transformer a), (o_transformer b), (o_transformer d); simpl in *; try contradiction; auto. intros X. now rewrite A2.
Qed.

Lemma step_objects c s cl ob : same_objects c (st_objects s) ob -> same_objects c (st_objects (fst (step c s cl))) ob.
Proof.
  intros H. assert (F : forall y X, same_objects c (st_objects (fst (do_fit ns_of order keep tr_fit_transform svi_run nuts_run latent_sites c s y X))) ob).
  { intros y X. unfold do_fit. destruct (fit_same c (st_objects s) (st_objects s) y X (same_objects_refl _ _ _ H)) as (_ & B & _).
    destruct (fit_forecaster c (st_objects s) y X) as [ob' [f|e]]; cbn in *; eapply same_trans; eassumption. }
  unfold step, History.step. destruct cl as [y X|y X up|m X fh]; [apply F| |].
  - destruct (st_fitted s); [|exact H]. destruct (combine_first y _); [|exact H].
    destruct (match X with None => _ | Some _ => _ end); [|exact H]. destruct up; [apply F|exact H].
  - destruct (st_fitted s); [|exact H]. destruct (History.call_method _ _ _ _ _ _ _ _ _ _ _ _). exact H.
Qed.
Lemma calls_objects c ob cs : forall s, same_objects c (st_objects s) ob -> same_objects c (st_objects (calls c s cs)) ob.
Proof.
  induction cs as [|cl cs IH]; intros s H; [exact H|]. apply (IH (fst (step c s cl))). now apply step_objects.
Qed.

(** C73 *)
Lemma c73 c ob cs y X : (c_trend c = TrendObject -> plain_trend (o_trend ob)) ->
  snd (step c (calls c (new_state ob) cs) (Fit y X)) = snd (step c (new_state ob) (Fit y X)) /\
  (snd (step c (new_state ob) (Fit y X)) = Ok ODone -> fst (step c (calls c (new_state ob) cs) (Fit y X)) = fst (step c (new_state ob) (Fit y X))).
Proof.
  intros HP. assert (H : same_objects c (st_objects (calls c (new_state ob) cs)) ob).
  { apply calls_objects. split; [|apply same_tr_refl]. auto. }
  destruct (fit_same _ _ _ y X H) as (A & _ & D). cbn [step History.step]. unfold do_fit. cbn [st_objects new_state].
  destruct (fit_forecaster c (st_objects (calls c (new_state ob) cs)) y X) as [ob1 r1]. destruct (fit_forecaster c ob y X) as [ob2 r2].
  cbn [fst snd] in *. subst r2. destruct r1 as [f|e]; cbn; [|split; [reflexivity|discriminate]]. split; [reflexivity|]. intros _. now rewrite D.
Qed.

(** updating with [update_params] is fitting a new forecaster on all data *)
Lemma c73_update c ob cs y X y' X' : (c_trend c = TrendObject -> plain_trend (o_trend ob)) ->
  let s := calls c (new_state ob) cs in st_fitted s <> None ->
  combine_first y (st_y s) = Ok y' ->
  match X, st_X s with None, old => Ok old | Some X, None => Ok (Some X) | Some X, Some old => X <- combine_first X old ;; Ok (Some X) end = Ok X' ->
  snd (step c s (Update y X true)) = snd (step c (new_state ob) (Fit y' X')) /\
  (snd (step c (new_state ob) (Fit y' X')) = Ok ODone -> fst (step c s (Update y X true)) = fst (step c (new_state ob) (Fit y' X'))).
Proof.
  intros HP s HF HY HX. destruct (c73 c ob cs y' X' HP) as (A & B). fold s in A, B.
  assert (E : step c s (Update y X true) = step c s (Fit y' X')).
  { unfold step, History.step. destruct (st_fitted s); [|congruence]. rewrite HY, HX. reflexivity. }
  rewrite E. auto.
Qed.
End History.
