(** The same dates in two horizons: programs. *)
From Coq Require Import Reals Lra ZArith String Ascii Bool List Lia Sorted.
From Verif.Model Require Import Base Num Frame Arr Prog Likelihood Effect Trend TrendProg Scale Expand Forecaster.
From Verif.Spec Require Import FrameSpec ProgSpec EffectSpec ForecasterSpec OverlapSpec.
From Verif.Facts Require Import BaseFacts FrameFacts NumFacts ArrFacts TrendFacts ProgFacts MeanFacts PosteriorFacts LikelihoodFacts ModelProps ForecasterFacts ForecasterInv DensityFacts RescalePredict.
Import ListNotations.
Local Open Scope string_scope.

(** * Lists *)
Lemma nth_error_concat {A} k (rows : list (list A)) p : Forall (fun r => List.length r = k) rows -> forall i j, j < k -> p = i * k + j ->
  nth_error (concat rows) p = match nth_error rows i with Some r => nth_error r j | None => None end.
Proof.
  intros F i j L ->. revert i. induction F as [|r rows E F IH]; intros i; [cbn [concat]; destruct i; destruct (_ * k + j); reflexivity|].
  cbn [concat]. destruct i as [|i]; cbn [nth_error Nat.mul].
  - rewrite nth_error_app1 by lia. reflexivity.
  - rewrite nth_error_app2 by lia. replace (k + i * k + j - List.length r) with (i * k + j) by lia. apply IH.
Qed.
Lemma nth_error_map_some {A B} (f : A -> B) l p x : nth_error l p = Some x -> nth_error (map f l) p = Some (f x).
Proof. intros H. now apply map_nth_error. Qed.
Lemma nth_error_mapM {A B} (f : A -> res B) l l' p x : mapM f l = Ok l' -> nth_error l p = Some x -> exists y, f x = Ok y /\ nth_error l' p = Some y.
Proof.
  revert l' p. induction l as [|a l IH]; intros l' p H N; [destruct p; discriminate|]. cbn [mapM] in H. destruct (f a) as [b|] eqn:Fa; [|discriminate]. cbn [bind] in H. destruct (mapM f l) as [bs|] eqn:Fl; [|discriminate]. injection H as <-.
  destruct p as [|p]; cbn [nth_error] in *; [injection N as <-; eauto|]. eauto.
Qed.
Lemma nth_error_repeat {A} (a : A) m p : p < m -> nth_error (repeat a m) p = Some a.
Proof. revert p. induction m as [|m IH]; intros p L; [lia|]. destruct p; [reflexivity|]. cbn [repeat nth_error]. apply IH. lia. Qed.
Lemma nth_error_combine {A B} (l : list A) (l' : list B) p x y : nth_error l p = Some x -> nth_error l' p = Some y -> nth_error (combine l l') p = Some (x, y).
Proof. revert l' p. induction l as [|a l IH]; intros [|b l'] [|p] H H'; try discriminate; cbn in *; [congruence|eauto]. Qed.
Lemma concat_singles {A} (rows : list (list A)) : Forall (fun r => List.length r = 1) rows -> forall p, nth_error (concat rows) p = match nth_error rows p with Some r => hd_error r | None => None end.
Proof.
  intros F p. rewrite (nth_error_concat 1 rows p F p 0); [|lia|lia]. destruct (nth_error rows p) as [r|]; [|reflexivity]. now destruct r.
Qed.
Lemma concat_length {A} k (rows : list (list A)) : Forall (fun r => List.length r = k) rows -> List.length (concat rows) = List.length rows * k.
Proof. induction 1 as [|r rows E F IH]; [reflexivity|]. cbn [concat List.length Nat.mul]. rewrite app_length. lia. Qed.

Section Programs.
Variables (e : env) (n : nat) (ts1 ts2 : list Z).
Notation T1 := (List.length ts1).
Notation T2 := (List.length ts2).
Notation place := (same_place n ts1 ts2).
Notation there := (same_there n ts1 ts2).

Lemma place_bounds p q : place p q -> p < n * T1 /\ q < n * T2.
Proof.
  intros (i & j1 & j2 & t & I & E1 & E2 & -> & ->). assert (j1 < T1) by (apply nth_error_Some; congruence). assert (j2 < T2) by (apply nth_error_Some; congruence). nia.
Qed.
Lemma there_map {A B} (f : A -> B) l l' : there l l' -> there (map f l) (map f l').
Proof. intros H p q J. destruct (H _ _ J) as (x & E & E'). exists (f x). split; now apply nth_error_map_some. Qed.
Lemma there_repeat {A} (a : A) : there (repeat a (n * T1)) (repeat a (n * T2)).
Proof. intros p q J. apply place_bounds in J as [B1 B2]. exists a. split; now apply nth_error_repeat. Qed.
Lemma there_zip {A B} (f : A * B -> R) l l' r r' : there l l' -> there r r' -> there (map f (combine l r)) (map f (combine l' r')).
Proof.
  intros H H' p q J. destruct (H _ _ J) as (x & E1 & E2). destruct (H' _ _ J) as (y & F1 & F2).
  exists (f (x, y)). split; apply nth_error_map_some; now apply nth_error_combine.
Qed.

(** * Programs that record the same parameters *)
Definition same_in (s1 s2 : string * site) : Prop := fst s1 = fst s2 /\
  match snd s1, snd s2 with
  | SDet a, SDet a' => there (a_flat a) (a_flat a')
  | SSample d v o, SSample d' v' o' => o = o' /\ if (o : bool) then same_distr n ts1 ts2 d d' /\ there (a_flat v) (a_flat v') else d = d' /\ v = v'
  | SPlate k, SPlate k' => k = k'
  | _, _ => False
  end.
Definition related {A} (E : env) (S : string * site -> string * site -> Prop) (RA : A -> A -> Prop) (p1 p2 : prog A) : Prop :=
  forall a1 l1 a2 l2, eval E p1 = Ok (a1, l1) -> eval E p2 = Ok (a2, l2) -> RA a1 a2 /\ Forall2 S l1 l2.

Lemma related_bind {A B} E S (RA : A -> A -> Prop) (RB : B -> B -> Prop) p1 p2 f1 f2 : related E S RA p1 p2 ->
  (forall a1 a2, RA a1 a2 -> related E S RB (f1 a1) (f2 a2)) -> related E S RB (pbind p1 f1) (pbind p2 f2).
Proof.
  intros P F b1 l1 b2 l2 H1 H2. apply eval_split in H1 as (a1 & u1 & v1 & E1 & G1 & ->). apply eval_split in H2 as (a2 & u2 & v2 & E2 & G2 & ->).
  destruct (P _ _ _ _ E1 E2) as [Ra Sa]. destruct (F _ _ Ra _ _ _ _ G1 G2) as [Rb Sb]. split; [exact Rb|]. now apply Forall2_app.
Qed.
Lemma related_ret {A} E S (RA : A -> A -> Prop) a1 a2 : RA a1 a2 -> related E S RA (Ret a1) (Ret a2).
Proof. intros H b1 l1 b2 l2 [= <- <-] [= <- <-]. split; [exact H|constructor]. Qed.
Lemma related_lift {A} E S (RA : A -> A -> Prop) m1 m2 : (forall a1 a2, m1 = Ok a1 -> m2 = Ok a2 -> RA a1 a2) -> related E S RA (lift_res m1) (lift_res m2).
Proof. intros H b1 l1 b2 l2 H1 H2. destruct m1, m2; try discriminate. injection H1 as <- <-. injection H2 as <- <-. split; [now apply H|constructor]. Qed.
Lemma related_sample E (S : string * site -> string * site -> Prop) name d sh : S (name, SSample d (site_value E name sh None) false) (name, SSample d (site_value E name sh None) false) -> related E S eq (sample name d sh) (sample name d sh).
Proof. intros H b1 l1 b2 l2 H1 H2. cbn [sample eval bind] in *. injection H1 as <- <-. injection H2 as <- <-. split; [reflexivity|]. constructor; [exact H|constructor]. Qed.
Lemma related_plate E (S : string * site -> string * site -> Prop) name k1 k2 : S (name, SPlate k1) (name, SPlate k2) -> related E S eq (plate name k1) (plate name k2).
Proof. intros H b1 l1 b2 l2 H1 H2. cbn [plate eval bind] in *. injection H1 as <- <-. injection H2 as <- <-. split; [reflexivity|]. constructor; [exact H|constructor]. Qed.
Lemma related_raise {A} E S (RA : A -> A -> Prop) x p : related E S RA (Raise x) p.
Proof. intros b1 l1 b2 l2 H1. discriminate. Qed.
Lemma related_raise_r {A} E S (RA : A -> A -> Prop) x p : related E S RA p (Raise x).
Proof. intros b1 l1 b2 l2 _ H2. discriminate. Qed.
Lemma related_weaken {A} E S (RA RA' : A -> A -> Prop) p1 p2 : (forall a b, RA a b -> RA' a b) -> related E S RA p1 p2 -> related E S RA' p1 p2.
Proof. intros W H b1 l1 b2 l2 H1 H2. destruct (H _ _ _ _ H1 H2). auto. Qed.

Lemma in_sample name d v : same_in (name, SSample d v false) (name, SSample d v false).
Proof. repeat split. Qed.
Lemma in_plate name k : same_in (name, SPlate k) (name, SPlate k).
Proof. repeat split. Qed.

(** * Arrays *)
Variables sh1 sh2 : list nat.
Hypothesis P1 : prod_shape sh1 = n * T1.
Hypothesis P2 : prod_shape sh2 = n * T2.
Hypothesis D1 : List.length sh1 <> 1.
Hypothesis D2 : List.length sh2 <> 1.
Definition same_arr (a1 a2 : arr) : Prop := a_shape a1 = sh1 /\ a_shape a2 = sh2 /\ List.length (a_flat a1) = n * T1 /\ List.length (a_flat a2) = n * T2 /\ there (a_flat a1) (a_flat a2).

Lemma zip_same f a1 a2 b1 b2 c1 c2 : same_arr a1 a2 -> same_arr b1 b2 -> arr_zip f a1 b1 = Ok c1 -> arr_zip f a2 b2 = Ok c2 -> same_arr c1 c2.
Proof.
  intros (A1 & A2 & A3 & A4 & A5) (B1 & B2 & B3 & B4 & B5) H1 H2. unfold arr_zip in *. destruct (list_eq_dec _ _ _); [|discriminate]. destruct (list_eq_dec _ _ _); [|discriminate].
  injection H1 as <-. injection H2 as <-. unfold same_arr. cbn [a_shape a_flat]. rewrite !map_length, !combine_length. repeat (split; [lia || assumption|]). now apply there_zip.
Qed.
Lemma map_same f a1 a2 : same_arr a1 a2 -> same_arr (arr_map f a1) (arr_map f a2).
Proof. intros (A1 & A2 & A3 & A4 & A5). unfold same_arr, arr_map. cbn [a_shape a_flat]. rewrite !map_length. repeat (split; [assumption|]). now apply there_map. Qed.

(** prepared data: [m] series, [k] columns *)
Definition same_rows (m : nat) (a1 a2 : arr) : Prop := exists k s1 s2 rows1 rows2, a_shape a1 = (s1 ++ [k])%list /\ a_shape a2 = (s2 ++ [k])%list /\
  prod_shape s1 = List.length rows1 /\ prod_shape s2 = List.length rows2 /\ Forall (fun r => List.length r = k) rows1 /\ Forall (fun r => List.length r = k) rows2 /\
  List.length rows1 = m * T1 /\ List.length rows2 = m * T2 /\ a_flat a1 = concat rows1 /\ a_flat a2 = concat rows2 /\ same_there m ts1 ts2 rows1 rows2.

(** [x] of length [m T1], reshaped *)
Definition same_flat (x1 x2 : arr) : Prop := List.length (a_flat x1) = n * T1 -> List.length (a_flat x2) = n * T2 -> there (a_flat x1) (a_flat x2).

Lemma mode_same m raw1 raw2 pd1 pd2 : (forall v1 v2, dict_get pd1 "trend" = Some v1 -> dict_get pd2 "trend" = Some v2 -> same_arr v1 v2) ->
  related e same_in same_flat raw1 raw2 -> related e same_in same_arr (predict_mode m raw1 pd1) (predict_mode m raw2 pd2).
Proof.
  intros HT HR. unfold predict_mode. apply (related_bind _ _ same_arr).
  { apply related_lift. intros a1 a2 H1 H2. unfold dict_item in *. destruct (dict_get pd1 "trend") eqn:E1; [|discriminate]. destruct (dict_get pd2 "trend") eqn:E2; [|discriminate]. injection H1 as <-. injection H2 as <-. eauto. }
  intros t1 t2 (A1 & A2 & A3 & A4 & A5). cbn beta zeta. unfold ndim. rewrite A1, A2.
  replace (Nat.eqb (List.length sh1) 1) with false by (symmetry; now apply Nat.eqb_neq). replace (Nat.eqb (List.length sh2) 1) with false by (symmetry; now apply Nat.eqb_neq).
  apply (related_bind _ _ same_flat); [exact HR|]. intros x1 x2 F. apply (related_bind _ _ same_arr).
  { apply related_lift. intros z1 z2 H1 H2. unfold reshape in *. rewrite A1 in H1. rewrite A2 in H2. destruct (Nat.eqb_spec (List.length (a_flat x1)) (prod_shape sh1)); [|discriminate].
    destruct (Nat.eqb_spec (List.length (a_flat x2)) (prod_shape sh2)); [|discriminate]. injection H1 as <-. injection H2 as <-. unfold same_arr. cbn [a_shape a_flat].
    assert (L1 : List.length (a_flat x1) = n * T1) by congruence. assert (L2 : List.length (a_flat x2) = n * T2) by congruence. specialize (F L1 L2). auto. }
  intros z1 z2 Z. destruct m; [now apply related_ret|]. apply related_lift. intros c1 c2. apply zip_same; [|exact Z]. repeat split; auto.
Qed.

(** a successful reshape tells the number of series *)
Lemma place_other m p q : place p q -> m * T1 = n * T1 -> same_place m ts1 ts2 p q.
Proof.
  intros (i & j1 & j2 & t & I & E1 & E2 & -> & ->) H. assert (j1 < T1) by (apply nth_error_Some; congruence). assert (m = n) by nia. subst m. now exists i, j1, j2, t.
Qed.

Lemma single_rows m k (rows1 : list (list R)) : List.length rows1 = m * T1 -> Forall (fun r => List.length r = k) rows1 -> List.length (concat rows1) = n * T1 -> m * T1 * k = n * T1.
Proof. intros L F H. rewrite (concat_length k) in H by exact F. now rewrite <- L. Qed.

Fixpoint same_data (ef : effect) (x1 x2 : edata) : Prop :=
  match ef with
  | Lift inner _ _ _ _ => n = 1 /\ exists d1 d2 l1 l2, x1 = ELift d1 l1 /\ x2 = ELift d2 l2 /\ same_data inner d1 d2 /\ there l1 l2
  | Linear _ _ _ | Fourier _ _ _ _ _ _ _ _ => match x1, x2 with EArr a1, EArr a2 => exists m, same_rows m a1 a2 | _, _ => True end
  | Log _ _ _ _ | Hill _ _ _ _ _ => match x1, x2 with EArr a1, EArr a2 => exists m, same_rows m a1 a2 /\ m = n | _, _ => True end
  end.

Lemma linear_same prior x1 x2 : match x1, x2 with EArr a1, EArr a2 => exists m, same_rows m a1 a2 | _, _ => True end ->
  related e same_in same_flat (linear_raw prior x1) (linear_raw prior x2).
Proof.
  intros H. unfold linear_raw. destruct x1 as [|a1|d1 l1]; [apply related_raise| |apply related_raise]. destruct x2 as [|a2|d2 l2]; [apply related_raise_r| |apply related_raise_r].
  destruct H as (m & k & s1 & s2 & rows1 & rows2 & S1 & S2 & R1 & R2 & W1 & W2 & L1 & L2 & E1 & E2 & RR). rewrite S1, S2, !rev_app_distr. cbn [rev app].
  destruct k as [|k]; [apply related_raise|]. apply (related_bind _ _ eq); [apply related_plate, in_plate|]. intros [] [] _. apply (related_bind _ _ eq); [apply related_sample, in_sample|].
  intros c ? <-. apply related_lift. intros z1 z2. unfold matrix_multiplication. rewrite S1, S2, !rev_app_distr. cbn [rev app]. destruct (Nat.eqb_spec (S k) (List.length (a_flat c))) as [Q|]; [|discriminate].
  intros [= <-] [= <-]. unfold same_flat. cbn [a_flat]. rewrite !rev_involutive. unfold chunks. rewrite !map_length, !seq_length, R1, R2, L1, L2. intros B1 B2 p q J.
  pose proof (place_bounds _ _ J) as [Bp Bq]. destruct (RR p q) as (r & G1 & G2); [now apply (place_other m)|]. exists (dot r (a_flat c)). rewrite !map_map. rewrite E1, E2.
  assert (K : forall rows i r0, Forall (fun r => List.length r = S k) rows -> nth_error rows i = Some r0 -> forall N, i < N -> nth_error (map (fun x => dot (firstn (S k) (skipn (x * S k) (concat rows))) (a_flat c)) (seq 0 N)) i = Some (dot r0 (a_flat c))).
  { intros rows i r0 W G N LN. rewrite (nth_error_map_some _ _ _ i); [|rewrite (nth_error_nth' _ 0) by (now rewrite seq_length); now rewrite seq_nth]. rewrite chunk_rows by exact W. now rewrite (nth_error_nth _ _ _ G). }
  split; apply K; auto; lia.
Qed.

Lemma pointwise_same m (f : R -> res R) a1 a2 v1 v2 : same_rows m a1 a2 -> m = n -> mapM f (a_flat a1) = Ok v1 -> mapM f (a_flat a2) = Ok v2 -> same_flat (mkArr (a_shape a1) v1) (mkArr (a_shape a2) v2).
Proof.
  intros (k & s1 & s2 & rows1 & rows2 & S1 & S2 & R1 & R2 & W1 & W2 & L1 & L2 & E1 & E2 & RR) -> H1 H2. unfold same_flat. cbn [a_flat]. rewrite (mapM_length _ _ _ H1), (mapM_length _ _ _ H2), E1, E2. rewrite E1 in H1. rewrite E2 in H2.
  intros B1 B2 p q J. pose proof (place_bounds _ _ J) as [Bp Bq]. pose proof (single_rows n k _ L1 W1 B1) as K. assert (K1 : k = 1) by nia. subst k.
  destruct (RR _ _ J) as (r & G1 & G2). destruct r as [|x [|]]; [exfalso..| |exfalso].
  - rewrite Forall_forall in W1. apply nth_error_In, W1 in G1. discriminate.
  - pose proof (concat_singles _ W1 p) as C1. rewrite G1 in C1. pose proof (concat_singles _ W2 q) as C2. rewrite G2 in C2. cbn [hd_error] in *.
    destruct (nth_error_mapM _ _ _ _ _ H1 C1) as (y1 & Y1 & Z1). destruct (nth_error_mapM _ _ _ _ _ H2 C2) as (y2 & Y2 & Z2). exists y1. split; [exact Z1|]. congruence.
  - rewrite Forall_forall in W1. apply nth_error_In, W1 in G1. discriminate.
Qed.
Lemma mapM_total {A B} (f : A -> B) l : mapM (fun x => Ok (f x)) l = Ok (map f l).
Proof. induction l as [|a l IH]; [reflexivity|]. cbn [mapM map]. now rewrite IH. Qed.

Lemma predict_same ef : forall x1 x2 pd1 pd2, same_data ef x1 x2 ->
  (forall v1 v2, dict_get pd1 "trend" = Some v1 -> dict_get pd2 "trend" = Some v2 -> same_arr v1 v2) ->
  related e same_in same_arr (predict ef x1 pd1) (predict ef x2 pd2).
Proof.
  induction ef as [m d b|m d q b|m d q r b|inner IH t ps b s|sp tl ps m b ff xp l]; intros x1 x2 pd1 pd2 H HT; cbn [predict].
  - apply mode_same; [exact HT|]. now apply linear_same.
  - apply mode_same; [exact HT|]. unfold log_raw. cbn [same_data] in H. destruct x1 as [|a1|d1 l1]; [apply related_raise| |apply related_raise]. destruct x2 as [|a2|d2 l2]; [apply related_raise_r| |apply related_raise_r].
    destruct H as (k & H & K). do 2 (apply (related_bind _ _ eq); [apply related_sample, in_sample|]; intros ? ? <-). apply related_ret. unfold arr_map. eapply pointwise_same; [exact H|exact K|apply (mapM_total (log1 _ _))..].
  - apply mode_same; [exact HT|]. unfold hill_raw. cbn [same_data] in H. destruct x1 as [|a1|d1 l1]; [apply related_raise| |apply related_raise]. destruct x2 as [|a2|d2 l2]; [apply related_raise_r| |apply related_raise_r].
    destruct H as (k & H & K). do 3 (apply (related_bind _ _ eq); [apply related_sample, in_sample|]; intros ? ? <-).
    apply (related_bind _ _ (fun v1 v2 => same_flat (mkArr (a_shape a1) v1) (mkArr (a_shape a2) v2))); [|intros; now apply related_ret]. apply related_lift. intros v1 v2 H1 H2. eapply pointwise_same; eassumption.
  - destruct H as (N1 & d1 & d2 & l1 & l2 & -> & -> & H & TL). apply (related_bind _ _ same_arr); [now apply IH|]. intros v1 v2 (A1 & A2 & A3 & A4 & A5).
    apply (related_bind _ _ (fun _ _ => True)).
    + intros z1 u1 z2 u2 H1 H2. unfold observe in *. cbn [eval bind] in *. injection H1 as <- <-. injection H2 as <- <-. split; [exact I|]. constructor; [|constructor]. split; [reflexivity|].
      cbn [snd]. split; [reflexivity|]. cbn [site_value a_flat same_distr]. split; [split; [now apply there_map|]; split; [exact A5|]|now apply there_map].
      unfold const_arr. cbn [a_flat]. rewrite A1, A2, P1, P2. apply there_repeat.
    + intros _ _ _. apply related_ret. repeat split; auto.
  - destruct l as [[mm bb]|]; [|apply related_raise]. apply mode_same; [exact HT|]. now apply linear_same.
Qed.
End Programs.
