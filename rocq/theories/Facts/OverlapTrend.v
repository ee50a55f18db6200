(** The same dates in two horizons: trends. *)
From Coq Require Import Reals Lra ZArith String Ascii Bool List Lia Sorted.
From Verif.Model Require Import Base Num Frame Arr Prog Likelihood Effect Trend TrendProg Scale Expand Forecaster.
From Verif.Spec Require Import FrameSpec ProgSpec EffectSpec AlignSpec ShapeSpec ForecasterSpec OverlapSpec.
From Verif.Facts Require Import BaseFacts FrameFacts NumFacts ArrFacts TrendFacts ProgFacts PosteriorFacts ForecasterFacts ForecasterInv CompleteFacts ShapeFacts RescalePredict OverlapFacts OverlapFrames.
Import ListNotations.
Local Open Scope string_scope.

Definition grid {A B} (n : nat) (g : nat -> A -> B) (ts : list A) : list B := concat (map (fun i => map (g i) ts) (seq 0 n)).
Lemma grid_rows {A B} n (g : nat -> A -> B) ts : Forall (fun r => List.length r = List.length ts) (map (fun i => map (g i) ts) (seq 0 n)).
Proof. apply Forall_forall. intros r Hr. apply in_map_iff in Hr as (i & <- & _). apply map_length. Qed.
Lemma nth_seq n i : i < n -> nth_error (seq 0 n) i = Some i.
Proof. intros L. rewrite (nth_error_nth' _ 0) by now rewrite seq_length. now rewrite seq_nth. Qed.
Lemma grid_nth {A B} n (g : nat -> A -> B) ts i j t : i < n -> nth_error ts j = Some t -> nth_error (grid n g ts) (i * List.length ts + j) = Some (g i t).
Proof.
  intros I J. unfold grid. rewrite (nth_error_concat _ _ _ (grid_rows n g ts) i j); [|apply nth_error_Some; congruence|reflexivity].
  rewrite (nth_error_map_some _ _ _ i) by now apply nth_seq. now apply nth_error_map_some.
Qed.
Lemma grid_same {A} n (g : nat -> Z -> A) ts1 ts2 : same_there n ts1 ts2 (grid n g ts1) (grid n g ts2).
Proof. intros p q (i & j1 & j2 & t & I & J1 & J2 & -> & ->). exists (g i t). split; now apply grid_nth. Qed.
Lemma grid_map {A A' B} n (g : nat -> A -> B) (h : A' -> A) ts : grid n g (map h ts) = grid n (fun i t => g i (h t)) ts.
Proof. unfold grid. f_equal. apply map_ext. intros i. apply map_map. Qed.

Local Open Scope R_scope.
Lemma piecewise_flat sq n cps offs coefs (ts : list R) a : List.length cps = n -> List.length offs = n -> n <> 0%nat ->
  piecewise_predict sq n (get_changepoint_matrix sq cps ts) offs coefs = Ok a ->
  a_flat a = grid n (fun i t => dot (masked_row cps i t) coefs + nth i offs 0) ts.
Proof.
  intros Lc Lo Hn H. unfold get_changepoint_matrix in H. rewrite multi_matrix_rows, Lc in H. unfold piecewise_predict, grid in *. destruct n as [|[|n]]; [congruence| |].
  - cbn [seq map] in *. destruct offs as [|o [|]]; try discriminate. cbn [nth concat]. rewrite app_nil_r. destruct sq.
    + destruct (forallb _ _); [|discriminate]. unfold broadcast2 in H. rewrite !map_length in H. cbn [List.length] in H.
      destruct (Nat.eqb_spec (List.length ts) 1) as [E|E].
      * destruct ts as [|t [|]]; try discriminate. cbn in H. injection H as <-. reflexivity.
      * destruct ts as [|t [|t' ts]]; [cbn in H; injection H as <-; reflexivity|cbn in E; lia|]. cbn [map bind] in H. injection H as <-. cbn [a_flat map fst snd]. do 2 f_equal. rewrite !map_map. reflexivity.
    + destruct (forallb _ _); [|discriminate]. cbn in H. injection H as <-. cbn [a_flat]. rewrite app_nil_r, map_map. reflexivity.
  - assert (M : match map (fun i => map (masked_row cps i) ts) (seq 0 (S (S n))) with [m] => if sq then D2 m else D3 [m] | ms => D3 ms end = D3 (map (fun i => map (masked_row cps i) ts) (seq 0 (S (S n))))) by reflexivity.
    rewrite M in H. destruct (forallb _ _); [|discriminate]. rewrite broadcast2_same in H by now rewrite map_length, seq_length. cbn [bind Nat.eqb andb] in H. remember (combine _ offs) as l eqn:El. injection H as <-. cbn [a_flat].
    rewrite El, <- Lo. rewrite (combine_map_seq _ offs 0), map_map. cbn [fst snd]. f_equal. apply map_ext. intros i. rewrite map_map. reflexivity.
Qed.
Lemma logistic_flat sq n cps caps offs coefs (ts : list R) a : List.length cps = n -> List.length offs = n -> List.length caps = n -> n <> 0%nat ->
  logistic_predict sq n (get_changepoint_matrix sq cps ts) caps offs coefs = Ok a ->
  a_flat a = grid n (fun i t => logistic (nth i caps 0) (dot (masked_row cps i t) coefs + nth i offs 0)) ts.
Proof.
  intros Lc Lo La Hn H. unfold logistic_predict in H. destruct (piecewise_predict _ _ _ _ _) as [v|] eqn:E; [|discriminate]. cbn [bind] in H.
  pose proof (piecewise_flat _ _ _ _ _ _ _ Lc Lo Hn E) as F. destruct (piecewise_shape _ _ _ _ _ _ _ Lc Lo Hn E) as [Sh _]. destruct n as [|[|n]]; [congruence| |].
  - destruct caps as [|c [|]]; try discriminate. injection H as <-. cbn [arr_map a_flat]. rewrite F. unfold grid. cbn [seq map concat nth]. rewrite !app_nil_r, map_map. reflexivity.
  - rewrite Sh in H. unfold trend_shape in H. cbn [Nat.eqb andb] in H. unfold chunks in H. rewrite broadcast2_same in H by now rewrite map_length, seq_length. cbn [bind] in H. remember (combine _ caps) as l eqn:El. injection H as <-. cbn [a_flat]. rewrite El.
    replace (seq 0 (S (S n))) with (seq 0 (List.length caps)) by now rewrite La. rewrite (combine_map_seq _ caps 0), map_map. cbn [fst snd]. rewrite La. unfold grid. f_equal. apply map_ext_in. intros i Hi. apply in_seq in Hi. rewrite F. unfold grid at 1. rewrite chunk_rows by apply grid_rows.
    rewrite (nth_error_nth _ i [] (x := map (fun t => dot (masked_row cps i t) coefs + nth i offs 0) ts)).
    + now rewrite map_map.
    + rewrite (nth_error_map_some _ _ _ i); [reflexivity|]. apply nth_seq. lia.
Qed.

Section Trend.
Variable ns_of : Z -> Z.
Variable order : list string -> list string.
Variable e : env.
Variables (ts1 ts2 : list Z).
Hypothesis O1 : in_order ts1.
Hypothesis O2 : in_order ts2.

Lemma piecewise_same n cap f : List.length (pf_cps f) = n -> List.length (pf_offset_loc f) = n -> pf_n_series f = n -> n <> 0%nat ->
  related e (same_in n ts1 ts2) (fun a1 a2 => same_there n ts1 ts2 (a_flat a1) (a_flat a2)) (piecewise_prog cap f (piecewise_transform ns_of f ts1)) (piecewise_prog cap f (piecewise_transform ns_of f ts2)).
Proof.
  intros Lc Lo Ln Hn. assert (TT : forall ts, in_order ts -> piecewise_transform ns_of f ts = get_changepoint_matrix (pw_squeeze (pf_params f)) (pf_cps f) (map (fun t => scale_time (pf_t_scale f) (pf_t_start f) (days_since_epoch (ns_of t))) ts)).
  { intros ts O. unfold piecewise_transform. destruct (pf_series f); [|reflexivity]. rewrite times_unique_id; [reflexivity|]. now apply in_order_nodup. }
  rewrite !TT by assumption. clear TT. unfold piecewise_prog. rewrite Ln.
  assert (LV : forall (k1 k2 : list R -> list R -> prog arr), (forall o c, List.length o = n -> related e (same_in n ts1 ts2) (fun a1 a2 => same_there n ts1 ts2 (a_flat a1) (a_flat a2)) (k1 o c) (k2 o c)) ->
    related e (same_in n ts1 ts2) (fun a1 a2 => same_there n ts1 ts2 (a_flat a1) (a_flat a2))
     (locs <~ lift_res (mapM finite (pf_offset_loc f)) ;;
      o <~ sample "offset" (DNormal (vector locs) (const_arr [List.length locs] (pw_offset_scale (pf_params f)))) [List.length locs] ;;
      _ <~ (if Nat.eqb (List.length (pf_cp_loc f)) (List.length (pf_cp_scale f)) then Ret tt else Raise ValueError) ;;
      c <~ sample "changepoint_coefficients" (DLaplace (vector (pf_cp_loc f)) (vector (pf_cp_scale f))) [List.length (pf_cp_loc f)] ;;
      k1 (a_flat o) (a_flat c))
     (locs <~ lift_res (mapM finite (pf_offset_loc f)) ;;
      o <~ sample "offset" (DNormal (vector locs) (const_arr [List.length locs] (pw_offset_scale (pf_params f)))) [List.length locs] ;;
      _ <~ (if Nat.eqb (List.length (pf_cp_loc f)) (List.length (pf_cp_scale f)) then Ret tt else Raise ValueError) ;;
      c <~ sample "changepoint_coefficients" (DLaplace (vector (pf_cp_loc f)) (vector (pf_cp_scale f))) [List.length (pf_cp_loc f)] ;;
      k2 (a_flat o) (a_flat c))).
  { intros k1 k2 K. apply (related_bind _ _ (fun l1 l2 => l1 = l2 /\ List.length l1 = n)).
    { apply related_lift. intros l1 l2 H1 H2. split; [congruence|]. apply mapM_length in H1. congruence. }
    intros locs ? [<- LL]. apply (related_bind _ _ (fun a1 a2 => a1 = a2 /\ List.length (a_flat a1) = n)).
    { intros b1 l1 b2 l2 H1 H2. cbn [sample eval bind] in *. injection H1 as <- <-. injection H2 as <- <-. split; [split; [reflexivity|]|constructor; [apply in_sample|constructor]].
      cbn [site_value a_flat]. rewrite map_length, seq_length. unfold prod_shape. cbn [fold_right]. lia. }
    intros o ? [<- Lo']. apply (related_bind _ _ eq); [destruct (Nat.eqb _ _); [now apply related_ret|apply related_raise]|]. intros [] [] _.
    apply (related_bind _ _ eq); [apply related_sample, in_sample|]. intros c ? <-. now apply K. }
  destruct (pw_logistic (pf_params f)) as [lg|].
  - apply (related_bind _ _ eq); [apply related_plate, in_plate|]. intros [] [] _.
    apply (related_bind _ _ (fun a1 a2 => a1 = a2 /\ List.length (a_flat a1) = n)).
    { intros b1 l1 b2 l2 H1 H2. cbn [sample eval bind] in *. injection H1 as <- <-. injection H2 as <- <-. split; [split; [reflexivity|]|constructor; [apply in_sample|constructor]].
      cbn [site_value a_flat]. rewrite map_length, seq_length. unfold prod_shape. cbn [fold_right]. lia. }
    intros capv ? [<- LCap]. apply (LV (fun o c => lift_res (logistic_predict (pw_squeeze (pf_params f)) n (get_changepoint_matrix (pw_squeeze (pf_params f)) (pf_cps f) (map (fun t => scale_time (pf_t_scale f) (pf_t_start f) (days_since_epoch (ns_of t))) ts1)) (a_flat capv) o c)) (fun o c => lift_res (logistic_predict (pw_squeeze (pf_params f)) n (get_changepoint_matrix (pw_squeeze (pf_params f)) (pf_cps f) (map (fun t => scale_time (pf_t_scale f) (pf_t_start f) (days_since_epoch (ns_of t))) ts2)) (a_flat capv) o c))). intros o c LO. apply related_lift. intros a1 a2 H1 H2. apply logistic_flat in H1; auto. apply logistic_flat in H2; auto. rewrite H1, H2, !grid_map. apply grid_same.
  - apply (LV (fun o c => lift_res (piecewise_predict (pw_squeeze (pf_params f)) n (get_changepoint_matrix (pw_squeeze (pf_params f)) (pf_cps f) (map (fun t => scale_time (pf_t_scale f) (pf_t_start f) (days_since_epoch (ns_of t))) ts1)) o c)) (fun o c => lift_res (piecewise_predict (pw_squeeze (pf_params f)) n (get_changepoint_matrix (pw_squeeze (pf_params f)) (pf_cps f) (map (fun t => scale_time (pf_t_scale f) (pf_t_start f) (days_since_epoch (ns_of t))) ts2)) o c))). intros o c LO. apply related_lift. intros a1 a2 H1 H2. apply piecewise_flat in H1; auto. apply piecewise_flat in H2; auto. rewrite H1, H2, !grid_map. apply grid_same.
Qed.
End Trend.
