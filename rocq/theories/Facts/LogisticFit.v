(** Initial values of the fitted piecewise trends. *)
From Coq Require Import Reals ZArith Lra Lia List Bool.
From Verif.Model Require Import Base Num XFloat Arr Frame Trend.
From Verif.Spec Require Import FrameSpec TrendSpec LineSpec.
From Verif.Facts Require Import AlignFacts BaseFacts NumFacts FrameFacts TrendFacts TimeFacts EffectFourier LineFacts.
Import ListNotations.
Local Open Scope R_scope.

Definition flat_ok (y : frame R) : Prop := f_levels y = 0%nat -> forall r, In r (f_rows y) -> r_path r = [].
Lemma flat_paths (y : frame R) : frame_wf y -> flat_ok y.
Proof. intros W L r I. specialize (W r I) as [_ W]. rewrite L in W. destruct (r_path r); [reflexivity|discriminate]. Qed.

Lemma paths_unique_const l : (forall p : path, In p l -> p = []) -> l <> [] -> paths_unique l = [[]].
Proof.
  intros H N. pose proof (paths_unique_NoDup l) as ND. assert (A : forall p, In p (paths_unique l) -> p = []) by (intros p I; apply H; now apply paths_unique_In).
  assert (B : paths_unique l <> []). { destruct l as [|p l]; [congruence|]. intros E. assert (I : In p (paths_unique (p :: l))) by (apply paths_unique_In; now left). rewrite E in I. destruct I. }
  destruct (paths_unique l) as [|p [|q m]]; [congruence|f_equal; apply A; now left|].
  exfalso. inversion ND as [|? ? NI _]; subst. apply NI. rewrite (A p), (A q) by (simpl; auto). now left.
Qed.

Lemma matrix_points (y : frame R) m : flat_ok y -> f_rows y <> [] -> target_matrix y = Ok m ->
  m = map (fun q => map snd (series_points y q)) (series_ids y).
Proof.
  intros W N H. unfold target_matrix in H. destruct (series_to_tensor y) as [t|] eqn:E; [|discriminate]. cbn [bind] in H. injection H as <-.
  destruct (Nat.eq_dec (f_levels y) 0) as [L|L].
  - unfold series_to_tensor in E. rewrite L in E. injection E as <-. unfold series_ids.
    rewrite paths_unique_const; [|intros p I; apply in_map_iff in I as (r & <- & I); now apply W|destruct (f_rows y); [congruence|discriminate]].
    cbn [map]. f_equal. unfold series_points. rewrite FrameFacts.filter_all by (intros r I; now rewrite (W L r I)). now rewrite !map_map.
  - destruct (tensor_ok_iff y t L E) as (n & _ & ->). rewrite map_map. apply map_ext. intros q. unfold series_points, rows_of. now rewrite !map_map.
Qed.

Lemma detrend_levels y : f_levels (detrend_frame y) = f_levels y.
Proof. reflexivity. Qed.

Lemma endpoints_ok m es : endpoints m = Ok es -> es = map (fun s => (hd 0 s, last s 0)) m.
Proof.
  unfold endpoints. revert es. induction m as [|s m IH]; intros es H; cbn [mapM] in H; [injection H as <-; reflexivity|].
  destruct s as [|v s]; [discriminate|]. cbn [bind] in H. remember (last (v :: s) 0) as l eqn:El.
  destruct (mapM _ m) as [es'|]; [|discriminate]. cbn [bind] in H. injection H as <-. cbn [map hd]. rewrite <- El. f_equal. now apply IH.
Qed.


Lemma unique_groups (n : path -> nat) ids : NoDup ids -> paths_unique (flat_map (fun q => repeat q (S (n q))) ids) = ids.
Proof.
  induction 1 as [|q ids NI ND IH]; [reflexivity|]. cbn [flat_map repeat app]. unfold paths_unique. rewrite (AlignFacts.unique_cons path_eqb path_eqb_eq). f_equal.
  rewrite filter_app, filter_none, FrameFacts.filter_all; [exact IH| |].
  - intros x I. apply in_flat_map in I as (q' & I & R). apply (repeat_spec (S (n q'))) in R. subst x. apply negb_true_iff, not_true_iff_false. intros E. apply path_eqb_eq in E. congruence.
  - intros x I. apply repeat_spec in I. subst. now rewrite path_eqb_refl.
Qed.

Lemma detrend_ids y : series_ids (detrend_frame y) = series_ids y.
Proof.
  unfold series_ids at 1. unfold detrend_frame. cbn [f_rows]. rewrite <- (unique_groups (fun q => pred (length (rows_of y q))) (series_ids y)) by apply paths_unique_NoDup.
  f_equal. unfold iterate_all_series. rewrite flat_map_concat_map, concat_map, !map_map, flat_map_concat_map. f_equal. apply map_ext_in. intros q I. cbn [snd].
  apply series_ids_In in I as (r & Ir & Er). assert (L : length (rows_of y q) <> 0%nat).
  { intros E. apply length_zero_iff_nil in E. apply (filter_nil_none _ _ E) in Ir. rewrite Er, path_eqb_refl in Ir. discriminate. }
  replace (S (pred (length (rows_of y q)))) with (length (rows_of y q)) by lia. rewrite map_map. cbn [r_path].
  assert (P : forall r, In r (rows_of y q) -> r_path r = q) by (intros r' I'; apply filter_In in I' as [_ I']; now apply path_eqb_eq).
  assert (LO : length (ols_line (map (fun r => IZR (r_time r)) (rows_of y q)) (map val0 (rows_of y q))) = length (rows_of y q)) by (unfold ols_line; now rewrite !map_length).
  revert LO. generalize (ols_line (map (fun r => IZR (r_time r)) (rows_of y q)) (map val0 (rows_of y q))). clear L Ir Er r. revert P. generalize (rows_of y q).
  intros rows P. induction rows as [|r rows IH]; intros [|v l] H; try discriminate; [reflexivity|]. cbn. rewrite P by (cbn; auto). f_equal. apply IH; [intros; apply P; cbn; auto|]. now injection H.
Qed.

Lemma detrend_flat y : flat_ok y -> flat_ok (detrend_frame y).
Proof.
  intros W L r I. assert (H : has_series (detrend_frame y) (r_path r)) by (exists r; auto). apply (proj1 (c84_series y _)) in H as (r' & I' & <-). exact (W L r' I').
Qed.
Lemma detrend_nonempty y : f_rows y <> [] -> f_rows (detrend_frame y) <> [].
Proof. intros N E. destruct (f_rows y) as [|r l] eqn:Er; [congruence|]. assert (H : has_series y (r_path r)) by (exists r; rewrite Er; cbn; auto). apply (proj2 (c84_series y _)) in H as (r' & I & _). rewrite E in I. destruct I. Qed.

Lemma start_matrix p y m : flat_ok y -> f_rows y <> [] -> target_matrix (if pw_detrend p then detrend_frame y else y) = Ok m ->
  m = map (start_values p y) (series_ids y).
Proof.
  intros W N H. unfold start_values. destruct (pw_detrend p); [|now apply matrix_points].
  rewrite <- detrend_ids. apply matrix_points; [now apply detrend_flat|now apply detrend_nonempty|exact H].
Qed.
Lemma start_nonempty p y q : has_series y q -> start_values p y q <> [].
Proof.
  intros H E. unfold start_values in E. apply map_eq_nil in E. revert E. apply points_nonempty. destruct (pw_detrend p); [now apply c84_series|exact H].
Qed.
Lemma first_In p y q : has_series y q -> In (first_value p y q) (start_values p y q).
Proof. intros H. unfold first_value. pose proof (start_nonempty p y q H). destruct (start_values p y q); [congruence|now left]. Qed.
Lemma last_In p y q : has_series y q -> In (last_value p y q) (start_values p y q).
Proof.
  intros H. unfold last_value. pose proof (start_nonempty p y q H) as N. destruct (exists_last N) as (l & a & ->). rewrite last_last. apply in_or_app. right. now left.
Qed.

Lemma fit_suggestion ns_of p y f : increasing (map (fun t => days_since_epoch (ns_of t)) (time_ids y)) -> (2 <= length (time_ids y))%nat ->
  flat_ok y -> piecewise_fit ns_of p y = Ok f ->
  exists ts, hd 0 ts = 0 /\ last ts 0 = last_time y /\ suggest p y ts = Ok (pf_global_rates f, pf_offset_loc f).
Proof.
  intros INC L W H. apply piecewise_fit_inv in H as (ts & E & -> & _ & _ & _ & HS & _). set (td := map (fun t => days_since_epoch (ns_of t)) (time_ids y)) in *.
  assert (Ld : (2 <= length td)%nat) by (unfold td; now rewrite map_length).
  destruct (fit_time_ok td INC Ld) as (s & st & E' & Ps & H0 & H1 & MN). rewrite E in E'. injection E' as <- <-. exists (map (scale_time (pf_t_scale f) (pf_t_start f)) td). split; [|split].
  - destruct td; [cbn in Ld; lia|exact H0].
  - rewrite (last_map_row _ td 0) by (destruct td; [cbn in Ld; lia|discriminate]). rewrite H1. unfold td, last_time. now rewrite map_length.
  - exact HS.
Qed.

Lemma rows_of_times (y : frame R) : (2 <= length (time_ids y))%nat -> f_rows y <> [].
Proof. intros L E. unfold time_ids in L. rewrite E in L. cbn in L. lia. Qed.
Lemma last_time_pos y : (2 <= length (time_ids y))%nat -> 0 < last_time y.
Proof. intros L. apply lt_0_INR. lia. Qed.

(** linear trend: the value at the first time, and the reflected value at the last time *)
Lemma c16_fit ns_of p y f : frame_wf y -> increasing (map (fun t => days_since_epoch (ns_of t)) (time_ids y)) -> (2 <= length (time_ids y))%nat ->
  pw_logistic p = None -> piecewise_fit ns_of p y = Ok f ->
  Forall2 (fun q km => exists k, km = (XF k, XF (first_value p y q)) /\
      first_value p y q + k * last_time y = 2 * first_value p y q - last_value p y q)
    (series_ids y) (combine (pf_global_rates f) (pf_offset_loc f)).
Proof.
  intros W INC L LG H. apply flat_paths in W. pose proof (rows_of_times y L) as N. pose proof (last_time_pos y L) as TP.
  destruct (fit_suggestion ns_of p y f INC L W H) as (ts & H0 & H1 & HS). unfold suggest in HS. rewrite LG in HS.
  destruct (target_matrix _) as [m|] eqn:TM; [|discriminate]. cbn [bind] in HS. apply start_matrix in TM; [|exact W|exact N]. subst m.
  destruct (endpoints _) as [es|] eqn:EE; [|discriminate]. cbn [bind] in HS. apply endpoints_ok in EE. subst es. rewrite H0, H1 in HS. rewrite !map_map in HS. cbn [fst snd] in HS.
  injection HS as <- <-. clear -TP. induction (series_ids y) as [|q ids IH]; cbn [map combine]; constructor; [|exact IH].
  eexists. split; [f_equal|]. { unfold suggest_linear. cbn [snd]. f_equal. unfold first_value. ring. }
  unfold suggest_linear. cbn [fst]. fold (first_value p y q) (last_value p y q). field. lra.
Qed.

(** logistic trend: the curve through the first and the last value *)
Lemma initial_capacity_value p y c cap0 m : flat_ok y -> f_rows y <> [] -> pw_logistic p = Some c ->
  m = map (start_values p y) (series_ids y) ->
  match c with Some c => Ok c | None => match concat m with [] => Err ValueError | v :: vs => Ok (Rmax_list v vs * (105 / 100)) end end = Ok cap0 ->
  forall cap, initial_capacity p y cap -> cap = cap0.
Proof.
  intros W N LG -> H cap I. unfold initial_capacity in I. rewrite LG in I. destruct c as [c|]; [congruence|].
  destruct I as (q & v & Hq & Hv & Hm & ->). assert (CM : forall w, In w (concat (map (start_values p y) (series_ids y))) <-> exists q', has_series y q' /\ In w (start_values p y q')).
  { intros w. rewrite in_concat. split.
    - intros (l & Il & Iw). apply in_map_iff in Il as (q' & <- & Iq). exists q'. split; [now apply series_ids_In|exact Iw].
    - intros (q' & Iq & Iw). eexists. split; [apply in_map, series_ids_In, Iq|exact Iw]. }
  destruct (concat _) as [|w ws]; [discriminate|]. injection H as <-. assert (v = Rmax_list w ws); [|lra].
  apply Rle_antisym; [apply Rmax_list_ge, CM; eauto|]. destruct (proj1 (CM _) (Rmax_list_In w ws)) as (q' & A & B). exact (Hm q' _ A B).
Qed.

Lemma c17_fit ns_of p y f cap : frame_wf y -> increasing (map (fun t => days_since_epoch (ns_of t)) (time_ids y)) -> (2 <= length (time_ids y))%nat ->
  initial_capacity p y cap -> (forall q, has_series y q -> 0 < first_value p y q < cap /\ 0 < last_value p y q < cap) ->
  piecewise_fit ns_of p y = Ok f ->
  Forall2 (fun q km => exists k m, km = (XF k, XF m) /\
      cap / (1 + exp (- m)) = first_value p y q /\ cap / (1 + exp (- (k * last_time y + m))) = last_value p y q)
    (series_ids y) (combine (pf_global_rates f) (pf_offset_loc f)).
Proof.
  intros W INC L IC INS H. apply flat_paths in W. pose proof (rows_of_times y L) as N. pose proof (last_time_pos y L) as TP.
  destruct (fit_suggestion ns_of p y f INC L W H) as (ts & H0 & H1 & HS). unfold suggest in HS.
  destruct (target_matrix _) as [m|] eqn:TM; [|discriminate]. cbn [bind] in HS. apply start_matrix in TM; [|exact W|exact N].
  destruct (endpoints _) as [es|] eqn:EE; [|discriminate]. cbn [bind] in HS. apply endpoints_ok in EE. rewrite H0, H1 in HS.
  destruct (pw_logistic p) as [c|] eqn:LG; [|unfold initial_capacity in IC; rewrite LG in IC; contradiction].
  match type of HS with (bind ?C _ = _) => destruct C as [cap0|] eqn:EC; [|discriminate HS] end. cbn [bind] in HS.
  rewrite <- (initial_capacity_value p y c cap0 m W N LG TM EC cap IC) in HS. subst es m. rewrite map_map in HS.
  destruct (suggest_logistic_interpolates 0 (last_time y) (map (fun q => (hd 0 (start_values p y q), last (start_values p y q) 0)) (series_ids y)) cap TP) as (kms & EK & FK).
  { intros ye I. apply in_map_iff in I as (q & <- & Iq). apply series_ids_In in Iq. exact (INS q Iq). }
  rewrite EK in HS. cbn [bind] in HS. injection HS as <- <-. rewrite !map_map. cbn [fst snd]. clear -FK. revert kms FK. induction (series_ids y) as [|q ids IH]; intros kms F; cbn [map] in F; inversion F as [|? [k m] ? ? (P1 & P2 & _) F2]; subst; cbn [map combine]; constructor; [|now apply IH].
  cbn [fst snd] in *. exists k, m. split; [reflexivity|]. split; [|exact P2]. replace (k * 0 + m) with m in P1 by ring. exact P1.
Qed.

(** * When the logistic suggestion fails *)
Lemma ratio_nan cap v : 0 < cap -> xisnan (xlog (xsub (xdiv (XF cap) (XF v)) (XF 1))) = true <-> v < 0 \/ cap < v.
Proof.
  intros C. unfold xdiv. destruct (Reqb v 0) eqn:E.
  - apply Reqb_true in E. subst v. unfold xinf_sign. assert (R1 : Rltb 0 cap = true) by now apply Rltb_true. rewrite R1. cbn. split; [discriminate|intros; lra].
  - apply Reqb_false in E. cbn [xsub xneg xadd xlog]. destruct (Rltb 0 (cap / v + - (1))) eqn:E1.
    + apply Rltb_true in E1. cbn. split; [discriminate|]. intros [N|G].
      * assert (cap / v < 0); [|lra]. unfold Rdiv. rewrite <- (Rmult_0_r cap). apply Rmult_lt_compat_l; [exact C|]. now apply Rinv_lt_0_compat.
      * assert (cap / v < 1); [|lra]. apply (Rmult_lt_reg_r v); [lra|]. unfold Rdiv. rewrite Rmult_assoc, Rinv_l by lra. lra.
    + apply Rltb_false in E1. destruct (Reqb (cap / v + - (1)) 0) eqn:E2.
      * apply Reqb_true in E2. cbn. split; [discriminate|]. assert (V : cap = v).
        { assert (cap / v = 1) by lra. apply (f_equal (fun x => x * v)) in H. unfold Rdiv in H. rewrite Rmult_assoc, Rinv_l in H by lra. lra. }
        intros; lra.
      * apply Reqb_false in E2. cbn. split; [intros _|reflexivity]. destruct (Rlt_dec v 0) as [N|P]; [now left|right].
        assert (cap / v < 1) by lra. assert (0 < v) by lra. apply (Rmult_lt_compat_r v) in H; [|lra]. unfold Rdiv in H. rewrite Rmult_assoc, Rinv_l in H by lra. lra.
Qed.

Lemma suggest_logistic_nan t0 t1 ys cap e : 0 < cap ->
  suggest_logistic t0 t1 ys cap = Err e <->
  e = ValueError /\ exists v, In v ys /\ (outside cap (if existsb (fun y => Reqb (fst y) 0) ys then / 100000000 else fst v) \/ outside cap (snd v)).
Proof.
  intros C. unfold suggest_logistic. set (start := fun v : R * R => if existsb (fun y => Reqb (fst y) 0) ys then / 100000000 else fst v).
  match goal with |- (if ?B then _ else _) = _ <-> _ => assert (BE : B = true <-> exists v, In v ys /\ (outside cap (start v) \/ outside cap (snd v))); [|destruct B] end.
  { rewrite existsb_exists. split.
    - intros (l & I & N). apply in_map_iff in I as (v & <- & I). cbn [fst snd] in N. apply orb_true_iff in N. exists v. split; [exact I|]. fold (start v) in N. rewrite !ratio_nan in N by exact C. exact N.
    - intros (v & I & N). eexists. split; [apply in_map, I|]. cbn [fst snd]. apply orb_true_iff. fold (start v). rewrite !ratio_nan by exact C. exact N. }
  - split; [intros [= <-]; split; [reflexivity|]; now apply BE|]. intros (-> & _). reflexivity.
  - split; [discriminate|]. intros (_ & F). apply BE in F. discriminate.
Qed.
Lemma suggest_logistic_error t0 t1 ys cap e : 0 < cap -> (forall v, In v ys -> fst v <> 0) ->
  suggest_logistic t0 t1 ys cap = Err e <-> e = ValueError /\ exists v, In v ys /\ (outside cap (fst v) \/ outside cap (snd v)).
Proof. intros C Z. rewrite suggest_logistic_nan by exact C. now rewrite no_zero_start. Qed.
Lemma suggest_logistic_zero t0 t1 ys cap e v0 : / 100000000 <= cap -> In v0 ys -> fst v0 = 0 ->
  suggest_logistic t0 t1 ys cap = Err e <-> e = ValueError /\ exists v, In v ys /\ outside cap (snd v).
Proof.
  intros C I Z. assert (P : 0 < / 100000000) by (apply Rinv_0_lt_compat; lra). rewrite suggest_logistic_nan by lra.
  assert (E : existsb (fun y : R * R => Reqb (fst y) 0) ys = true) by (apply existsb_exists; exists v0; split; [exact I|now apply Reqb_true]).
  rewrite E. unfold outside at 1. split; intros (? & v & Iv & H); split; auto; exists v; (split; [exact Iv|]); [destruct H as [[H|H]|H]; [lra|lra|exact H]|now right].
Qed.

Lemma c18_outside ns_of p y f cap q : frame_wf y -> increasing (map (fun t => days_since_epoch (ns_of t)) (time_ids y)) -> (2 <= length (time_ids y))%nat ->
  initial_capacity p y cap -> 0 < cap -> (forall q, has_series y q -> first_value p y q <> 0) ->
  has_series y q -> outside cap (first_value p y q) \/ outside cap (last_value p y q) -> piecewise_fit ns_of p y <> Ok f.
Proof.
  intros W INC L IC CP NZ Hq O H. apply flat_paths in W. pose proof (rows_of_times y L) as N.
  destruct (fit_suggestion ns_of p y f INC L W H) as (ts & H0 & H1 & HS). unfold suggest in HS.
  destruct (target_matrix _) as [m|] eqn:TM; [|discriminate]. cbn [bind] in HS. apply start_matrix in TM; [|exact W|exact N].
  destruct (endpoints _) as [es|] eqn:EE; [|discriminate]. cbn [bind] in HS. apply endpoints_ok in EE. rewrite H0, H1 in HS.
  destruct (pw_logistic p) as [c|] eqn:LG; [|unfold initial_capacity in IC; rewrite LG in IC; contradiction].
  match type of HS with (bind ?C _ = _) => destruct C as [cap0|] eqn:EC; [|discriminate HS] end. cbn [bind] in HS.
  rewrite <- (initial_capacity_value p y c cap0 m W N LG TM EC cap IC) in HS. subst es m. rewrite map_map in HS.
  assert (F : suggest_logistic 0 (last_time y) (map (fun q => (hd 0 (start_values p y q), last (start_values p y q) 0)) (series_ids y)) cap = Err ValueError).
  { apply suggest_logistic_error; [exact CP| |].
    - intros v I. apply in_map_iff in I as (q' & <- & I'). apply series_ids_In in I'. exact (NZ q' I').
    - split; [reflexivity|]. eexists. split; [apply in_map, series_ids_In, Hq|exact O]. }
  rewrite F in HS. discriminate.
Qed.
