(** The value of a piecewise trend, in steps since the first training date. *)
From Coq Require Import Reals Lra ZArith String Bool List Lia Sorted.
From Verif.Model Require Import Base Num XFloat Frame Arr Prog Likelihood Effect Trend TrendProg Scale Expand Forecaster.
From Verif.Spec Require Import FrameSpec ProgSpec EffectSpec AlignSpec ShapeSpec TrendSpec ForecasterSpec OverlapSpec DocsSpec.
From Verif.Facts Require Import BaseFacts FrameFacts NumFacts ArrFacts TimeFacts TrendFacts ProgFacts EffectPredict PosteriorFacts ForecasterFacts ForecasterInv CompleteFacts ShapeFacts PredictFacts OverlapFrames OverlapTrend.
Import ListNotations.
Local Open Scope R_scope.

(** * Time *)
Lemma limit_end n r : changepoint_limit (INR (n - 1)) r = range_end n r.
Proof.
  unfold range_end. destruct (Rlt_dec 0 r) as [H|H]; [destruct (Rlt_dec r 1) as [H1|H1]|].
  - apply limit_fraction. lra.
  - apply limit_count. lra.
  - apply limit_negative. lra.
Qed.
Lemma entry_bend t c : changepoint_entry t c = bend t c.
Proof.
  unfold bend. destruct (Rle_dec c t) as [H|H]; [now apply entry_after|].
  unfold changepoint_entry, clip_low. destruct (Rleb c t) eqn:E; [apply Rleb_true in E; lra|]. f_equal. lra.
Qed.

Lemma time_steps days s st : increasing days -> fit_time days = Ok (s, st) ->
  (2 <= List.length days)%nat /\ (forall d, scale_time s st d = steps days d) /\
  Rmax_list (hd 0 (map (scale_time s st) days)) (tl (map (scale_time s st) days)) = INR (List.length days - 1).
Proof.
  intros I F. destruct (fit_time_shape _ _ _ F) as (x & y & l & -> & _ & _). destruct (fit_time_increasing _ _ _ I) as (s' & F' & P & E).
  rewrite F in F'. injection F' as <- ->. split; [simpl; lia|].
  assert (St : forall d, scale_time s (x / s) d = steps (x :: y :: l) d).
  { intros d. unfold scale_time, steps. cbn [hd]. change (last (x :: y :: l) 0) with (last (y :: l) 0).
    replace (List.length (x :: y :: l) - 1)%nat with (List.length (y :: l)) by (simpl; lia). rewrite <- E. field. lra. }
  split; [exact St|].
  assert (L2 : (2 <= List.length (x :: y :: l))%nat) by (simpl; lia).
  destruct (fit_time_ok _ I L2) as (s2 & st2 & F2 & P2 & _ & La & Mo).
  rewrite F in F2. injection F2 as <- <-.
  assert (Inc : increasing (map (scale_time s (x / s)) (x :: y :: l))).
  { clear -I Mo. unfold increasing in *. induction I as [|a l0 I IH Fa]; [constructor|]. cbn [map]. constructor; [exact IH|].
    rewrite Forall_forall in *. intros v Hv. apply in_map_iff in Hv as (b & <- & Hb). apply Mo. now apply Fa. }
  remember (x :: y :: l) as days eqn:Ed. destruct (map (scale_time s (x / s)) days) as [|v vs] eqn:Ev; [subst; discriminate|].
  cbn [hd tl]. rewrite increasing_max by exact Inc. rewrite <- Ev. rewrite (last_map _ _ 0) by (subst; discriminate). exact La.
Qed.

(** * Changepoints *)
Lemma count_exists tmax n iv rg : 0 < iv -> tmax = INR (n - 1) -> changepoint_count n iv rg (List.length (changepoint_times tmax iv rg)).
Proof. intros P -> k. unfold changepoint_times. rewrite arange0_bound by exact P. now rewrite limit_end. Qed.
Lemma count_unique n iv rg K K' : changepoint_count n iv rg K -> changepoint_count n iv rg K' -> K = K'.
Proof.
  intros H H'. destruct (Nat.lt_trichotomy K K') as [L|[L|L]]; [|exact L|].
  - apply H' in L. apply H in L. lia.
  - apply H in L. apply H' in L. lia.
Qed.
Lemma changepoint_list tmax iv rg : changepoint_times tmax iv rg = map (fun k => INR k * iv) (seq 0 (List.length (changepoint_times tmax iv rg))).
Proof. unfold changepoint_times, arange0. now rewrite map_length, seq_length. Qed.
Lemma setup_repeat tmax iv rg n cps : 0 < iv -> setup_changepoints tmax (Scalar iv) (Scalar rg) n = Ok cps -> cps = repeat (changepoint_times tmax iv rg) n.
Proof.
  intros P H. destruct (setup_changepoints_spec tmax (Scalar iv) (Scalar rg) n) as [(cps' & E & F)|[E _]].
  - intros I HI. simpl in HI. apply repeat_spec in HI. now subst.
  - rewrite H in E. injection E as <-. simpl in F. clear H. revert cps F. induction n as [|n IH]; simpl; intros cps F; inversion F; subst; [reflexivity|].
    f_equal; [|now apply IH]. cbn [fst snd] in *. tauto.
  - congruence.
Qed.
Lemma concat_lengths {A} (l : list (list A)) k : (forall x, In x l -> List.length x = k) -> List.length (concat l) = (List.length l * k)%nat.
Proof. induction l as [|x l IH]; intros H; [reflexivity|]. simpl. rewrite app_length, (H x), IH; [reflexivity| |simpl; auto]. intros z Hz. apply H. simpl. auto. Qed.
Lemma prior_size n (cp : list R) s (rates : list xr) : List.length rates = n ->
  List.length (fst (changepoint_prior_vectors (repeat cp n) s rates)) = (n * List.length cp)%nat.
Proof.
  intros L. unfold changepoint_prior_vectors. cbn [fst].
  rewrite (concat_lengths _ (List.length cp)).
  - rewrite map_length, combine_length. unfold n_changepoint_per_series. rewrite map_length, repeat_length, L. f_equal. lia.
  - intros x Hx. apply in_map_iff in Hx as ([k r] & <- & Hx). apply in_combine_l in Hx. unfold n_changepoint_per_series in Hx.
    apply in_map_iff in Hx as (c & <- & Hc). apply repeat_spec in Hc. subst c. unfold zeros_with_first_value. cbn [fst]. apply repeat_length.
Qed.

Lemma weighted_sum t iv K (g : nat -> R) :
  weighted (changepoint_entry t) (map (fun k => INR k * iv) (seq 0 K)) (map g (seq 0 K)) = sum_to K (fun k => g k * bend t (INR k * iv)).
Proof.
  unfold weighted, sum_to. generalize (seq 0 K). intros l. induction l as [|k l IH]; [reflexivity|]. cbn. rewrite IH, entry_bend. f_equal. apply Rmult_comm.
Qed.
Lemma line_value (e : env) n iv K i t : (i < n)%nat ->
  dot (masked_row (repeat (map (fun k => INR k * iv) (seq 0 K)) n) i t) (map (e "changepoint_coefficients"%string) (seq 0 (n * K))) + nth i (map (e "offset"%string) (seq 0 n)) 0 = line_at e K iv i t.
Proof.
  intros Hi. rewrite seq_blocks, flat_map_concat_map. set (g := fun i0 => map (fun j => e "changepoint_coefficients"%string (i0 * K + j)%nat) (seq 0 K)).
  rewrite masked_row_dot.
  - rewrite (nth_indep _ [] (map (fun k => INR k * iv) (seq 0 K))) by now rewrite repeat_length. rewrite nth_repeat.
    rewrite (nth_indep _ [] (g 0%nat)) by (now rewrite map_length, seq_length). rewrite (map_nth g), seq_nth by exact Hi. cbn [Nat.add]. unfold g. rewrite weighted_sum.
    rewrite (nth_indep _ 0 (e "offset"%string 0%nat)) by now rewrite map_length, seq_length. rewrite (map_nth (e "offset"%string)), seq_nth by exact Hi.
    unfold line_at. cbn [Nat.add]. apply Rplus_comm.
  - clear Hi. assert (Q : forall s, same_lengths (repeat (map (fun k => INR k * iv) (seq 0 K)) n) (map g (seq s n))); [|apply Q].
    induction n as [|n IH]; intros s; [constructor|]. cbn [repeat seq map]. constructor; [|apply IH]. unfold g. now rewrite !map_length.
  - now rewrite repeat_length.
Qed.

(** * The trend *)
Section Trend.
Variable ns_of : Z -> Z.
Variable order : list string -> list string.
Notation day := (fun t => day (ns_of t)).

Lemma piecewise_formula p (y : frame R) f capacity fh e a iv rg :
  piecewise_fit ns_of p y = Ok f -> pw_interval p = Scalar iv -> pw_range p = Scalar rg -> 0 < iv -> increasing (map day (time_ids y)) ->
  (f_levels y <> 0%nat -> f_rows y <> []) -> (f_levels y <> 0%nat -> NoDup fh) ->
  yields e (piecewise_prog capacity f (piecewise_transform ns_of f fh)) a ->
  exists K, changepoint_count (List.length (time_ids y)) iv rg K /\ forall i j t, (i < n_series_of y)%nat -> nth_error fh j = Some t ->
    nth_error (a_flat a) (i * List.length fh + j) = Some (trend_at e (match pw_logistic p with None => false | Some _ => true end) K iv i (steps (map day (time_ids y)) (day t))).
Proof.
  intros H Hi Hr P Inc NE Nf Y. destruct (piecewise_fit_inv _ _ _ _ H) as (ts & HT & Ets & Hn & Hp & Hc & Hs & Hv & Hse). change (fun t => days_since_epoch (ns_of t)) with day in HT, Ets.
  rewrite Hi, Hr in Hc. destruct (suggest_lengths_any _ _ _ _ _ Hs) as [Lr Lo].
  assert (N0 : n_series_of y <> 0%nat).
  { unfold n_series_of. destruct (f_levels y) eqn:EL; [lia|]. intros E. apply length_zero_iff_nil in E. destruct (f_rows y) as [|r l] eqn:ER; [apply NE; congruence|].
    assert (I : In (r_path r) (series_ids y)) by (unfold series_ids; rewrite paths_unique_In, ER; simpl; auto). rewrite E in I. contradiction. }
  destruct (time_steps _ _ _ Inc HT) as (L2 & St & Mx). rewrite <- Ets in Mx. rewrite Mx in Hc. rewrite map_length in Hc, L2.
  pose proof (setup_repeat _ _ _ _ _ P Hc) as Ec. set (cp := changepoint_times _ iv rg) in Ec. exists (List.length cp). split; [apply count_exists; auto|].
  assert (Ecp : cp = map (fun k => INR k * iv) (seq 0 (List.length cp))) by apply changepoint_list. set (K := List.length cp) in *.
  assert (Lc : List.length (pf_cp_loc f) = (n_series_of y * K)%nat).
  { change (pf_cp_loc f) with (fst (pf_cp_loc f, pf_cp_scale f)). rewrite Hv, Ec. apply prior_size. exact Lr. }
  assert (Lcps : List.length (pf_cps f) = n_series_of y) by (rewrite Ec; apply repeat_length).
  assert (TT : piecewise_transform ns_of f fh = get_changepoint_matrix (pw_squeeze p) (pf_cps f) (map (fun t => steps (map day (time_ids y)) (day t)) fh)).
  { unfold piecewise_transform. rewrite Hp. f_equal. rewrite Hse. destruct (f_levels y); [|rewrite times_unique_id by (apply Nf; discriminate)]; apply map_ext; intros t; apply St. }
  rewrite TT in Y. clear TT. unfold piecewise_prog in Y. rewrite Hp, Hn in Y.
  assert (LM : forall A (f : nat -> A) n, List.length (map f (seq 0 (prod_shape [n; 1%nat; 1%nat]))) = n) by (intros; rewrite map_length, seq_length; unfold prod_shape; simpl; lia).
  assert (PS : forall n, prod_shape [n] = n) by (intros; unfold prod_shape; simpl; lia).
  intros i j t Hi' Hj.
  assert (Gn : forall g : nat -> R -> R, nth_error (grid (n_series_of y) g (map (fun t => steps (map day (time_ids y)) (day t)) fh)) (i * List.length fh + j) = Some (g i (steps (map day (time_ids y)) (day t)))).
  { intros g. rewrite grid_map. now rewrite (grid_nth _ _ _ i j t). }
  destruct (pw_logistic p) as [c|].
  - apply yields_bind in Y as ([] & _ & Y). apply yields_bind in Y as (cap & Hcap & Y). apply yields_sample in Hcap. subst cap.
    apply yields_bind in Y as (locs & Hl & Y). apply yields_lift in Hl. apply mapM_length in Hl. apply yields_bind in Y as (o & Ho & Y). apply yields_sample in Ho. subst o.
    apply yields_bind in Y as ([] & _ & Y). apply yields_bind in Y as (cc & Hcc & Y). apply yields_sample in Hcc. subst cc. apply yields_lift in Y. cbn [a_flat] in Y.
    rewrite !PS, Lc in Y. replace (List.length locs) with (n_series_of y) in Y by congruence.
    apply logistic_flat in Y; [|exact Lcps|now rewrite map_length, seq_length|apply LM|exact N0]. rewrite Y, Gn, Ec, Ecp, line_value by exact Hi'. f_equal.
    unfold trend_at, logistic. f_equal. rewrite (nth_indep _ 0 (e "capacity"%string 0%nat)) by now rewrite LM. rewrite (map_nth (e "capacity"%string)), seq_nth; [reflexivity|].
    unfold prod_shape. simpl. lia.
  - apply yields_bind in Y as (locs & Hl & Y). apply yields_lift in Hl. apply mapM_length in Hl. apply yields_bind in Y as (o & Ho & Y). apply yields_sample in Ho. subst o.
    apply yields_bind in Y as ([] & _ & Y). apply yields_bind in Y as (cc & Hcc & Y). apply yields_sample in Hcc. subst cc. apply yields_lift in Y. cbn [a_flat] in Y.
    rewrite !PS, Lc in Y. replace (List.length locs) with (n_series_of y) in Y by congruence.
    apply piecewise_flat in Y; [|exact Lcps|now rewrite map_length, seq_length|exact N0]. rewrite Y, Gn, Ec, Ecp, line_value by exact Hi'. reflexivity.
Qed.

Lemma repeat_app_n {A} (x : A) n m : (repeat x n ++ repeat x m)%list = repeat x (n + m).
Proof. symmetry. apply repeat_app. Qed.
Lemma prior_values n (cp : list R) sg (rates : list xr) : List.length rates = n ->
  changepoint_prior_vectors (repeat cp n) (Scalar sg) rates = (repeat 0 (n * List.length cp), repeat sg (n * List.length cp)).
Proof.
  intros <-. unfold changepoint_prior_vectors, n_changepoint_per_series. rewrite map_length, repeat_length. simpl to_list_if_scalar. f_equal.
  - induction rates as [|r rates IH]; [reflexivity|]. cbn [List.length repeat map combine concat fst snd Nat.mul]. rewrite IH. unfold zeros_with_first_value. apply repeat_app_n.
  - induction rates as [|r rates IH]; [reflexivity|]. cbn [List.length repeat map combine concat fst snd Nat.mul]. rewrite IH. apply repeat_app_n.
Qed.

Lemma piecewise_priors p (y : frame R) f capacity m e a lt iv rg sg :
  piecewise_fit ns_of p y = Ok f -> pw_interval p = Scalar iv -> pw_range p = Scalar rg -> pw_prior_scale p = Scalar sg -> 0 < iv -> increasing (map day (time_ids y)) ->
  eval e (piecewise_prog capacity f m) = Ok (a, lt) ->
  exists K v, changepoint_count (List.length (time_ids y)) iv rg K /\ In ("changepoint_coefficients"%string,
    SSample (DLaplace (mkArr [(n_series_of y * K)%nat] (repeat 0 (n_series_of y * K)%nat)) (mkArr [(n_series_of y * K)%nat] (repeat sg (n_series_of y * K)%nat))) v false) lt.
Proof.
  intros H Hi Hr Hsg P Inc E. destruct (piecewise_fit_inv _ _ _ _ H) as (ts & HT & Ets & Hn & Hp & Hc & Hs & Hv & Hse). change (fun t => days_since_epoch (ns_of t)) with day in HT, Ets.
  rewrite Hi, Hr in Hc. destruct (suggest_lengths_any _ _ _ _ _ Hs) as [Lr Lo].
  destruct (time_steps _ _ _ Inc HT) as (L2 & St & Mx). rewrite <- Ets in Mx. rewrite Mx in Hc. rewrite map_length in Hc, L2.
  pose proof (setup_repeat _ _ _ _ _ P Hc) as Ec. rewrite Hsg, Ec, prior_values in Hv by exact Lr. set (cp := changepoint_times _ iv rg) in *. injection Hv as V1 V2.
  exists (List.length cp). 
  assert (Q : forall k, eval e (locs <~ lift_res (mapM finite (pf_offset_loc f)) ;;
    o <~ sample "offset" (DNormal (vector locs) (const_arr [List.length locs] (pw_offset_scale (pf_params f)))) [List.length locs] ;;
    _ <~ (if Nat.eqb (List.length (pf_cp_loc f)) (List.length (pf_cp_scale f)) then Ret tt else Raise ValueError) ;;
    c <~ sample "changepoint_coefficients" (DLaplace (vector (pf_cp_loc f)) (vector (pf_cp_scale f))) [List.length (pf_cp_loc f)] ;;
    k (a_flat o) (a_flat c)) = Ok (a, lt) -> exists v, In ("changepoint_coefficients"%string, SSample (DLaplace (vector (pf_cp_loc f)) (vector (pf_cp_scale f))) v false) lt).
  { intros k Ek. apply eval_split in Ek as (x1 & l1 & l1' & _ & Ek & ->). apply eval_split in Ek as (x2 & l2 & l2' & _ & Ek & ->). apply eval_split in Ek as (x3 & l3 & l3' & _ & Ek & ->).
    apply eval_split in Ek as (x4 & l4 & l4' & E4 & _ & ->). cbn [sample eval bind] in E4. injection E4 as _ <-. eexists. rewrite !in_app_iff. right. right. right. left. left. reflexivity. }
  assert (QQ : exists v, In ("changepoint_coefficients"%string, SSample (DLaplace (vector (pf_cp_loc f)) (vector (pf_cp_scale f))) v false) lt).
  { unfold piecewise_prog in E. destruct (pw_logistic (pf_params f)).
    - apply eval_split in E as (x1 & l1 & l1' & _ & E & E1). apply eval_split in E as (x2 & l2 & l2' & _ & E & E2).
      clear Q. apply eval_split in E as (x0 & l0 & l0' & _ & Ek & E0). apply eval_split in Ek as (x3 & l3 & l3' & _ & Ek & E3). apply eval_split in Ek as (x4 & l4 & l4' & _ & Ek & E4).
      apply eval_split in Ek as (x5 & l5 & l5' & E5 & _ & E6). cbn [sample eval bind] in E5. injection E5 as _ <-. subst. eexists. rewrite !in_app_iff. do 5 right. left. left. reflexivity.
    - exact (Q (fun o c => lift_res (piecewise_predict (pw_squeeze (pf_params f)) (pf_n_series f) m o c)) E). }
  destruct QQ as [v QQ]. exists v. split; [apply count_exists; auto|]. unfold vector in QQ. rewrite V1, V2, !repeat_length in QQ. exact QQ.
Qed.
End Trend.
