From Coq Require Import Reals Lra ZArith String List Lia Permutation.
From Verif.Model Require Import Base Num XFloat Frame Arr Trend Engine Forecaster Tensors.
From Verif.Spec Require Import FrameSpec TensorSpec.
From Verif.Facts Require Import BaseFacts FrameFacts FrameProps TrendFacts ForecasterInv EffectFourier EffectPredict CompleteFacts.
Import ListNotations.
Local Open Scope string_scope.

Section Tensors.
Context {V : Type}.
Variable ns_of : Z -> Z.

Lemma time_rows (f : frame V) p : rows_of (time_frame ns_of f) p = map (fun r => mkRow (r_path r) (r_time r) [days_since_epoch (ns_of (r_time r))]) (rows_of f p).
Proof.
  unfold rows_of, time_frame. cbn [f_rows]. induction (f_rows f) as [|r l IH]; [reflexivity|]. cbn [map filter r_path].
  destruct (path_eqb (r_path r) p); cbn [map]; now rewrite IH.
Qed.
Lemma time_ids_eq (f : frame V) : series_ids (time_frame ns_of f) = series_ids f.
Proof. unfold series_ids, time_frame. cbn [f_rows]. now rewrite map_map. Qed.

Lemma c88_tensors (f : frame V) : exists groups, grouped f groups /\
  ((f_levels f = 0%nat \/ equal_lengths groups) /\
    convert_dataframe_to_tensors ns_of f = Ok (map (map (fun r => [days_since_epoch (ns_of (r_time r))])) groups, map (map r_vals) groups) \/
   f_levels f <> 0%nat /\ ~ equal_lengths groups /\ convert_dataframe_to_tensors ns_of f = Err ValueError).
Proof.
  unfold grouped, convert_dataframe_to_tensors, extract_timetensor_from_dataframe. destruct (Nat.eq_dec (f_levels f) 0) as [L|L].
  - exists [f_rows f]. rewrite L. split; [reflexivity|]. left. split; [auto|]. unfold series_to_tensor, time_frame. cbn [f_levels f_rows]. rewrite L. cbn [bind map].
    now rewrite map_map.
  - assert (G : match f_levels f with 0%nat => map (rows_of f) (series_ids f) = [f_rows f] | S _ => exists ids, first_appearance (map r_path (f_rows f)) ids /\
           Forall2 (fun p g => g = filter (fun r => path_eqb (r_path r) p) (f_rows f)) ids (map (rows_of f) (series_ids f)) end).
    { destruct (f_levels f); [congruence|]. exists (series_ids f). split; [apply series_ids_first|]. induction (series_ids f); constructor; auto. }
    exists (map (rows_of f) (series_ids f)). split; [exact G|]. clear G.
    assert (D : (exists p1 p2, In p1 (series_ids f) /\ In p2 (series_ids f) /\ List.length (rows_of f p1) <> List.length (rows_of f p2)) \/
                exists n, forall p, In p (series_ids f) -> List.length (rows_of f p) = n).
    { destruct (series_ids f) as [|p0 ids]; [right; exists 0%nat; intros p []|].
      destruct (Forall_dec (fun p => List.length (rows_of f p) = List.length (rows_of f p0)) (fun p => Nat.eq_dec _ _) (p0 :: ids)) as [H|H].
      - right. exists (List.length (rows_of f p0)). now apply Forall_forall.
      - left. apply Exists_Forall_neg in H; [|intros x; destruct (Nat.eq_dec (List.length (rows_of f x)) (List.length (rows_of f p0))); tauto].
        apply Exists_exists in H as (p & Hp & N). exists p, p0. simpl. auto. }
    destruct D as [(p1 & p2 & H1 & H2 & N)|(n & H)].
    + right. split; [exact L|]. split; [intros E; apply N, E; now apply in_map|].
      rewrite (series_to_tensor_bad (time_frame ns_of f) p1 p2); [reflexivity|exact L|now rewrite time_ids_eq..|now rewrite !time_rows, !map_length].
    + left. split; [right; intros g g' Hg Hg'; apply in_map_iff in Hg as (p & <- & Hp); apply in_map_iff in Hg' as (p' & <- & Hp'); now rewrite !H|].
      rewrite (series_to_tensor_ok (time_frame ns_of f) n); [|exact L|intros p Hp; rewrite time_rows, map_length; rewrite time_ids_eq in Hp; auto].
      rewrite (series_to_tensor_ok f n L H). cbn [bind]. rewrite !map_map, time_ids_eq. do 2 f_equal. apply map_ext. intros p. rewrite time_rows, map_map. reflexivity.
Qed.
End Tensors.

(** * options per series *)
Lemma own_nth {A} (x : per_series A) n i : given_for n x -> (i < n)%nat -> exists a, own x i = Some a /\ nth_error (to_list_if_scalar x n) i = Some a.
Proof.
  destruct x as [a|l]; cbn [given_for own to_list_if_scalar]; intros H Hi.
  - exists a. split; [reflexivity|]. now apply nth_error_repeat.
  - destruct (nth_error l i) as [a|] eqn:E; [eauto|]. apply nth_error_None in E. lia.
Qed.
Lemma given_length {A} (x : per_series A) n : given_for n x -> List.length (to_list_if_scalar x n) = n.
Proof. destruct x; cbn; [intros _; apply repeat_length|auto]. Qed.

Lemma nth_error_combine {A B} (l : list A) : forall (l' : list B) i a b, nth_error l i = Some a -> nth_error l' i = Some b -> nth_error (combine l l') i = Some (a, b).
Proof. induction l as [|x l IH]; intros [|y l'] [|i] a b; cbn; try discriminate; [intros [= <-] [= <-]; reflexivity|apply IH]. Qed.

Lemma scalar_setup t_max iv rg n : (0 < n)%nat -> changepoint_times t_max iv rg <> [] ->
  setup_changepoints t_max (Scalar iv) (Scalar rg) n = Ok (repeat (changepoint_times t_max iv rg) n).
Proof.
  intros _ H. unfold setup_changepoints. cbn [to_list_if_scalar]. induction n as [|n IH]; [reflexivity|]. cbn [repeat combine mapM fst snd].
  destruct (changepoint_times t_max iv rg) as [|c l] eqn:E; [congruence|]. cbn [bind]. now rewrite IH.
Qed.

Lemma suggest_options p iv rg sc y ts : suggest (with_options p iv rg sc) y ts = suggest p y ts.
Proof. reflexivity. Qed.

Lemma c89_own ns_of p y f : piecewise_fit ns_of p y = Ok f -> given_for (n_series_of y) (pw_interval p) -> given_for (n_series_of y) (pw_range p) ->
  given_for (n_series_of y) (pw_prior_scale p) ->
  List.length (pf_cps f) = n_series_of y /\
  exists blocks, pf_cp_scale f = concat blocks /\ List.length blocks = n_series_of y /\
  forall i, (i < n_series_of y)%nat -> exists iv rg sc f', own (pw_interval p) i = Some iv /\ own (pw_range p) i = Some rg /\ own (pw_prior_scale p) i = Some sc /\
    piecewise_fit ns_of (with_options p iv rg sc) y = Ok f' /\ nth_error (pf_cps f) i = nth_error (pf_cps f') i /\
    nth_error blocks i = Some (repeat sc (List.length (nth i (pf_cps f) []))) /\
    pf_offset_loc f = pf_offset_loc f' /\ pf_t_scale f = pf_t_scale f' /\ pf_t_start f = pf_t_start f' /\ pf_series f = pf_series f'.
Proof.
  intros H G1 G2 G3. destruct (piecewise_fit_inv _ _ _ _ H) as (ts & HT & -> & Hn & Hp & Hc & Hs & HV & HSe).
  set (n := n_series_of y) in *. unfold setup_changepoints in Hc. set (tm := Rmax_list _ _) in Hc. destruct (EffectPredict.mapM_nth _ _ _ Hc) as [Lc Nc].
  rewrite combine_length, !given_length, Nat.min_id in Lc by assumption. split; [exact Lc|].
  unfold changepoint_prior_vectors in HV. injection HV as _ HV. rewrite HV.
  assert (LN : List.length (n_changepoint_per_series (pf_cps f)) = n) by (unfold n_changepoint_per_series; now rewrite map_length). rewrite LN.
  eexists. split; [reflexivity|]. split; [rewrite map_length, combine_length, LN, given_length by assumption; apply Nat.min_id|].
  intros i Hi. destruct (own_nth _ _ _ G1 Hi) as (iv & O1 & T1). destruct (own_nth _ _ _ G2 Hi) as (rg & O2 & T2). destruct (own_nth _ _ _ G3 Hi) as (sc & O3 & T3).
  destruct (Nc i _ (nth_error_combine _ _ _ _ _ T1 T2)) as (cp & C1 & C2). cbn [fst snd] in C2.
  assert (NE : changepoint_times tm iv rg <> []) by (intros E; rewrite E in C2; discriminate).
  assert (EC : cp = changepoint_times tm iv rg) by (destruct (changepoint_times tm iv rg); [congruence|now injection C2 as <-]).
  exists iv, rg, sc. unfold piecewise_fit at 1. rewrite HT. cbn [bind]. fold n. cbn [with_options pw_interval pw_range pw_prior_scale]. fold tm.
  rewrite scalar_setup; [|lia|exact NE]. cbn [bind].
  rewrite suggest_options, Hs. cbn [bind]. destruct (changepoint_prior_vectors _ (Scalar sc) _) as [loc' sc'] eqn:EV. eexists. split; [exact O1|]. split; [exact O2|]. split; [exact O3|].
  split; [reflexivity|]. cbn [pf_cps pf_offset_loc pf_t_scale pf_t_start pf_series]. rewrite C1, nth_error_repeat by assumption. split; [now rewrite EC|].
  split; [|auto]. rewrite nth_error_map. unfold n_changepoint_per_series.
  rewrite (nth_error_combine _ _ _ (List.length cp) sc); [cbn [option_map fst snd]|rewrite nth_error_map, C1; reflexivity|exact T3].
  now rewrite (nth_error_nth _ _ _ C1).
Qed.

Lemma suggest_rates p (y : frame R) ts rates offs : suggest p y ts = Ok (rates, offs) -> List.length rates = n_series_of y.
Proof.
  intros H. destruct (Nat.eq_dec (f_levels y) 0) as [L|L]; [|now apply (suggest_lengths p y ts rates offs L)].
  unfold suggest in H. set (y' := if pw_detrend p then detrend_frame y else y) in H.
  assert (L' : f_levels y' = 0%nat) by (unfold y'; destruct (pw_detrend p); exact L).
  unfold n_series_of. rewrite L. inv_bind H. unfold target_matrix, series_to_tensor in E. rewrite L' in E. cbn [bind] in E. injection E as <-.
  inv_bind H. unfold endpoints in E. apply mapM_length in E. cbn in E.
  destruct (pw_logistic p) as [c|].
  - inv_bind H. inv_bind H. injection H as <- <-. unfold suggest_logistic in E1.
    match type of E1 with (if ?b then _ else _) = _ => destruct b; [discriminate|] end. injection E1 as <-. now rewrite !map_length.
  - injection H as <- <-. now rewrite !map_length.
Qed.

Lemma concat_counts {A B} (F : nat * A -> list B) (ns : list nat) : (forall n a, List.length (F (n, a)) = n) -> forall (xs : list A), List.length ns = List.length xs ->
  List.length (concat (map F (combine ns xs))) = list_sum ns.
Proof.
  intros HF. induction ns as [|n ns IH]; intros [|x xs] H; try discriminate; [reflexivity|]. cbn [combine map concat list_sum fold_right]. rewrite app_length, HF. f_equal. apply IH. now injection H.
Qed.

Lemma concat_sum {A} (l : list (list A)) : List.length (concat l) = list_sum (map (@List.length A) l).
Proof. induction l as [|x l IH]; [reflexivity|]. cbn [concat map list_sum fold_right]. rewrite app_length, IH. reflexivity. Qed.

Lemma c89_dimensions ns_of p y f : piecewise_fit ns_of p y = Ok f -> given_for (n_series_of y) (pw_interval p) -> given_for (n_series_of y) (pw_range p) ->
  given_for (n_series_of y) (pw_prior_scale p) ->
  List.length (pf_cp_loc f) = n_changepoints f /\ List.length (pf_cp_scale f) = n_changepoints f /\
  forall fh, match piecewise_transform ns_of f fh with
             | D2 rows => n_series_of y = 1%nat /\ forall r, In r rows -> List.length r = n_changepoints f
             | D3 series => List.length series = n_series_of y /\ forall m r, In m series -> In r m -> List.length r = n_changepoints f
             end.
Proof.
  intros H G1 G2 G3. destruct (c89_own _ _ _ _ H G1 G2 G3) as [Lc _]. destruct (piecewise_fit_inv _ _ _ _ H) as (ts & _ & _ & _ & _ & _ & Hs & HV & _).
  apply suggest_rates in Hs. unfold changepoint_prior_vectors in HV. injection HV as HL HV.
  assert (LN : List.length (n_changepoint_per_series (pf_cps f)) = n_series_of y) by (unfold n_changepoint_per_series; now rewrite map_length).
  split; [|split].
  - rewrite HL. apply concat_counts; [intros n a; apply repeat_length|congruence].
  - rewrite HV. apply concat_counts; [intros n a; apply repeat_length|]. rewrite LN. symmetry. now apply given_length.
  - intros fh. unfold piecewise_transform. set (tt := map _ _). unfold get_changepoint_matrix.
    assert (W : forall m r, In m (multi_changepoint_matrix (pf_cps f) tt) -> In r m -> List.length r = n_changepoints f).
    { intros m r Hm Hr. rewrite multi_matrix_rows in Hm. apply in_map_iff in Hm as (i & <- & _). apply in_map_iff in Hr as (t & <- & _). rewrite masked_row_length. apply concat_sum. }
    assert (LM : List.length (multi_changepoint_matrix (pf_cps f) tt) = n_series_of y) by (rewrite multi_matrix_rows, map_length, seq_length; exact Lc).
    destruct (multi_changepoint_matrix (pf_cps f) tt) as [|m [|m' ms]]; [split; auto| |split; auto].
    destruct (pw_squeeze _); [|split; auto]. split; [symmetry; exact LM|]. intros r Hr. apply (W m r); simpl; auto.
Qed.

(** lists of a wrong length *)
Lemma c89_zip ns_of p y f : piecewise_fit ns_of p y = Ok f ->
  List.length (pf_cps f) = Nat.min (List.length (to_list_if_scalar (pw_interval p) (n_series_of y))) (List.length (to_list_if_scalar (pw_range p) (n_series_of y))).
Proof.
  intros H. destruct (piecewise_fit_inv _ _ _ _ H) as (ts & _ & _ & _ & _ & Hc & _). unfold setup_changepoints in Hc. apply mapM_length in Hc. now rewrite Hc, combine_length.
Qed.
