(** Closing lemmas and examples for the properties of effects *)
From Coq Require Import Reals String Bool ZArith List Lia Lra Permutation.
From Verif.Model Require Import Base Num Regex Frame Arr Expand Prog Likelihood Effect.
From Verif.Spec Require Import FrameSpec ProgSpec EffectSpec.
From Verif.Facts Require Import BaseFacts NumFacts FrameFacts ExpandFacts ArrFacts ProgFacts EffectFacts EffectPredict EffectFourier.
Import ListNotations.
Local Open Scope string_scope.

Lemma unfitted_flag e X fh : b_fitted (get_base e) = Some false -> transform e X fh = Err ValueError.
Proof. intros H. unfold transform. rewrite H. reflexivity. Qed.

Lemma fourier_unfitted_constructed e X fh : constructed e -> is_fourier e = true -> transform e X fh = Err AttributeError.
Proof.
  intros C N. inversion C as [m p e' H|m p q e' H|m p q r e' H|i t s e' H|sp n s m]; subst; [| | | |reflexivity].
  - unfold mk_linear in H. destruct (check_mode m); [|discriminate H]. injection H as <-. discriminate N.
  - unfold mk_log in H. destruct (check_mode m); [|discriminate H]. injection H as <-. discriminate N.
  - unfold mk_hill in H. destruct (check_mode m); [|discriminate H]. injection H as <-. discriminate N.
  - unfold mk_lift in H. destruct (Rltb 0 s); [|discriminate H]. injection H as <-. discriminate N.
Qed.

(** * C24 *)
Lemma c24_skip order e X s e' fh : fit order e X s = (e', None) -> columns_seen X = [] ->
  skip_if_no_match e = true -> should_skip_predict e' = Ok true /\ forall X', transform e' X' fh = Ok ENothing.
Proof.
  intros F C K. pose proof (should_skip_fitted _ _ _ _ _ F) as H. rewrite C, K in H. split; [exact H|]. intros X'.
  unfold transform. destruct (fit_cols _ _ _ _ _ F) as [_ ->]. simpl. rewrite H. reflexivity.
Qed.
Lemma c24_take_part order e X s e' : fit order e X s = (e', None) -> columns_seen X <> [] \/ skip_if_no_match e = false ->
  should_skip_predict e' = Ok false.
Proof.
  intros F C. rewrite (should_skip_fitted _ _ _ _ _ F). destruct (columns_seen X) eqn:E; [|reflexivity].
  destruct C as [C|C]; [congruence|now rewrite C].
Qed.

(** * C25 *)
Lemma seen_perm cols fh (X X' : frame R) : frame_wf X -> frame_wf X' -> NoDup (f_cols X) -> NoDup (f_cols X') ->
  Permutation (f_cols X) (f_cols X') ->
  Forall2 (fun r r' => r_path r = r_path r' /\ r_time r = r_time r' /\
             Permutation (combine (f_cols X) (r_vals r)) (combine (f_cols X') (r_vals r'))) (f_rows X) (f_rows X') ->
  seen cols fh X = seen cols fh X'.
Proof.
  intros W W' N N' P F. unfold seen.
  assert (EF : forallb (fun c => str_in c (f_cols X)) cols = forallb (fun c => str_in c (f_cols X')) cols).
  { clear -P. induction cols as [|c cols IH]; simpl; [reflexivity|]. rewrite IH. f_equal.
    destruct (str_in c (f_cols X)) eqn:E1, (str_in c (f_cols X')) eqn:E2; try reflexivity; exfalso.
    - apply str_in_iff in E1. apply (Permutation_in _ P) in E1. apply str_in_iff in E1. congruence.
    - apply str_in_iff in E2. apply (Permutation_in _ (Permutation_sym P)) in E2. apply str_in_iff in E2. congruence. }
  rewrite <- EF. destruct (forallb _ cols); [|reflexivity]. f_equal.
  assert (H1 : forall r, In r (f_rows X) -> List.length (r_vals r) = List.length (f_cols X)) by (intros r Hr; apply W; exact Hr).
  assert (H2 : forall r, In r (f_rows X') -> List.length (r_vals r) = List.length (f_cols X')) by (intros r Hr; apply W'; exact Hr).
  induction F as [|r r' l l' (Hp & Ht & Hv) F IH]; [reflexivity|]. simpl. rewrite <- Ht.
  assert (EQ : map (value_of (f_cols X) (r_vals r)) cols = map (value_of (f_cols X') (r_vals r')) cols).
  { apply map_ext. intros c. apply value_of_perm; auto; [apply H1|apply H2]; simpl; auto. }
  assert (IH' := IH (fun q Hq => H1 q (or_intror Hq)) (fun q Hq => H2 q (or_intror Hq))).
  destruct (in_dec Z.eq_dec (r_time r) fh); [|exact IH']. cbn [map]. rewrite Hp, Ht, EQ. now rewrite IH'.
Qed.

(** * C27 *)
Section Linear.
Variables (e : env) (prior : distr) (k : nat) (rest : list nat).
Definition lin_in (a : arr) := a_shape a = (rest ++ [k])%list /\ arr_wf a.

Lemma c27_dot a x : lin_in a -> yields e (linear_raw prior (EArr a)) x ->
  a_shape x = (rest ++ [1])%list /\ List.length (a_flat x) = prod_shape rest /\
  forall i, i < prod_shape rest -> entry x i = Rsum (map (fun j => (entry a (i * k + j) * e "coefs" j)%R) (seq 0 k)).
Proof. intros [S1 W] Y. apply (linear_raw_yields e prior a k rest x S1 W) in Y. tauto. Qed.

Lemma c27_additive a b c x y z : lin_in a -> lin_in b -> lin_in c ->
  (forall i, i < List.length (a_flat a) -> entry c i = (entry a i + entry b i)%R) ->
  yields e (linear_raw prior (EArr a)) x -> yields e (linear_raw prior (EArr b)) y -> yields e (linear_raw prior (EArr c)) z ->
  forall i, i < prod_shape rest -> entry z i = (entry x i + entry y i)%R.
Proof.
  intros A B C H Ya Yb Yc i Hi. destruct (c27_dot _ _ A Ya) as (_ & _ & Ea). destruct (c27_dot _ _ B Yb) as (_ & _ & Eb).
  destruct (c27_dot _ _ C Yc) as (_ & _ & Ec). rewrite Ea, Eb, Ec by assumption. rewrite <- Rsum_map_plus. apply Rsum_ext.
  intros j Hj. apply in_seq in Hj. rewrite H; [ring|]. destruct A as [SA WA]. unfold arr_wf in WA. rewrite WA, SA.
  assert (PS : prod_shape (rest ++ [k]) = prod_shape rest * k).
  { clear. induction rest as [|q r IH]; unfold prod_shape in *; simpl; [lia|]. rewrite IH. lia. }
  rewrite PS. nia.
Qed.

Lemma c27_homogeneous q a c x z : lin_in a -> lin_in c ->
  (forall i, i < List.length (a_flat a) -> entry c i = (q * entry a i)%R) ->
  yields e (linear_raw prior (EArr a)) x -> yields e (linear_raw prior (EArr c)) z ->
  forall i, i < prod_shape rest -> entry z i = (q * entry x i)%R.
Proof.
  intros A C H Ya Yc i Hi. destruct (c27_dot _ _ A Ya) as (_ & _ & Ea).
  destruct (c27_dot _ _ C Yc) as (_ & _ & Ec). rewrite Ea, Ec by assumption. rewrite <- Rsum_scale, map_map. apply Rsum_ext.
  intros j Hj. apply in_seq in Hj. rewrite H; [ring|]. destruct A as [SA WA]. unfold arr_wf in WA. rewrite WA, SA.
  assert (PS : prod_shape (rest ++ [k]) = prod_shape rest * k).
  { clear. induction rest as [|w r IH]; unfold prod_shape in *; simpl; [lia|]. rewrite IH. lia. }
  rewrite PS. nia.
Qed.

Lemma Rsum_zero {A} (l : list A) f : (forall x, In x l -> f x = 0%R) -> Rsum (map f l) = 0%R.
Proof. induction l as [|x l IH]; intros H; simpl; [reflexivity|]. rewrite H by (simpl; auto). rewrite IH by (intros; apply H; simpl; auto). ring. Qed.

Lemma c27_zero a x i : lin_in a -> yields e (linear_raw prior (EArr a)) x -> i < prod_shape rest ->
  (forall j, j < k -> entry a (i * k + j) = 0%R) -> entry x i = 0%R.
Proof.
  intros A Y Hi H. destruct (c27_dot _ _ A Y) as (_ & _ & E). rewrite E by assumption. apply Rsum_zero.
  intros j Hj. apply in_seq in Hj. rewrite H by lia. ring.
Qed.

Lemma c27_permuted e' (p : nat -> nat) a b x y : Permutation (map p (seq 0 k)) (seq 0 k) -> lin_in a -> lin_in b ->
  (forall i j, i < prod_shape rest -> j < k -> entry b (i * k + j) = entry a (i * k + p j)) ->
  (forall j, j < k -> e' "coefs" j = e "coefs" (p j)) ->
  yields e (linear_raw prior (EArr a)) x -> yields e' (linear_raw prior (EArr b)) y ->
  forall i, i < prod_shape rest -> entry y i = entry x i.
Proof.
  intros P A B H He Ya Yb i Hi. destruct (c27_dot _ _ A Ya) as (_ & _ & Ea). rewrite Ea by assumption.
  destruct B as [SB WB]. apply (linear_raw_yields e' prior b k rest y SB WB) in Yb as (_ & _ & _ & Eb). rewrite Eb by assumption.
  rewrite <- (Rsum_perm _ _ (Permutation_map (fun j => (entry a (i * k + j) * e "coefs" j)%R) P)). rewrite map_map.
  apply Rsum_ext. intros j Hj. apply in_seq in Hj. rewrite H, He by lia. reflexivity.
Qed.
End Linear.

(** * C28-C30: entries of the predicted effect *)
Lemma log_predict_entry env m sp rp b a pe v : yields env (predict (Log Additive sp rp b) (EArr a) pe) v -> m < List.length (a_flat a) ->
  entry v m = (env "log_scale" 0%nat * ln (Rmax (/ 100000000) (env "log_rate" 0%nat * entry a m + 1)))%R.
Proof.
  intros Y Hm. cbn [predict] in Y. apply mode_yields in Y as (t & x & _ & Hx & _ & ->). apply log_raw_yields in Hx. subst x.
  unfold entry at 1. simpl. rewrite (nth_indep _ 0%R (log1 (env "log_scale" 0) (env "log_rate" 0) 0%R)) by now rewrite map_length.
  rewrite map_nth. reflexivity.
Qed.

Lemma hill_predict_entry env m hp sp mp b a pe v : yields env (predict (Hill Additive hp sp mp b) (EArr a) pe) v -> m < List.length (a_flat a) ->
  hill1 (env "half_max" 0) (env "slope" 0) (env "max_effect" 0) (entry a m) = Ok (entry v m).
Proof.
  intros Y Hm. cbn [predict] in Y. apply mode_yields in Y as (t & x & _ & Hx & _ & ->). 
  exact (hill_entry _ _ _ _ _ _ _ Hx Hm).
Qed.

Section Hill.
Variables (e : env) (hp sp mp : distr) (b : Effect.base) (a : arr) (pe : dict arr) (v : arr).
Hypothesis Y : yields e (predict (Hill Additive hp sp mp b) (EArr a) pe) v.
Let h := e "half_max" 0%nat.
Let s := e "slope" 0%nat.
Let m := e "max_effect" 0%nat.

Lemma c29_value i : (0 < h)%R -> i < List.length (a_flat a) -> (0 < entry a i)%R -> entry v i = hillf h s m (entry a i).
Proof.
  intros Hh Hi Hx. pose proof (hill_predict_entry _ i _ _ _ _ _ _ _ Y Hi) as E.
  rewrite hill1_positive in E by assumption. injection E as E. symmetry. exact E.
Qed.
Lemma c29_bounds i : (0 < h)%R -> (0 < m)%R -> i < List.length (a_flat a) -> (0 < entry a i)%R -> (0 < entry v i < m)%R.
Proof. intros Hh Hm Hi Hx. rewrite c29_value by assumption. now apply hillf_bounds. Qed.
Lemma c29_half i : (0 < h)%R -> i < List.length (a_flat a) -> entry a i = h -> entry v i = (m / 2)%R.
Proof. intros Hh Hi Hx. rewrite c29_value by (auto; lra). rewrite Hx. now apply hillf_half. Qed.
Lemma c29_mono i j : (0 < h)%R -> (0 < s)%R -> (0 < m)%R -> i < List.length (a_flat a) -> j < List.length (a_flat a) ->
  (0 < entry a i)%R -> (entry a i <= entry a j)%R -> (entry v i <= entry v j)%R.
Proof. intros. rewrite !c29_value by (auto; lra). apply hillf_mono; assumption. Qed.
Lemma c30_zero i : h <> 0%R -> i < List.length (a_flat a) -> entry a i = 0%R -> entry v i = m.
Proof.
  intros Hh Hi Hx. pose proof (hill_predict_entry _ i _ _ _ _ _ _ _ Y Hi) as E. rewrite Hx, hill1_zero in E by assumption.
  injection E as E. symmetry. exact E.
Qed.
End Hill.

Lemma c29_limit (e : env) eps : (0 < e "half_max" 0%nat)%R -> (0 < e "slope" 0%nat)%R -> (0 < e "max_effect" 0%nat)%R -> (0 < eps)%R ->
  exists B, (0 < B)%R /\ forall hp sp mp b a pe v i, yields e (predict (Hill Additive hp sp mp b) (EArr a) pe) v ->
    i < List.length (a_flat a) -> (B <= entry a i)%R -> (e "max_effect" 0%nat - eps < entry v i < e "max_effect" 0%nat)%R.
Proof.
  intros Hh Hs Hm He. destruct (hillf_limit _ _ _ eps Hh Hs Hm He) as (B & HB & H). exists B. split; [exact HB|].
  intros hp sp mp b a pe v i Y Hi Hx. split.
  - rewrite (c29_value _ _ _ _ _ _ _ _ Y) by (auto; lra). now apply H.
  - apply (c29_bounds _ _ _ _ _ _ _ _ Y); auto; lra.
Qed.

Lemma c29_total (e : env) m hp sp mp b a pe t : dict_get pe "trend" = Some t ->
  List.length (a_flat a) = prod_shape (a_shape (trend_column t)) -> (0 < e "half_max" 0%nat)%R ->
  (forall i, i < List.length (a_flat a) -> (0 < entry a i)%R) ->
  exists v, yields e (predict (Hill m hp sp mp b) (EArr a) pe) v.
Proof.
  intros T L Hh H. 
  destruct (mapM_ok (hill1 (e "half_max" 0) (e "slope" 0) (e "max_effect" 0)) (a_flat a)) as [vs Ev].
  { intros x Hx. apply In_nth with (d := 0%R) in Hx as (i & Hi & <-). eexists. apply hill1_positive; [exact Hh|]. now apply H. }
  eexists. cbn [predict]. apply mode_yields. exists t, (mkArr (a_shape a) vs). split; [exact T|]. split.
  - apply hill_raw_yields. eauto.
  - split; [|reflexivity]. simpl. apply mapM_nth in Ev as [E _]. congruence.
Qed.

(** * C31 *)
Lemma lift_fit_state order i tb ps b sc X s e' : fit order (Lift i tb ps b sc) X s = (e', None) ->
  exists i', fit order i X s = (i', None) /\ e' = Lift i' tb ps (mkBase (Some (columns_seen X)) (Some true)) (Some s).
Proof.
  cbn [fit]. destruct (fit order i X s) as [i' [er|]]; [discriminate|]. unfold base_fit. simpl.
  destruct (is_panel X); simpl; [discriminate|]. intros [= <-]. eauto.
Qed.

Lemma entry_const sh w k : k < prod_shape sh -> entry (const_arr sh w) k = w.
Proof. intros H. unfold entry, const_arr. simpl. generalize (prod_shape sh) k H. clear. induction n as [|n IH]; intros [|k] H; simpl; try lia; auto. apply IH. lia. Qed.

Lemma lift_likelihood order i tb ps b sc X0 s e' X fh d pe env v lp logpdf :
  fit order (Lift i tb ps b sc) X0 s = (e', None) -> transform e' (Some X) fh = Ok d -> yields env (predict e' d pe) v ->
  masked_normal lp logpdf -> arr_wf v -> List.length (a_flat v) = List.length fh ->
  exists di i' dd obs ws, yields env (predict i' di pe) v /\ fit order i X0 s = (i', None) /\
    sites env (predict e' d pe) = (sites env (predict i' di pe) ++ [("lift_experiment", SSample dd obs true)])%list /\
    logpdf dd obs = Rsum ws /\ List.length ws = List.length fh /\
    forall k t, nth_error fh k = Some t ->
      (forall l, lift_on tb t l -> nth_error ws k = Some (lp (entry v k) ps (l / s)%R)) /\
      ((forall l, ~ lift_on tb t l) -> nth_error ws k = Some 0%R).
Proof.
  intros F T Y M W L. apply lift_fit_state in F as (i' & Fi & ->).
  destruct (lift_transform _ _ _ _ _ _ _ _ _ eq_refl T) as (di & s' & l & -> & [= <-] & Ll & Hl).
  pose proof (proj1 (lift_yields _ _ _ _ _ _ _ _ _ _) Y) as Yi.
  eexists di, i', _, _, _. split; [exact Yi|]. split; [exact Fi|]. split; [apply lift_sites; exact Yi|].
  split; [apply M|]. 
  { rewrite map_length. congruence. }
  { rewrite map_length. simpl. rewrite repeat_length. unfold arr_wf in W. congruence. }
  { simpl. rewrite !map_length. reflexivity. }
  split; [rewrite map_length, seq_length, map_length; congruence|].
  intros k t Hk. assert (Kf : k < List.length fh) by (apply nth_error_Some; congruence). assert (Kl : k < List.length l) by lia.
  rewrite nth_error_map. rewrite (nth_error_nth' (seq 0 (List.length (map is_some l))) 0) by (rewrite seq_length, map_length; lia). rewrite seq_nth by (rewrite map_length; lia). cbn [option_map Nat.add].
  pose proof (Hl k t Hk) as Hk2.
  assert (N1 : nth k (map is_some l) false = is_some (lift_at tb t)).
  { rewrite (nth_indep _ false (@is_some R None)) by now rewrite map_length. rewrite map_nth. rewrite (nth_error_nth _ _ _ Hk2). destruct (lift_at tb t); reflexivity. }
  assert (N2 : entry (mkArr [List.length l; 1] (map opt_or_0 l)) k = match lift_at tb t with Some w => (w / s)%R | None => 0%R end).
  { unfold entry. simpl. rewrite (nth_indep _ 0%R (opt_or_0 None)) by now rewrite map_length. rewrite map_nth. rewrite (nth_error_nth _ _ _ Hk2). destruct (lift_at tb t); reflexivity. }
  rewrite N1, N2, entry_const by (unfold arr_wf in W; lia). split.
  - intros w Hw. apply lift_at_on in Hw. rewrite Hw. reflexivity.
  - intros H. destruct (lift_at tb t) as [w|] eqn:E; [exfalso; apply (H w); now apply lift_at_on|]. reflexivity.
Qed.

(** the data of the wrapped effect: what it computes itself when it does not skip *)
Lemma lift_inner_data i tb ps b sc s X fh d :
  transform (Lift i tb ps b sc) (Some X) fh = Ok d -> sc = Some s -> should_skip_predict i = Ok false -> b_fitted (get_base i) = Some true ->
  is_fourier i = false -> (forall i2 t2 p2 b2 s2, i <> Lift i2 t2 p2 b2 s2) ->
  exists di l, d = ELift di l /\ transform i (Some X) fh = Ok di.
Proof.
  intros T -> SK FT NF NL. unfold transform in T. destruct (attr (b_fitted _)) as [[]|]; cbn [bind negb] in T; try discriminate.
  assert (SL : should_skip_predict (Lift i tb ps b (Some s)) <> Ok true).
  { unfold should_skip_predict, should_skip_base. simpl. destruct (attr (b_cols b)); simpl; [|discriminate]. destruct a; discriminate. }
  destruct (should_skip_predict (Lift i tb ps b (Some s))) as [[]|]; cbn [bind] in T; try discriminate; [congruence|].
  destruct (input_feature_column_names (Lift i tb ps b (Some s))) as [cols|] eqn:IC; cbn [bind] in T; [|discriminate].
  destruct (select_columns 0%R (filter_fh fh X) cols) as [X1|] eqn:ES; cbn [bind] in T; [|discriminate]. cbn [inner_transform attr bind] in T.
  destruct (inner_transform i X1 fh) as [di|] eqn:ED; cbn [bind] in T; [|discriminate]. injection T as <-.
  eexists di, _. split; [reflexivity|]. unfold transform. rewrite FT. cbn [attr bind negb]. rewrite SK. cbn [bind].
  assert (IC2 : input_feature_column_names i = Ok cols) by (destruct i; try exact IC; [exfalso; eapply NL; reflexivity]).
  rewrite IC2. cbn [bind]. rewrite ES. cbn [bind]. exact ED.
Qed.

(** * C33 *)
Lemma fourier_fit_expander order sp n ps m b f x l (X : frame R) s e1 : multi_series (Some X) = true ->
  fit order (Fourier sp n ps m b f x l) (Some X) s = (e1, None) ->
  exists b1 f1 ex l1, e1 = Fourier sp n ps m b1 f1 (Some ex) l1 /\ ex_skip ex = false.
Proof.
  intros MS. cbn [fit]. unfold base_fit. simpl. destruct (fourier_fit sp n (Some X)) as [ff|]; [|discriminate].
  destruct (fourier_transform ff X) as [XF|] eqn:EF; [|discriminate].
  pose proof (fourier_transform_rows _ _ _ EF) as (L & _ & _). pose proof (fourier_series_ids _ _ _ EF) as SI.
  simpl in MS. rewrite L, SI, MS. destruct (expand_fit order [".*"] XF) as [ex|] eqn:EX; cbn [bind]; [|discriminate].
  destruct (expand_transform _ _ ex XF) as [[XE ex']|] eqn:ET; cbn [bind]; [|discriminate].
  destruct (check_mode m); [|discriminate]. intros [= <-]. eexists _, _, _, _. split; [reflexivity|].
  assert (LV : f_levels XF <> 0). { rewrite L. destruct (f_levels X); [discriminate|congruence]. }
  unfold expand_fit in EX. destruct (mapM _ _); cbn [bind] in EX; [|discriminate]. destruct (f_levels XF) eqn:ELX; [congruence|]. injection EX as <-.
  unfold expand_transform in ET. cbn [ex_skip] in ET. rewrite ELX in ET. destruct (copy_columns _ _ _ _ _ _); cbn [bind] in ET; [|discriminate].
  injection ET as _ <-. reflexivity.
Qed.

Lemma fourier_keeps_expander order sp n ps m b f ex l (X : frame R) s e1 : multi_series (Some X) = false ->
  fit order (Fourier sp n ps m b f (Some ex) l) (Some X) s = (e1, None) ->
  exists b1 f1 l1, e1 = Fourier sp n ps m b1 f1 (Some ex) l1.
Proof.
  intros MS. cbn [fit]. unfold base_fit. simpl. destruct (fourier_fit sp n (Some X)) as [ff|]; [|discriminate].
  destruct (fourier_transform ff X) as [XF|] eqn:EF; [|discriminate].
  pose proof (fourier_transform_rows _ _ _ EF) as (L & _ & _). pose proof (fourier_series_ids _ _ _ EF) as SI.
  simpl in MS. rewrite L, SI, MS. destruct (check_mode m); [|discriminate]. intros [= <-]. eauto.
Qed.

(** after a fit on several series, every later fit on a single series leaves the effect unusable *)
Lemma stale_expander order sp n ps m (P X : frame R) s s' e1 e2 : multi_series (Some P) = true -> f_levels X = 0 ->
  fit order (mk_fourier sp n ps m) (Some P) s = (e1, None) -> fit order e1 (Some X) s' = (e2, None) ->
  forall X' fh d, f_levels X' = 0 -> transform e2 (Some X') fh <> Ok d.
Proof.
  intros MS LX F1 F2 X' fh d L' T. destruct (fourier_fit_expander _ _ _ _ _ _ _ _ _ _ _ _ MS F1) as (b1 & f1 & ex & l1 & -> & SK).
  destruct (fourier_keeps_expander order sp n ps m b1 f1 ex l1 X s' e2) as (b2 & f2 & l2 & ->); [simpl; now rewrite LX|exact F2|].
  unfold transform in T. destruct (attr (b_fitted _)) as [[]|]; cbn [bind negb] in T; try discriminate.
  destruct (should_skip_predict _) as [[]|] eqn:ESK; cbn [bind] in T; try discriminate.
  { unfold should_skip_predict, should_skip_base in ESK. destruct (attr _); [|discriminate]. simpl in ESK. destruct a; discriminate. }
  destruct (input_feature_column_names _) as [cols|]; cbn [bind] in T; [|discriminate].
  destruct (select_columns 0%R (filter_fh fh X') cols) as [X1|] eqn:E1; cbn [bind] in T; [|discriminate].
  cbn [inner_transform] in T. destruct f2 as [ff|]; cbn [attr bind] in T; [|discriminate].
  destruct (fourier_transform ff X1) as [X2|] eqn:E2; cbn [bind] in T; [|discriminate].
  apply select_rows in E1 as (L1 & _). apply fourier_transform_rows in E2 as (L2 & _).
  unfold expand_transform in T. rewrite SK in T. rewrite L2, L1 in T. simpl in T. rewrite L' in T. discriminate.
Qed.

Lemma fourier_fit_ok sp n (X : frame R) ff : fourier_fit sp n (Some X) = Ok ff ->
  f_rows X <> [] /\ ff_pairs ff = fourier_pairs sp n /\
  ff_min ff = map (fun s => (fst s, match map r_time (snd s) with [] => 0%Z | t :: ts => min_time t ts end)) (iterate_all_series X).
Proof.
  unfold fourier_fit. destruct (negb _); [discriminate|]. destruct (existsb _ _); [discriminate|].
  destruct (f_rows X); [discriminate|]. intros [= <-]. split; [discriminate|]. split; reflexivity.
Qed.

(** a new effect fitted on a single series works *)
Lemma fourier_univariate_works order sp n ps m (X0 X : frame R) s e' fh : f_levels X0 = 0 -> frame_wf X0 -> f_levels X = 0 -> frame_wf X ->
  fit order (mk_fourier sp n ps m) (Some X0) s = (e', None) -> (forall c, In c (columns_seen (Some X0)) -> In c (f_cols X)) ->
  fourier_pairs sp n <> [] ->
  exists a, transform e' (Some X) fh = Ok (EArr a).
Proof.
  intros L0 W0 L W F Sub NP. cbn [fit mk_fourier] in F. unfold base_fit in F. simpl in F.
  destruct (fourier_fit sp n (Some X0)) as [ff|] eqn:EFF; [|discriminate].
  apply fourier_fit_ok in EFF as (NE & FP & FM). destruct (f_rows X0) as [|r0 rs0] eqn:ER; [congruence|]. clear NE.
  destruct (fourier_transform ff X0) as [XF|] eqn:EF; [|discriminate].
  pose proof (fourier_transform_rows _ _ _ EF) as (LF & CF & RF). rewrite LF, L0 in F. simpl in F.
  destruct (check_mode m) as [mm|]; [|discriminate]. injection F as <-.
  unfold transform. cbn [get_base b_fitted attr bind negb]. unfold should_skip_predict, should_skip_base. cbn [get_base b_cols attr bind skip_if_no_match].
  assert (SKF : (match columns_seen (Some X0) with [] => Ok false | _ => Ok false end : res bool) = Ok false) by (destruct (columns_seen _); reflexivity).
  unfold columns_seen in SKF, Sub. rewrite SKF. cbn [bind input_feature_column_names get_base b_cols attr].
  destruct (select_columns 0%R (filter_fh fh X) (if frame_empty X0 then [] else f_cols X0)) as [X1|] eqn:E1.
  2:{ exfalso. unfold select_columns in E1. rewrite mapM_cols in E1. change (f_cols (filter_fh fh X)) with (f_cols X) in E1.
      destruct (forallb _ _) eqn:FA in E1; [discriminate|]. assert (FA2 : forallb (fun c => str_in c (f_cols X)) (if frame_empty X0 then [] else f_cols X0) = true).
      { apply forallb_forall. intros c Hc. apply str_in_iff. now apply Sub. } congruence. }
  cbn [bind]. pose proof (select_rows _ _ _ E1) as (L1 & C1 & phi & P1 & R1). cbn [inner_transform attr bind].
  destruct (fourier_transform ff X1) as [X2|] eqn:E2.
  2:{ exfalso. unfold fourier_transform in E2. destruct (mapM_ok (fun r => m <- find_min (ff_min ff) (r_path r) ;;
                         Ok (mkRow (r_path r) (r_time r) (fourier_vals (ff_pairs ff) (r_time r - m)))) (f_rows X1)) as [ys Ey]; [|rewrite Ey in E2; discriminate].
      intros r Hr. rewrite R1, filter_fh_rows in Hr. apply in_map_iff in Hr as (r1 & <- & Hr1). unfold horizon_rows in Hr1. apply filter_In in Hr1 as [Hr1 _].
      destruct (W _ Hr1) as [_ LP]. rewrite L in LP.
      assert (HP : exists r, In r (f_rows X0) /\ r_path r = r_path r1).
      { exists r0. rewrite ER. split; [simpl; auto|]. destruct (W0 r0) as [_ LP0]; [rewrite ER; simpl; auto|]. rewrite L0 in LP0.
        destruct (r_path r0), (r_path r1); simpl in *; congruence. }
      destruct (find_min_ok X0 ff (r_path r1)) as [t Et]; [exact FM|exact HP|]. cbn [r_path]. rewrite Et. simpl. eauto. }
  cbn [bind]. pose proof (fourier_transform_rows _ _ _ E2) as (L2 & C2 & R2). unfold linear_transform. cbn [b_fitted attr bind negb].
  assert (NC : fourier_cols (ff_pairs ff) <> []).
  { rewrite FP. destruct (fourier_pairs sp n); [congruence|]. unfold fourier_cols. simpl. discriminate. }
  assert (CS : columns_seen (Some XF) = fourier_cols (ff_pairs ff)).
  { unfold columns_seen, frame_empty. rewrite CF, RF, ER. simpl. destruct (fourier_cols (ff_pairs ff)); [congruence|reflexivity]. }
  unfold columns_seen in CS. rewrite CS. unfold should_skip_base. cbn [b_cols attr bind].
  destruct (fourier_cols (ff_pairs ff)) as [|c0 cs] eqn:EC; [congruence|]. rewrite <- EC. cbn [bind].
  destruct (select_columns 0%R (filter_fh fh X2) (fourier_cols (ff_pairs ff))) as [X3|] eqn:E3.
  2:{ exfalso. unfold select_columns in E3. rewrite mapM_cols in E3. change (f_cols (filter_fh fh X2)) with (f_cols X2) in E3. rewrite C2 in E3.
      destruct (forallb _ _) eqn:FA in E3; [discriminate|]. assert (FA2 : forallb (fun c => str_in c (c0 :: cs)) (c0 :: cs) = true).
      { apply forallb_forall. intros c Hc. now apply str_in_iff. } rewrite EC in FA. congruence. }
  cbn [bind]. apply select_rows in E3 as (L3 & C3 & _). rewrite frame_array_univariate; [cbn [bind]; eauto|].
  rewrite L3. change (f_levels (filter_fh fh X2)) with (f_levels X2). rewrite L2, L1. exact L.
Qed.

Lemma fourier_predicts order sp n ps m b f x l X0 s e' X fh a pe env t :
  fit order (Fourier sp n ps m b f x l) X0 s = (e', None) ->
  transform e' (Some X) fh = Ok (EArr a) -> dict_get pe "trend" = Some t ->
  prod_shape (a_shape (trend_column t)) = List.length (array_rows fh X) ->
  (forall rest, a_shape a <> (rest ++ [0])%list) ->
  exists v, yields env (predict e' (EArr a) pe) v.
Proof.
  intros F T HT L NZ. apply fourier_fit_state in F as (ff & x' & mm & mb & -> & FP & CM).
  apply fourier_data in T as [T|(F & chi & a' & Ha & FA & LF & LC & RW)]; [discriminate|]. injection Ha as <-.
  apply frame_array_rows in FA as (rest & Sh & PR & Fl). set (k := List.length (f_cols F)) in *.
  assert (OR : ordered_rows F = map (fun r => mkRow (r_path r) (r_time r) (chi (r_path r) (fourier_vals (ff_pairs ff) (r_time r - mn_of (ff_min ff) (r_path r)))))
                   (array_rows fh X)).
  { rewrite <- ordered_array_rows. apply ordered_rows_map; [rewrite LF; reflexivity|rewrite filter_fh_rows; exact RW|reflexivity]. }
  assert (U : forall z, In z (map r_vals (ordered_rows F)) -> List.length z = k).
  { intros z. rewrite OR, map_map, in_map_iff. intros (r & <- & _). simpl. apply LC. }
  assert (W : arr_wf a).
  { unfold arr_wf. rewrite Fl, Sh, (concat_length_uniform k) by exact U. rewrite map_length, <- PR.
    clear. induction rest as [|q rest IH]; simpl; unfold prod_shape in *; simpl; [lia|]. rewrite <- IH. lia. }
  assert (K : k <> 0). { intros K. apply (NZ rest). now rewrite Sh, K. }
  set (y := mkArr (rest ++ [1]) (map (fun i => Rsum (map (fun j => (entry a (i * k + j) * env "coefs" j)%R) (seq 0 k))) (seq 0 (prod_shape rest)))).
  assert (Y : yields env (linear_raw (DNormal (scalar 0) (scalar ps)) (EArr a)) y).
  { apply (linear_raw_yields env _ a k rest y Sh W). split; [exact K|]. split; [reflexivity|].
    split; [unfold y; simpl; now rewrite map_length, seq_length|]. intros i Hi. unfold entry at 1, y. cbn [a_flat].
    now rewrite (nth_map_seq (fun i => Rsum (map (fun j => (entry a (i * k + j) * env "coefs" j)%R) (seq 0 k)))). }
  eexists. cbn [predict]. apply mode_yields. exists t, y. split; [exact HT|]. split; [exact Y|]. split; [|reflexivity].
  unfold y. simpl. rewrite map_length, seq_length, L, PR, OR, map_length. reflexivity.
Qed.

(** * C34 *)
Lemma fourier_fit_errors order sp n ps m b f x l (X : frame R) s e1 er : (forall c, Permutation (order c) c) ->
  fit order (Fourier sp n ps m b f x l) (Some X) s = (e1, Some er) -> er = ValueError.
Proof.
  intros O H.
  assert (CM : forall er, check_mode m = Err er -> er = ValueError).
  { unfold check_mode. intros q. destruct (String.eqb m _); [discriminate|]. destruct (String.eqb m _); congruence. }
  destruct (f_rows X) eqn:ER.
  { cbn [fit] in H. unfold base_fit in H. simpl in H. unfold fourier_fit in H. rewrite ER in H. destruct (negb _) in H; [|destruct (existsb _ _) in H]; cbn in H; congruence. }
  destruct (Nat.eq_dec (List.length sp) (List.length n)) as [EL|NL].
  2:{ cbn [fit] in H. unfold base_fit in H. simpl in H. unfold fourier_fit in H. apply Nat.eqb_neq in NL. rewrite NL in H. simpl in H. congruence. }
  destruct (existsb (fun st => Rltb (fst st) (INR (snd st))) (combine sp n)) eqn:EB.
  { cbn [fit] in H. unfold base_fit in H. simpl in H. unfold fourier_fit in H. rewrite EL, Nat.eqb_refl in H. cbn [negb] in H. rewrite EB in H. cbn in H. congruence. }
  destruct (fourier_accepts order sp n ps "additive" b f x l X s O) as [e' E'].
  + split; [exact EL|]. intros s0 k Hk. destruct (Rle_dec (INR k) s0) as [|NL]; [assumption|]. exfalso.
    assert (existsb (fun st => Rltb (fst st) (INR (snd st))) (combine sp n) = true); [|congruence].
    apply existsb_exists. exists (s0, k). split; [exact Hk|]. apply Rltb_true. simpl. lra.
  + rewrite ER. discriminate.
  + auto.
  + cbn [fit] in H, E'. unfold base_fit in H, E'. cbn [set_cols set_base get_base b_fitted inner_fit supports_multivariate negb andb] in H, E'.
    destruct (fourier_fit sp n (Some X)) as [ff|]; [|discriminate].
    destruct (fourier_transform ff X) as [XF|]; [|discriminate].
    match type of H with context [match ?a with Ok _ => _ | Err _ => _ end] => destruct a as [[XE x']|] end; [|discriminate].
    destruct (check_mode m) as [mm|er']; [discriminate|]. injection H as _ <-. now apply CM.
Qed.

Lemma fit_panel_errors order (X : frame R) s : (forall c, Permutation (order c) c) -> f_levels X <> 0 ->
  forall i i' er, fit order i (Some X) s = (i', Some er) -> er = ValueError.
Proof.
  intros O L. assert (P : is_panel (Some X) = true) by (simpl; destruct (f_levels X); [congruence|reflexivity]).
  induction i as [m p b|m p q b|m p q r b|i IH t ps b sc|sp n ps m b f x l]; intros i' er H.
  - cbn [fit] in H. unfold base_fit in H. simpl in H. discriminate.
  - cbn [fit] in H. unfold base_fit in H. rewrite P in H. simpl in H. congruence.
  - cbn [fit] in H. unfold base_fit in H. rewrite P in H. simpl in H. congruence.
  - cbn [fit] in H. destruct (fit order i (Some X) s) as [i1 [er1|]] eqn:E.
    + injection H as _ <-. eapply IH; reflexivity.
    + unfold base_fit in H. rewrite P in H. simpl in H. congruence.
  - eapply fourier_fit_errors; eauto.
Qed.

Lemma c34_rejected order e (X : frame R) s : (forall c, Permutation (order c) c) -> supports_multivariate e = false -> f_levels X <> 0 ->
  exists e', fit order e (Some X) s = (e', Some ValueError) /\ get_base e' = get_base e.
Proof.
  intros O M L. assert (P : is_panel (Some X) = true) by (simpl; destruct (f_levels X); [congruence|reflexivity]).
  destruct e as [m p b|m p q b|m p q r b|i t ps b sc|sp n ps m b f x l]; simpl in M; try discriminate.
  - eexists. unfold fit, base_fit. rewrite P. simpl. split; reflexivity.
  - eexists. unfold fit, base_fit. rewrite P. simpl. split; reflexivity.
  - cbn [fit]. destruct (fit order i (Some X) s) as [i' [er|]] eqn:E.
    + rewrite (fit_panel_errors order X s O L _ _ _ E). eexists. split; reflexivity.
    + unfold base_fit. rewrite P. simpl. eexists. split; reflexivity.
Qed.

(** * C35 *)
Lemma log_total env m sp rp b a pe t : dict_get pe "trend" = Some t -> List.length (a_flat a) = prod_shape (a_shape (trend_column t)) ->
  exists v, yields env (predict (Log m sp rp b) (EArr a) pe) v.
Proof.
  intros T L. eexists. cbn [predict]. apply mode_yields. eexists t, _. split; [exact T|]. split; [apply log_raw_yields; reflexivity|].
  split; [simpl; now rewrite map_length|reflexivity].
Qed.
