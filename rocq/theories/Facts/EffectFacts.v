(** Facts about Model/Effect.v: fitting, transforming *)
From Coq Require Import Reals String Bool ZArith List Lia Lra Permutation.
From Verif.Model Require Import Base Num Regex Frame Arr Expand Prog Likelihood Effect.
From Verif.Spec Require Import FrameSpec ProgSpec EffectSpec.
From Verif.Facts Require Import BaseFacts NumFacts ExpandFacts ProgFacts.
Import ListNotations.
Local Open Scope string_scope.

(** * C23 *)
Lemma unfitted_valueerror e X fh : constructed e -> is_fourier e = false -> transform e X fh = Err ValueError.
Proof.
  intros C N. inversion C as [m p e' H|m p q e' H|m p q r e' H|i t s e' H|sp n s m]; subst; simpl in N; try discriminate N.
  - unfold mk_linear in H. destruct (check_mode m); [|discriminate H]. injection H as <-. reflexivity.
  - unfold mk_log in H. destruct (check_mode m); [|discriminate H]. injection H as <-. reflexivity.
  - unfold mk_hill in H. destruct (check_mode m); [|discriminate H]. injection H as <-. reflexivity.
  - unfold mk_lift in H. destruct (Rltb 0 s); [|discriminate H]. injection H as <-. reflexivity.
Qed.

Lemma unfitted_clone e X fh : no_fourier e = true -> transform (clone e) X fh = Err ValueError.
Proof. destruct e; simpl; try reflexivity. discriminate. Qed.

Lemma fourier_unfitted sp n s m X fh : transform (mk_fourier sp n s m) X fh = Err AttributeError.
Proof. reflexivity. Qed.

(** * fit *)
Lemma base_fit_cols order e X e' : base_fit order e X = (e', None) ->
  b_cols (get_base e') = Some (columns_seen X) /\ b_fitted (get_base e') = Some true.
Proof.
  unfold base_fit. destruct (negb (supports_multivariate e) && is_panel X); [discriminate|].
  assert (G : forall a, get_base (set_fitted a) = mkBase (b_cols (get_base a)) (Some true)) by (intros []; reflexivity).
  assert (I : forall a a' err, inner_fit order a X = (a', err) -> b_cols (get_base a') = b_cols (get_base a)).
  { intros a a' err. destruct a; simpl; try (intros [= <- _]; reflexivity).
    destruct (fourier_fit sp_list terms_list X) as [ff|]; [|intros [= <- _]; reflexivity].
    destruct X as [X|]; [|intros [= <- _]; reflexivity].
    destruct (fourier_transform ff X) as [XF|]; [|intros [= <- _]; reflexivity].
    match goal with |- context [match ?a with Ok _ => _ | Err _ => _ end] => destruct a as [[XE x']|] end;
      [|intros [= <- _]; reflexivity].
    destruct (check_mode mode_arg); intros [= <- _]; reflexivity. }
  destruct (inner_fit order (set_cols e (columns_seen X)) X) as [e1 [err|]] eqn:E; [discriminate|].
  intros [= <-]. rewrite G. simpl. split; [|reflexivity]. rewrite (I _ _ _ E). destruct e; reflexivity.
Qed.

Lemma fit_cols order e X s e' : fit order e X s = (e', None) ->
  b_cols (get_base e') = Some (columns_seen X) /\ b_fitted (get_base e') = Some true.
Proof.
  destruct e; simpl; try apply base_fit_cols.
  destruct (fit order e X s) as [i [err|]]; [discriminate|]. apply base_fit_cols.
Qed.

Lemma fit_input_columns order e X s e' : fit order e X s = (e', None) ->
  input_feature_column_names e' = Ok (columns_seen X).
Proof.
  intros H. pose proof (fit_cols _ _ _ _ _ H) as [C _].
  destruct e; simpl in H.
  1-3: unfold base_fit in H; destruct (negb (supports_multivariate _) && is_panel X); [discriminate|];
       simpl in H; injection H as <-; reflexivity.
  - destruct (fit order e X s) as [i [err|]] eqn:E; [discriminate|].
    pose proof (fit_cols _ _ _ _ _ E) as [Ci _].
    unfold base_fit in H. destruct (negb (supports_multivariate _) && is_panel X); [discriminate|].
    simpl in H. injection H as <-. simpl. now rewrite Ci.
  - assert (F : is_fourier e' = true).
    { clear -H. unfold base_fit in H. simpl in H.
      destruct (fourier_fit sp_list terms_list X) as [ff|]; [|discriminate].
      destruct X as [X|]; [|discriminate].
      destruct (fourier_transform ff X) as [XF|]; [|discriminate].
      match type of H with context [match ?a with Ok _ => _ | Err _ => _ end] => destruct a as [[XE x']|] end;
        [|discriminate].
      destruct (check_mode mode_arg); [|discriminate]. injection H as <-. reflexivity. }
    destruct e'; try discriminate F. simpl in *. now rewrite C.
Qed.

Lemma fit_class order e X s : forall e' err, fit order e X s = (e', err) ->
  skip_if_no_match e' = skip_if_no_match e /\ supports_multivariate e' = supports_multivariate e.
Proof.
  assert (B : forall a a' err, base_fit order a X = (a', err) ->
    skip_if_no_match a' = skip_if_no_match a /\ supports_multivariate a' = supports_multivariate a).
  { intros a a' err. unfold base_fit. destruct (negb (supports_multivariate a) && is_panel X); [intros [= <- _]; auto|].
    destruct (inner_fit order (set_cols a (columns_seen X)) X) as [a1 [e1|]] eqn:E; intros [= <- _].
    - destruct a; simpl in E; try discriminate E.
      destruct (fourier_fit sp_list terms_list X) as [ff|]; [|injection E as <- _; auto].
      destruct X as [X|]; [|injection E as <- _; auto].
      destruct (fourier_transform ff X) as [XF|]; [|injection E as <- _; auto].
      match type of E with context [match ?a with Ok _ => _ | Err _ => _ end] => destruct a as [[XE x']|] end;
        [|injection E as <- _; auto]. destruct (check_mode mode_arg); injection E as <- _; auto.
    - destruct a; simpl in E; try (injection E as <-; auto).
      destruct (fourier_fit sp_list terms_list X) as [ff|]; [|discriminate].
      destruct X as [X|]; [|discriminate].
      destruct (fourier_transform ff X) as [XF|]; [|discriminate].
      match type of E with context [match ?a with Ok _ => _ | Err _ => _ end] => destruct a as [[XE x']|] end;
        [|discriminate]. destruct (check_mode mode_arg); [|discriminate]. injection E as <-; auto. }
  intros e' err. destruct e; simpl; try (intros H; exact (B _ _ _ H)).
  destruct (fit order e X s) as [i [er|]].
  - intros [= <- _]. auto.
  - intros H. exact (B _ _ _ H).
Qed.

Lemma should_skip_fitted order e X s e' : fit order e X s = (e', None) ->
  should_skip_predict e' = Ok (match columns_seen X with [] => skip_if_no_match e | _ => false end).
Proof.
  intros H. pose proof (fit_cols _ _ _ _ _ H) as [C _]. pose proof (fit_class _ _ _ _ _ _ H) as [K _].
  unfold should_skip_predict, should_skip_base. rewrite C. simpl. rewrite K. now destruct (columns_seen X).
Qed.

(** * C25 *)
Lemma in_fh_eq (t : Z) fh : existsb (Z.eqb t) fh = if in_dec Z.eq_dec t fh then true else false.
Proof.
  destruct (in_dec Z.eq_dec t fh) as [H|H].
  - apply existsb_exists. exists t. split; [exact H|]. apply Z.eqb_refl.
  - destruct (existsb (Z.eqb t) fh) eqn:E; [|reflexivity]. apply existsb_exists in E as (x & Hx & E).
    apply Z.eqb_eq in E. subst. tauto.
Qed.

Lemma filter_fh_rows {V} fh (X : frame V) : f_rows (filter_fh fh X) = horizon_rows fh X.
Proof. unfold filter_fh, filter_rows, horizon_rows. simpl. apply filter_ext. intros r. apply in_fh_eq. Qed.

Lemma mapM_cols cols cs :
  mapM (fun c => match col_pos cols c with Some i => Ok i | None => Err KeyError end) cs =
  if forallb (fun c => str_in c cols) cs
  then Ok (map (fun c => match col_pos cols c with Some i => i | None => 0 end) cs) else Err KeyError.
Proof.
  induction cs as [|c cs IH]; simpl; [reflexivity|]. destruct (col_pos cols c) as [i|] eqn:E; simpl.
  - assert (str_in c cols = true) as ->. { apply str_in_iff. apply col_pos_nth in E. eapply nth_error_In; eauto. }
    simpl. rewrite IH. destruct (forallb _ cs); reflexivity.
  - apply col_pos_None in E. apply str_in_false in E. now rewrite E.
Qed.

Lemma select_as_seen (X : frame R) fh cols : frame_wf X ->
  select_columns 0%R (filter_fh fh X) cols =
  match seen cols fh X with
  | None => Err KeyError
  | Some rows => Ok (mkFrame (f_levels X) cols
                       (map (fun x => mkRow (fst (fst x)) (snd (fst x)) (map (fun o => match o with Some v => v | None => 0%R end) (snd x))) rows))
  end.
Proof.
  intros W. unfold select_columns. change (f_cols (filter_fh fh X)) with (f_cols X).
  rewrite mapM_cols. unfold seen. destruct (forallb _ cols) eqn:F; cbn [bind]; [|reflexivity].
  f_equal. change (f_levels (filter_fh fh X)) with (f_levels X). f_equal. rewrite filter_fh_rows. fold (horizon_rows fh X).
  rewrite map_map. apply map_ext_in. intros r Hr. cbn [fst snd]. f_equal. unfold select_vals. rewrite !map_map.
  apply map_ext_in. intros c Hc.
  assert (In r (f_rows X)) as Hr' by (unfold horizon_rows in Hr; apply filter_In in Hr; tauto).
  rewrite forallb_forall in F. apply F in Hc.
  destruct (col_pos (f_cols X) c) as [i|] eqn:E.
  - rewrite (value_of_pos _ _ _ i) by (try apply W; auto).
    destruct (nth_error (r_vals r) i) eqn:En; [now apply nth_error_nth|]. apply nth_overflow. now apply nth_error_None.
  - apply col_pos_None in E. apply str_in_iff in Hc. tauto.
Qed.

Lemma transform_seen (e : effect) cols fh (X X' : frame R) :
  input_feature_column_names e = Ok cols -> frame_wf X -> frame_wf X' -> f_levels X = f_levels X' ->
  seen cols fh X = seen cols fh X' -> transform e (Some X) fh = transform e (Some X') fh.
Proof.
  intros C W W' L E. unfold transform. destruct (attr (b_fitted (get_base e))) as [[]|]; simpl; auto.
  destruct (should_skip_predict e) as [[]|]; simpl; auto. rewrite C. simpl.
  rewrite !select_as_seen by assumption. now rewrite E, L.
Qed.

Lemma fitted_transform_seen order e X0 s e' fh (X X' : frame R) :
  fit order e X0 s = (e', None) -> frame_wf X -> frame_wf X' -> f_levels X = f_levels X' ->
  seen (columns_seen X0) fh X = seen (columns_seen X0) fh X' -> transform e' (Some X) fh = transform e' (Some X') fh.
Proof. intros F. apply transform_seen. eapply fit_input_columns; eauto. Qed.

(** equal on common columns: permuted or additional columns *)
Lemma value_of_perm {V} cols (vals : list V) cols' vals' c : List.length vals = List.length cols -> List.length vals' = List.length cols' ->
  NoDup cols -> NoDup cols' -> Permutation (combine cols vals) (combine cols' vals') ->
  value_of cols vals c = value_of cols' vals' c.
Proof.
  assert (V1 : forall cols (vals : list V) v, List.length vals = List.length cols -> NoDup cols ->
             (value_of cols vals c = Some v <-> In (c, v) (combine cols vals))).
  { clear. induction cols as [|x cols IH]; intros [|w vals] v L N; simpl in *; try discriminate; [intuition congruence|].
    inversion N; subst. destruct (String.eqb_spec c x) as [->|D].
    - split; [intros [= ->]; auto|]. intros [[= ->]|H]; [reflexivity|]. apply in_combine_l in H. tauto.
    - rewrite IH by auto. split; [auto|]. intros [[= -> _]|H]; [congruence|auto]. }
  intros L L' N N' P. destruct (value_of cols vals c) as [v|] eqn:E.
  - symmetry. apply V1; auto. eapply Permutation_in; [exact P|]. now apply V1.
  - destruct (value_of cols' vals' c) as [v|] eqn:E'; [|reflexivity]. exfalso.
    apply V1 in E'; auto. apply (Permutation_in _ (Permutation_sym P)) in E'. apply V1 in E'; auto. congruence.
Qed.

(** * arrays *)
Lemma frame_array_univariate (X : frame R) : f_levels X = 0 ->
  frame_array X = Ok (mkArr [List.length (f_rows X); List.length (f_cols X)] (concat (map r_vals (f_rows X)))).
Proof. intros L. unfold frame_array, series_to_tensor_or_array. rewrite L. simpl. now rewrite map_length. Qed.

(** data of a plain effect on a univariate frame: the values of its columns, in the order of fit *)
Lemma plain_transform order e X0 s e' fh (X : frame R) rows :
  fit order e X0 s = (e', None) -> no_fourier e = true -> is_fourier e = false -> (forall i t p b sc, e <> Lift i t p b sc) ->
  frame_wf X -> f_levels X = 0 -> columns_seen X0 <> [] -> seen (columns_seen X0) fh X = Some rows ->
  transform e' (Some X) fh =
  Ok (EArr (mkArr [List.length rows; List.length (columns_seen X0)]
                  (concat (map (fun x => map (fun o => match o with Some v => v | None => 0%R end) (snd x)) rows)))).
Proof.
  intros F NF NFo NL W L NE Sn. pose proof (fit_cols _ _ _ _ _ F) as [C Fi]. pose proof (fit_input_columns _ _ _ _ _ F) as IC.
  pose proof (should_skip_fitted _ _ _ _ _ F) as SK.
  unfold transform. rewrite Fi. simpl. rewrite SK, IC. destruct (columns_seen X0) as [|c0 cs]; [congruence|]. simpl bind.
  rewrite select_as_seen by assumption. rewrite Sn. cbn [bind].
  assert (T : inner_transform e' = fun X fh => a <- frame_array X ;; Ok (EArr a)).
  { destruct e; try (exfalso; eapply NL; reflexivity); try discriminate; simpl in F;
    unfold base_fit in F; destruct (negb (supports_multivariate _) && is_panel X0); try discriminate;
    simpl in F; injection F as <-; reflexivity. }
  rewrite T. rewrite frame_array_univariate by exact L. cbn [bind f_rows f_cols]. rewrite map_length, map_map. reflexivity.
Qed.

(** * C34 *)
Lemma multivariate_rejected order e (X : frame R) s : supports_multivariate e = false -> f_levels X <> 0 ->
  no_fourier e = true ->
  exists e', fit order e (Some X) s = (e', Some ValueError) /\ get_base e' = get_base e.
Proof.
  intros M L. assert (P : is_panel (Some X) = true) by (simpl; destruct (f_levels X); [congruence|reflexivity]).
  assert (PX : negb (Nat.eqb (f_levels X) 0) = true) by exact P.
  destruct e; simpl in M; try discriminate; intros NF.
  - eexists. unfold fit, base_fit. rewrite P. simpl. split; reflexivity.
  - eexists. unfold fit, base_fit. rewrite P. simpl. split; reflexivity.
  - cbn [fit]. assert (I : forall i, no_fourier i = true -> snd (fit order i (Some X) s) = None \/ snd (fit order i (Some X) s) = Some ValueError).
    { induction i; cbn [fit no_fourier]; intros NFi; try discriminate; try (unfold base_fit; rewrite P; simpl; auto; fail).
      specialize (IHi NFi). destruct (fit order i (Some X) s) as [i' [er|]]; cbn [snd] in IHi |- *; [destruct IHi; auto|].
      unfold base_fit. rewrite P. simpl. auto. }
    specialize (I e NF). destruct (fit order e (Some X) s) as [i [er|]] eqn:E; simpl in I.
    + destruct I as [|[= ->]]; [discriminate|]. eexists. split; reflexivity.
    + unfold base_fit. rewrite P. simpl. eexists. split; reflexivity.
Qed.

Lemma linear_accepts order m p b X s : snd (fit order (Linear m p b) X s) = None.
Proof. unfold fit, base_fit. simpl. reflexivity. Qed.

(** * C33 *)
Lemma refit_same order e X s : no_fourier e = true ->
  forall e1, fit order e X s = (e1, None) -> fit order (clone e) X s = (e1, None).
Proof.
  induction e as [m p b|m p q b|m p q r b|i IH t ps b sc|]; intros NF e1; simpl in NF; try discriminate;
    try (cbn [fit clone]; unfold base_fit; simpl; destruct (is_panel X); simpl; congruence).
  - cbn [fit clone]. destruct (fit order i X s) as [i1 [er|]] eqn:E; [discriminate|].
    rewrite (IH NF i1 eq_refl). unfold base_fit. cbn. destruct (is_panel X); cbn; congruence.
Qed.
