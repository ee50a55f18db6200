(** Exogenous columns in other units: effects. *)
From Coq Require Import Reals Lra ZArith String Ascii Bool List Lia.
From Verif.Model Require Import Base Num Frame Arr Prog Likelihood Effect Trend TrendProg Scale Expand Forecaster.
From Verif.Spec Require Import FrameSpec ProgSpec EffectSpec ForecasterSpec CounterSpec RescaleSpec.
From Verif.Facts Require Import BaseFacts FrameFacts ExpandFacts NumFacts ProgFacts MeanFacts PosteriorFacts ForecasterFacts ForecasterInv HorizonFacts CounterFrames RescaleFrames.
Import ListNotations.
Local Open Scope string_scope.

(** * Fitting *)
Lemma units_seen k X X' : units_of k X X' -> columns_seen (Some X) = columns_seen (Some X').
Proof. intros (L & C & F). unfold columns_seen, frame_empty. rewrite <- C. destruct (f_cols X); [reflexivity|]. now destruct F. Qed.
Lemma units_rows_of_path k X X' p : units_of k X X' -> Forall2 (units_row (f_cols X) k) (rows_of X p) (rows_of X' p).
Proof.
  intros (_ & _ & F). unfold rows_of. induction F as [|r r' l l' A F IH]; [constructor|]. cbn [filter]. pose proof A as (P & T & _). rewrite P. destruct (path_eqb _ _); [constructor|]; auto.
Qed.
Lemma units_series k X X' : units_of k X X' ->
  Forall2 (fun s s' => fst s = fst s' /\ Forall2 (units_row (f_cols X) k) (snd s) (snd s')) (iterate_all_series X) (iterate_all_series X').
Proof.
  intros H. unfold iterate_all_series. rewrite <- (units_ids _ _ _ H). induction (series_ids X) as [|p l IH]; constructor; [|exact IH]. split; [reflexivity|]. now apply units_rows_of_path.
Qed.

Lemma units_fourier_fit k X X' sp tl : units_of k X X' -> fourier_fit sp tl (Some X) = fourier_fit sp tl (Some X').
Proof.
  intros H. unfold fourier_fit. do 2 (destruct (_ : bool); [reflexivity|]). pose proof H as (_ & _ & F).
  assert (S : map (fun s => (fst s, match map r_time (snd s) with [] => 0%Z | t :: ts => min_time t ts end)) (iterate_all_series X) =
              map (fun s => (fst s, match map r_time (snd s) with [] => 0%Z | t :: ts => min_time t ts end)) (iterate_all_series X')).
  { pose proof (units_series _ _ _ H) as S. induction S as [|[p rs] [p' rs'] l l' (A & B) S IH]; [reflexivity|]. cbn [map]. rewrite IH. f_equal. cbn [fst snd] in *. subst p'. f_equal.
    assert (E : map r_time rs = map r_time rs') by (clear -B; induction B as [|r r' l l' (_ & T & _) B IH]; simpl; congruence). now rewrite E. }
  rewrite S. now destruct F.
Qed.
Lemma units_fourier k X X' ff : units_of k X X' -> fourier_transform ff X = fourier_transform ff X'.
Proof.
  intros (L & _ & F). unfold fourier_transform. rewrite <- L. assert (S : mapM (fun r => m <- find_min (ff_min ff) (r_path r) ;; Ok (mkRow (r_path r) (r_time r) (fourier_vals (ff_pairs ff) (r_time r - m)))) (f_rows X) =
    mapM (fun r => m <- find_min (ff_min ff) (r_path r) ;; Ok (mkRow (r_path r) (r_time r) (fourier_vals (ff_pairs ff) (r_time r - m)))) (f_rows X')); [|now rewrite S].
  induction F as [|r r' l l' (P & T & _) F IH]; [reflexivity|]. cbn [mapM]. rewrite P, T, IH. reflexivity.
Qed.
Lemma units_inner_fit order k X X' ef : units_of k X X' -> inner_fit order ef (Some X) = inner_fit order ef (Some X').
Proof.
  intros H. destruct ef; try reflexivity. cbn [inner_fit]. rewrite (units_fourier_fit _ _ _ _ _ H). destruct (fourier_fit _ _ _) as [ff|]; [|reflexivity]. now rewrite (units_fourier _ _ _ ff H).
Qed.
Lemma units_base_fit order k X X' ef : units_of k X X' -> base_fit order ef (Some X) = base_fit order ef (Some X').
Proof.
  intros H. unfold base_fit, is_panel. rewrite <- (proj1 H), <- (units_seen _ _ _ H). destruct (_ && _); [reflexivity|]. now rewrite (units_inner_fit order _ _ _ _ H).
Qed.
Lemma units_fit_effect order k X X' scale ef : units_of k X X' -> fit order ef (Some X) scale = fit order ef (Some X') scale.
Proof.
  intros H. induction ef; try exact (units_base_fit order _ _ _ _ H). cbn [fit]. rewrite IHef. destruct (fit order ef (Some X') scale) as [i [x|]]; [reflexivity|]. exact (units_base_fit order _ _ _ _ H).
Qed.

Lemma units_fit_one order k X X' scale l : units_of k X X' -> fit_one order (Some X) scale l = fit_one order (Some X') scale l.
Proof.
  intros H. destruct l as [[name ef] regex]. unfold fit_one. rewrite <- (proj1 (proj2 H)). destruct (Regex.match_columns _ _) as [cols|]; [|reflexivity]. cbn [bind].
  pose proof (units_select k X X' cols H) as S. unfold units_res in S. destruct (select_columns 0%R X cols), (select_columns 0%R X' cols); try contradiction; cbn [bind]; [|now subst].
  now rewrite (units_fit_effect order _ _ _ _ _ S).
Qed.
Lemma units_fit_effects order k X X' default effects scale : units_of k X X' ->
  fit_effects order default effects (Some X) scale = fit_effects order default effects (Some X') scale.
Proof.
  intros H. unfold fit_effects. assert (M : mapM (fit_one order (Some X) scale) effects = mapM (fit_one order (Some X') scale) effects).
  { induction effects as [|l effects IH]; [reflexivity|]. cbn [mapM]. now rewrite IH, (units_fit_one order _ _ _ _ _ H). }
  rewrite M. clear M. destruct (mapM _ effects) as [fitted|]; [|reflexivity]. cbn [bind]. rewrite <- (proj1 (proj2 H)). destruct (uncovered _ _) as [|c cs]; [reflexivity|].
  pose proof (units_select k X X' (c :: cs) H) as S. unfold units_res in S. destruct (select_columns 0%R X (c :: cs)), (select_columns 0%R X' (c :: cs)); try contradiction; cbn [bind]; [|now subst].
  now rewrite (units_fit_effect order _ _ _ _ _ S).
Qed.

(** * Prepared data *)
Definition units_arr (ks : list R) (a a' : arr) : Prop :=
  a_shape a' = a_shape a /\ (exists sh, a_shape a = (sh ++ [List.length ks])%list) /\
  exists rows, Forall (fun r => List.length r = List.length ks) rows /\ a_flat a = concat rows /\ a_flat a' = concat (map (scale_vals ks) rows).
Fixpoint units_data (ks : list R) (ef : effect) (x x' : edata) : Prop :=
  match ef with
  | Lift inner _ _ _ _ => exists d d' l, x = ELift d l /\ x' = ELift d' l /\ units_data ks inner d d'
  | Fourier _ _ _ _ _ _ _ _ => x' = x
  | _ => exists a a', x = EArr a /\ x' = EArr a' /\ units_arr ks a a'
  end.

Lemma tensor_units k cols l l' : Forall2 (fun s s' : path * list (row R) => fst s = fst s' /\ Forall2 (units_row cols k) (snd s) (snd s')) l l' ->
  forall len acc, Forall (Forall (fun r => List.length r = List.length cols)) acc ->
  match foldM (fun st s => let '(len, acc) := st in let rows := snd s in let len' := match len with None => List.length rows | Some n => n end in
                 if Nat.eqb (List.length rows) len' then Ok (Some len', (acc ++ [map r_vals rows])%list) else Err ValueError) (len, acc) l,
        foldM (fun st s => let '(len, acc) := st in let rows := snd s in let len' := match len with None => List.length rows | Some n => n end in
                 if Nat.eqb (List.length rows) len' then Ok (Some len', (acc ++ [map r_vals rows])%list) else Err ValueError) (len, map (map (scale_vals (map k cols))) acc) l' with
  | Ok (_, o), Ok (_, o') => Forall (Forall (fun r => List.length r = List.length cols)) o /\ o' = map (map (scale_vals (map k cols))) o
  | Err x, Err x' => x = x' | _, _ => False end.
Proof.
  induction 1 as [|[p rs] [p' rs'] l l' (_ & B) F IH]; intros len acc W; [split; [exact W|reflexivity]|]. cbn [foldM]. cbn [fst snd] in *.
  rewrite <- (Forall2_len _ _ _ B). destruct (Nat.eqb _ _); cbn [bind]; [|reflexivity].
  assert (E : map r_vals rs' = map (scale_vals (map k cols)) (map r_vals rs)) by (clear -B; induction B as [|r r' l l' (_ & _ & _ & E) B IH]; simpl; congruence).
  rewrite E. specialize (IH (Some match len with None => List.length rs | Some n => n end) (acc ++ [map r_vals rs])%list). rewrite map_app in IH. apply IH.
  apply Forall_app. split; [exact W|]. constructor; [|constructor]. clear -B. induction B as [|r r' l l' (_ & _ & W & _) B IH]; constructor; auto.
Qed.

Lemma concat_rows {A} (series : list (list (list A))) : concat (map (@concat A) series) = concat (concat series).
Proof. induction series as [|s l IH]; [reflexivity|]. cbn [map concat]. now rewrite IH, concat_app. Qed.

Lemma units_array k X X' : units_of k X X' ->
  match frame_array X, frame_array X' with Ok a, Ok a' => units_arr (map k (f_cols X)) a a' | Err x, Err x' => x = x' | _, _ => False end.
Proof.
  intros H. pose proof H as (L & C & F). unfold frame_array, series_to_tensor_or_array, series_to_tensor. rewrite <- L, <- C.
  destruct (f_levels X) as [|n]; cbn [bind arr_of_data].
  - unfold units_arr. cbn [a_shape a_flat]. rewrite !map_length. split; [now rewrite (Forall2_len _ _ _ F)|]. split; [eexists [_]; reflexivity|].
    exists (map r_vals (f_rows X)). split; [|split; [reflexivity|]].
    + clear -F. induction F as [|r r' l l' (_ & _ & W & _) F IH]; constructor; auto.
    + f_equal. clear -F. induction F as [|r r' l l' (_ & _ & _ & E) F IH]; simpl; congruence.
  - pose proof (tensor_units k (f_cols X) _ _ (units_series _ _ _ H) None [] (Forall_nil _)) as T. cbn [map] in T.
    destruct (foldM _ _ (iterate_all_series X)) as [[? o]|], (foldM _ _ (iterate_all_series X')) as [[? o']|]; try contradiction; cbn [bind arr_of_data]; [|exact T].
    destruct T as [W ->]. unfold units_arr. cbn [a_shape a_flat]. rewrite !map_length. split.
    { destruct o as [|s o]; [reflexivity|]. cbn [map]. now rewrite map_length. }
    split; [eexists [_; _]; reflexivity|]. exists (concat o). rewrite !concat_rows, concat_map. split; [|split; reflexivity].
    clear -W. induction W as [|s o A W IH]; [constructor|]. cbn [concat]. apply Forall_app. auto.
Qed.

Lemma units_inner k X X' fh ef : units_of k X X' ->
  match inner_transform ef X fh, inner_transform ef X' fh with Ok x, Ok x' => units_data (map k (f_cols X)) ef x x' | Err x, Err x' => x = x' | _, _ => False end.
Proof.
  intros H. assert (G : match (a <- frame_array X ;; Ok (EArr a)), (a <- frame_array X' ;; Ok (EArr a)) with
     Ok x, Ok x' => exists a a', x = EArr a /\ x' = EArr a' /\ units_arr (map k (f_cols X)) a a' | Err x, Err x' => x = x' | _, _ => False end).
  { pose proof (units_array _ _ _ H) as A. destruct (frame_array X), (frame_array X'); try contradiction; cbn [bind]; eauto. }
  induction ef as [m d b|m d q b|m d q r b|inner IH t ps b s|sp tl ps m b ff x l]; try exact G; cbn [inner_transform units_data].
  - destruct (inner_transform inner X fh), (inner_transform inner X' fh); try contradiction; cbn [bind]; [|exact IH]. destruct (attr s); cbn [bind]; [eauto 8|reflexivity].
  - destruct (attr ff) as [f|]; cbn [bind]; [|reflexivity]. rewrite (units_fourier _ _ _ f H). match goal with |- match ?a with _ => _ end => destruct a; reflexivity end.
Qed.

Lemma units_transform k X X' fh ef : units_of k X X' ->
  match transform ef (Some X) fh, transform ef (Some X') fh with
  | Ok x, Ok x' => (x = ENothing /\ x' = ENothing /\ should_skip_predict ef = Ok true) \/ exists cols, input_feature_column_names ef = Ok cols /\ units_data (map k cols) ef x x' | Err x, Err x' => x = x' | _, _ => False end.
Proof.
  intros H. unfold transform. destruct (attr (b_fitted (get_base ef))) as [[|]|]; cbn [bind negb]; try reflexivity. destruct (should_skip_predict ef) as [[|]|]; cbn [bind]; try reflexivity; [auto|].
  destruct (input_feature_column_names ef) as [cols|]; cbn [bind]; [|reflexivity].
  pose proof (units_select k _ _ cols (units_fh _ fh _ _ H)) as S. unfold units_res in S.
  destruct (select_columns 0%R (filter_fh fh X) cols) as [B|] eqn:E, (select_columns 0%R (filter_fh fh X') cols) as [B'|]; try contradiction; cbn [bind]; [|exact S].
  pose proof (units_inner k B B' fh ef S) as I. assert (EC : f_cols B = cols) by (unfold select_columns in E; inv_bind E; now injection E as <-); rewrite EC in I.
  destruct (inner_transform ef B fh), (inner_transform ef B' fh); try contradiction; [|exact I]. right. eauto.
Qed.

(** what is prepared under a name belongs to the effect which is called under that name *)
Definition dict_units (k : string -> R) (effs : dict effect) (d d' : dict edata) : Prop :=
  map fst d = map fst d' /\ forall name x x', dict_get d name = Some x -> dict_get d' name = Some x' ->
    exists ef cols, dict_get effs name = Some ef /\ input_feature_column_names ef = Ok cols /\ units_data (map k cols) ef x x'.

Lemma dict_set_fst {V W} (d : dict V) (d' : dict W) n v w : map fst d = map fst d' -> map fst (dict_set d n v) = map fst (dict_set d' n w).
Proof.
  revert d'. induction d as [|[a b] d IH]; intros [|[a' b'] d'] H; try discriminate; [reflexivity|]. cbn [map fst] in H. injection H as -> H. cbn [dict_set].
  destruct (String.eqb n a'); cbn [map fst]; f_equal; auto.
Qed.

Lemma units_transform_effects k X X' fitted effs fh : units_of k X X' -> non_skipped fitted = Ok effs ->
  match transform_effects fitted X fh, transform_effects fitted X' fh with Ok d, Ok d' => dict_units k effs d d' | Err x, Err x' => x = x' | _, _ => False end.
Proof.
  intros H. unfold transform_effects, non_skipped.
  assert (G : forall l acc acc' effs0, dict_units k effs0 acc acc' ->
    foldM (fun out f => let '(name, e, _) := f in skip <- should_skip_predict e ;; Ok (if (skip : bool) then out else dict_set out name e)) effs0 l = Ok effs ->
    match foldM (fun out f => let '(name, e, cols) := f in skip <- should_skip_predict e ;; if (skip : bool) then Ok out
           else XC <- select_columns 0%R X cols ;; d <- transform e (Some XC) fh ;; Ok (dict_set out name d)) acc l,
      foldM (fun out f => let '(name, e, cols) := f in skip <- should_skip_predict e ;; if (skip : bool) then Ok out
           else XC <- select_columns 0%R X' cols ;; d <- transform e (Some XC) fh ;; Ok (dict_set out name d)) acc' l with
    | Ok d, Ok d' => dict_units k effs d d' | Err x, Err x' => x = x' | _, _ => False end).
  { induction l as [|[[name ef] cols] l IH]; intros acc acc' effs0 A N; cbn [foldM] in *; [injection N as <-; exact A|].
    destruct (should_skip_predict ef) as [[|]|] eqn:SK; cbn [bind] in *; [now apply (IH _ _ effs0)| |reflexivity].
    pose proof (units_select k X X' cols H) as S. unfold units_res in S. destruct (select_columns 0%R X cols) as [B|], (select_columns 0%R X' cols) as [B'|]; try contradiction; cbn [bind]; [|exact S].
    pose proof (units_transform k B B' fh ef S) as T. destruct (transform ef (Some B) fh) as [x|], (transform ef (Some B') fh) as [x'|]; try contradiction; cbn [bind]; [|exact T].
    refine (IH _ _ _ _ N). destruct T as [(_ & _ & T)|(cs & IC & T)]; [congruence|]. destruct A as [A1 A2]. split; [now apply dict_set_fst|].
    intros n z z'. rewrite !dict_get_set. destruct (String.eqb_spec n name) as [->|NE]; [|apply A2]. intros [= <-] [= <-]. exists ef, cs. auto. }
  apply G. split; [reflexivity|]. discriminate.
Qed.
