(** Facts about the effects of a forecaster. *)
From Coq Require Import Reals String Bool ZArith List Permutation.
From Verif.Model Require Import Base Num XFloat Regex Frame Arr Expand Aggregate Scale Predict Prog Likelihood Trend Effect
  TrendProg Engine Forecaster.
From Verif.Spec Require Import RegexSpec FrameSpec ProgSpec EffectSpec ForecasterSpec.
From Verif.Facts Require Import BaseFacts RegexFacts FrameFacts ProgFacts MeanFacts EffectFacts.
Import ListNotations.
Local Open Scope string_scope.

Lemma match_columns_In cols re cs : match_columns cols re = Ok cs -> forall c, In c cs <-> In c cols /\ matched re c.
Proof.
  unfold match_columns, matched. intros H c. destruct re as [p|].
  - destruct (compile p) as [r|] eqn:E; [|discriminate]. injection H as <-. rewrite filter_In, re_match_iff. split.
    + intros (I & s' & M). split; [exact I|]. exists p, r, s'. auto.
    + intros (I & p' & r' & s' & [= <-] & E' & M). rewrite E in E'. injection E' as <-. eauto.
  - injection H as <-. simpl. split; [tauto|]. intros (_ & p & r & s' & H & _). discriminate.
Qed.

Section Effects.
Variable order : list string -> list string.

Lemma fit_one_inv (X : frame R) s l f : fit_one order (Some X) s l = Ok f -> fitted_from order s X l f.
Proof.
  destruct l as [[n e] re]. unfold fit_one. intros H.
  destruct (match_columns (f_cols X) re) as [cols|] eqn:M; [|discriminate]. cbn [bind] in H.
  destruct (select_columns 0%R X cols) as [XC|] eqn:S; [|discriminate]. cbn [bind] in H.
  destruct (fit order (clone e) (Some XC) s) as [e' [ex|]] eqn:F; [discriminate|]. injection H as <-.
  split; [reflexivity|]. split; [exact (match_columns_In _ _ _ M)|]. exists XC. auto.
Qed.

Lemma mapM_fit (X : frame R) s effects fitted : mapM (fit_one order (Some X) s) effects = Ok fitted ->
  Forall2 (fitted_from order s X) effects fitted.
Proof.
  intros H. apply mapM_ok in H. induction H; constructor; auto. now apply fit_one_inv.
Qed.

Lemma Forall2_In_both {A B} (P : A -> B -> Prop) l r : Forall2 P l r ->
  (forall a, In a l -> exists b, In b r /\ P a b) /\ (forall b, In b r -> exists a, In a l /\ P a b).
Proof.
  induction 1 as [|a b l r H F [IH1 IH2]]; [split; simpl; tauto|]. split; simpl.
  - intros x [<-|I]; [eauto|]. destruct (IH1 x I) as (y & ? & ?). eauto.
  - intros x [<-|I]; [eauto|]. destruct (IH2 x I) as (y & ? & ?). eauto.
Qed.

Lemma uncovered_In (X : frame R) s effects fitted c : Forall2 (fitted_from order s X) effects fitted ->
  In c (uncovered (f_cols X) fitted) <-> leftover effects X c.
Proof.
  intros F. apply Forall2_In_both in F. destruct F as [F1 F2].
  unfold uncovered, leftover. rewrite str_sort_In, strs_unique_In, filter_In, negb_true_iff. split.
  - intros (I & E). split; [exact I|]. intros l Hl M. destruct (F1 l Hl) as (f & Hf & _ & C & _).
    assert (existsb (fun f => str_in c (snd f)) fitted = true); [|congruence].
    apply existsb_exists. exists f. split; [exact Hf|]. apply str_in_iff. apply C. auto.
  - intros (I & N). split; [exact I|]. destruct (existsb (fun f => str_in c (snd f)) fitted) eqn:E; [|reflexivity].
    apply existsb_exists in E. destruct E as (f & Hf & E). apply str_in_iff in E. destruct (F2 f Hf) as (l & Hl & _ & C & _).
    apply C in E. exfalso. apply (N l Hl). tauto.
Qed.

(** * C40 *)

Lemma fit_effects_inv default effects (X : frame R) s fitted :
  fit_effects order default effects (Some X) s = Ok fitted ->
  exists main dflt, fitted = (main ++ dflt)%list /\ Forall2 (fitted_from order s X) effects main /\
    ((dflt = [] /\ forall c, ~ leftover effects X c) \/
     (exists f, dflt = [f] /\ fe_name f = default_name /\ fe_cols f <> [] /\
        (forall c, In c (fe_cols f) <-> leftover effects X c) /\
        exists XC, select_columns 0%R X (fe_cols f) = Ok XC /\
          fit order (clone (default_of default)) (Some XC) s = (fe_effect f, None))).
Proof.
  unfold fit_effects. intros H. destruct (mapM (fit_one order (Some X) s) effects) as [main|] eqn:M; [|discriminate]. cbn [bind] in H.
  apply mapM_fit in M. pose proof (fun c => uncovered_In X s effects main c M) as U.
  destruct (uncovered (f_cols X) main) as [|c0 cs] eqn:E.
  - injection H as <-. exists main, []. rewrite app_nil_r. split; [reflexivity|]. split; [exact M|]. left. split; [reflexivity|].
    intros c L. apply (U c) in L. contradiction.
  - destruct (select_columns 0%R X (c0 :: cs)) as [XC|] eqn:S; [|discriminate]. cbn [bind] in H.
    fold (default_of default) in H. destruct (fit order (clone (default_of default)) (Some XC) s) as [e' [ex|]] eqn:F; [discriminate|].
    injection H as <-. exists main, [(default_name, e', c0 :: cs)]. split; [reflexivity|]. split; [exact M|]. right.
    exists (default_name, e', c0 :: cs). split; [reflexivity|]. split; [reflexivity|]. split; [discriminate|]. split; [exact U|].
    exists XC. auto.
Qed.
End Effects.

(** * C38 *)
Lemma foldM_inv {A S} (f : S -> A -> res S) (P : S -> list A -> Prop) l0 : forall l done s s',
  (forall done x s s', In x l0 -> P s done -> f s x = Ok s' -> P s' (done ++ [x])%list) ->
  (forall x, In x l -> In x l0) -> P s done -> foldM f s l = Ok s' -> P s' (done ++ l)%list.
Proof.
  induction l as [|x l IH]; intros done s s' Hf I Hp H; simpl in H.
  - injection H as <-. now rewrite app_nil_r.
  - destruct (f s x) as [s1|] eqn:E; [|discriminate]. cbn [bind] in H.
    replace (done ++ x :: l)%list with ((done ++ [x]) ++ l)%list by now rewrite <- app_assoc.
    apply IH with s1; auto; [intros; apply I; simpl; auto|]. eapply Hf; eauto. apply I. simpl. auto.
Qed.

(** data and effects are built in parallel *)
Definition agree (X : frame R) (fh : list Z) (done : list fitted_effect) (ne : string * effect) (nd : string * edata) : Prop :=
  fst ne = fst nd /\ exists f XC, In f done /\ fe_name f = fst ne /\ fe_effect f = snd ne /\
    select_columns 0%R X (fe_cols f) = Ok XC /\ transform (snd ne) (Some XC) fh = Ok (snd nd).

Lemma agree_more X fh done x ne nd : agree X fh done ne nd -> agree X fh (done ++ [x]) ne nd.
Proof.
  intros (E & f & XC & I & H). split; [exact E|]. exists f, XC. split; [apply in_app_iff; auto|exact H].
Qed.

Lemma Forall2_impl {A B} (P Q : A -> B -> Prop) l r : (forall a b, P a b -> Q a b) -> Forall2 P l r -> Forall2 Q l r.
Proof. intros H. induction 1; constructor; auto. Qed.

Lemma Forall2_dict_set {V W} (P : string * V -> string * W -> Prop) d1 d2 n v w :
  Forall2 P d1 d2 -> (forall a b, P a b -> fst a = fst b) -> P (n, v) (n, w) ->
  Forall2 P (dict_set d1 n v) (dict_set d2 n w).
Proof.
  intros F Hk Hn. induction F as [|[k1 v1] [k2 v2] d1 d2 H F IH]; simpl; [constructor; auto|].
  pose proof (Hk _ _ H) as E. simpl in E. subst k2. destruct (String.eqb_spec n k1) as [->|N]; constructor; auto.
Qed.

Lemma transform_non_skipped fitted X fh : forall acc1 acc2 done data,
  Forall2 (agree X fh done) acc2 acc1 ->
  foldM (fun out f =>
           let '(name, e, cols) := f in
           skip <- should_skip_predict e ;;
           if (skip : bool) then Ok out
           else XC <- select_columns 0%R X cols ;; d <- transform e (Some XC) fh ;; Ok (dict_set out name d)) acc1 fitted = Ok data ->
  exists effs, foldM (fun out f =>
           let '(name, e, _) := f in
           skip <- should_skip_predict e ;;
           Ok (if (skip : bool) then out else dict_set out name e)) acc2 fitted = Ok effs /\
    Forall2 (agree X fh (done ++ fitted)) effs data.
Proof.
  induction fitted as [|[[n e] cols] fitted IH]; intros acc1 acc2 done data F H; cbn [foldM] in H |- *.
  - injection H as <-. exists acc2. rewrite app_nil_r. auto.
  - replace (done ++ (n, e, cols) :: fitted)%list with ((done ++ [(n, e, cols)]) ++ fitted)%list by now rewrite <- app_assoc.
    destruct (should_skip_predict e) as [[]|]; cbn [bind] in *; [| |discriminate].
    + apply IH with acc1; [|exact H]. eapply Forall2_impl; [|exact F]. intros; now apply agree_more.
    + destruct (select_columns 0%R X cols) as [XC|] eqn:S; [|discriminate]. cbn [bind] in H.
      destruct (transform e (Some XC) fh) as [d|] eqn:T; [|discriminate]. cbn [bind] in H.
      apply IH with (dict_set acc1 n d); [|exact H]. apply Forall2_dict_set.
      * eapply Forall2_impl; [|exact F]. intros; now apply agree_more.
      * now intros a b [E _].
      * split; [reflexivity|]. exists (n, e, cols), XC. split; [apply in_app_iff; simpl; auto|]. simpl. auto.
Qed.

Lemma effects_data_agree fitted X fh data effs :
  transform_effects fitted X fh = Ok data -> non_skipped fitted = Ok effs -> Forall2 (agree X fh fitted) effs data.
Proof.
  unfold transform_effects, non_skipped. intros H1 H2.
  destruct (transform_non_skipped fitted X fh [] [] [] data (Forall2_nil _) H1) as (effs' & E & A).
  rewrite E in H2. injection H2 as <-. exact A.
Qed.

Lemma agree_keys X fh done effs data : Forall2 (agree X fh done) effs data -> dict_keys data = dict_keys effs.
Proof. induction 1 as [|a b l r [E _] F IH]; [reflexivity|]. simpl. now rewrite IH, E. Qed.

Lemma agree_get X fh done effs data n e : Forall2 (agree X fh done) effs data -> dict_get effs n = Some e ->
  exists d f XC, dict_get data n = Some d /\ In f done /\ fe_name f = n /\ fe_effect f = e /\
    select_columns 0%R X (fe_cols f) = Ok XC /\ transform e (Some XC) fh = Ok d.
Proof.
  induction 1 as [|[n1 e1] [n2 d2] l r [E (f & XC & H)] F IH]; simpl; [discriminate|]. simpl in *. subst n2.
  destruct (String.eqb_spec n n1) as [->|N]; [|exact IH]. intros [= <-]. exists d2, f, XC. tauto.
Qed.

(** * names taking part *)
Lemma non_skipped_spec fitted : forall acc effs,
  foldM (fun out f =>
           let '(name, e, _) := f in
           skip <- should_skip_predict e ;;
           Ok (if (skip : bool) then out else dict_set out name e)) acc fitted = Ok effs ->
  effs = fold_left (fun d ne => dict_set d (fst ne) (snd ne))
           (map (fun f => (fe_name f, fe_effect f)) (filter (fun f => match should_skip_predict (fe_effect f) with Ok true => false | _ => true end) fitted)) acc.
Proof.
  induction fitted as [|[[n e] cols] fitted IH]; intros acc effs H; cbn [foldM] in H.
  - injection H as <-. reflexivity.
  - cbn [filter]. change (fe_effect (n, e, cols)) with e. destruct (should_skip_predict e) as [[]|]; cbn [bind] in H; [| |discriminate];
      exact (IH _ _ H).
Qed.

Lemma non_skipped_list fitted effs : non_skipped fitted = Ok effs ->
  effs = dict_of_list (map (fun f => (fe_name f, fe_effect f))
           (filter (fun f => match should_skip_predict (fe_effect f) with Ok true => false | _ => true end) fitted)).
Proof. apply non_skipped_spec. Qed.

Lemma dict_of_list_keys {V} (l : list (string * V)) : forall acc n,
  In n (dict_keys (fold_left (fun d kv => dict_set d (fst kv) (snd kv)) l acc)) <-> In n (dict_keys acc) \/ In n (map fst l).
Proof.
  induction l as [|[k v] l IH]; intros acc n; simpl; [tauto|]. rewrite IH, dict_keys_set.
  destruct (str_in k (dict_keys acc)) eqn:E.
  - apply str_in_iff in E. split; [tauto|]. intros [H|[->|H]]; auto.
  - rewrite in_app_iff. simpl. tauto.
Qed.

Lemma non_skipped_keys fitted effs n : non_skipped fitted = Ok effs ->
  In n (dict_keys effs) <-> exists f, In f fitted /\ fe_name f = n /\ should_skip_predict (fe_effect f) <> Ok true.
Proof.
  intros H. rewrite (non_skipped_list _ _ H). unfold dict_of_list. rewrite dict_of_list_keys. cbn [dict_keys map In].
  rewrite map_map, in_map_iff. split.
  - intros [[]|(f & <- & I)]. apply filter_In in I. exists f. destruct I as [I S]. repeat split; auto.
    intros E. now rewrite E in S.
  - intros (f & I & <- & S). right. exists f. split; [reflexivity|]. apply filter_In. split; [exact I|].
    destruct (should_skip_predict (fe_effect f)) as [[]|]; congruence.
Qed.

Lemma select_columns_cols {V} (d : V) X cols XC : select_columns d X cols = Ok XC ->
  f_cols XC = cols /\ List.length (f_rows XC) = List.length (f_rows X) /\ f_levels XC = f_levels X.
Proof.
  unfold select_columns. destruct (mapM _ cols); [|discriminate]. cbn [bind]. intros [= <-]. simpl. now rewrite map_length.
Qed.

Lemma clone_skip e : skip_if_no_match (clone e) = skip_if_no_match e.
Proof. now destruct e. Qed.

Lemma columns_seen_rows (XC : frame R) : f_rows XC <> [] -> columns_seen (Some XC) = f_cols XC.
Proof.
  intros N. unfold columns_seen, frame_empty. destruct (f_cols XC); [reflexivity|]. destruct (f_rows XC); [congruence|reflexivity].
Qed.

(** whether a fitted entry takes part *)
Lemma fitted_skip order s X l f : fitted_from order s X l f -> f_rows X <> [] ->
  (should_skip_predict (fe_effect f) <> Ok true <->
   participates X l).
Proof.
  unfold participates. intros (_ & C & XC & S & F) N. rewrite (should_skip_fitted _ _ _ _ _ F), clone_skip.
  apply select_columns_cols in S. destruct S as (SC & SR & _).
  rewrite columns_seen_rows by (destruct (f_rows XC), (f_rows X); simpl in *; congruence).
  rewrite SC. destruct (fe_cols f) as [|c cs] eqn:E.
  - split; [intros H; left; now destruct (skip_if_no_match (l_effect l))|].
    intros [->|(c & H)]; [discriminate|]. apply C in H. contradiction.
  - split; [|discriminate]. intros _. right. exists c. apply C. now left.
Qed.
