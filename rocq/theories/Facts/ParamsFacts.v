(** Constructor validation, effect setters, seasonal_transformer. *)
From Coq Require Import Reals String Bool ZArith List Lra Lia.
From Verif.Model Require Import Base Num XFloat Params Effect TrendProg Forecaster.
From Verif.Spec Require Import ParamsSpec.
From Verif.Facts Require Import BaseFacts NumFacts.
Import ListNotations.
Local Open Scope string_scope.

Lemma check_positive_cases x : (check_positive x = Ok tt /\ (positive x \/ x = XNaN)) \/
  (check_positive x = Err ValueError /\ ~ positive x /\ x <> XNaN).
Proof.
  unfold check_positive, positive. destruct x as [r| | |]; simpl.
  - unfold Rleb. destruct (Rle_dec r 0); [right|left]; (split; [reflexivity|]); [split; [lra|discriminate]|left; lra].
  - left. auto.
  - left. auto.
  - right. repeat split; auto. discriminate.
Qed.

Lemma check_positive_ok x : check_positive x = Ok tt <-> positive x \/ x = XNaN.
Proof. destruct (check_positive_cases x) as [[-> H]|(-> & H1 & H2)]; split; auto; try discriminate; intros [H|H]; contradiction. Qed.
Lemma check_positive_err x e : check_positive x = Err e -> e = ValueError.
Proof. destruct (check_positive_cases x) as [[-> H]|(-> & H1 & H2)]; congruence. Qed.

Lemma bind_ok_tt (m : res unit) (k : res unit) : (_ <- m ;; k) = Ok tt <-> m = Ok tt /\ k = Ok tt.
Proof. destruct m as [[]|]; cbn [bind]; split; try tauto; try discriminate. Qed.

Lemma trend_ok h : match h_trend h with
  | TVName s => if str_in s trend_names then Ok tt else Err ValueError
  | TVEffect => Ok tt
  | TVOther => Err ValueError
  end = Ok tt <-> known_trend h.
Proof.
  unfold known_trend. destruct (h_trend h) as [s| |].
  - destruct (str_in s trend_names) eqn:E.
    + split; auto. intros _. apply str_in_iff in E. right. exists s. split; [reflexivity|]. simpl in E. intuition auto.
    + apply str_in_false in E. split; [discriminate|]. intros [H|(s' & [= <-] & H)]; [discriminate|]. exfalso. apply E. simpl. intuition auto.
  - split; auto.
  - split; [discriminate|]. intros [H|(s' & H & _)]; discriminate.
Qed.

(** accepted exactly if every number is positive or NaN and names are known *)
Lemma validate_exact hier h : validate hier h = Ok tt <->
  (forall x, In x (numbers hier h) -> positive x \/ x = XNaN) /\ known_trend h /\ known_likelihood hier h.
Proof.
  unfold validate, validate_hierarchical, validate_univariate, validate_base, known_likelihood, numbers.
  assert (L : (if str_in (h_likelihood h) likelihood_names then Ok tt else Err ValueError) = Ok tt <->
    h_likelihood h = "normal" \/ h_likelihood h = "gamma" \/ h_likelihood h = "negbinomial").
  { destruct (str_in (h_likelihood h) likelihood_names) eqn:E.
    - apply str_in_iff in E. simpl in E. split; auto. intros _. intuition auto.
    - apply str_in_false in E. split; [discriminate|]. intros H. exfalso. apply E. simpl. intuition auto. }
  destruct hier; rewrite ?bind_ok_tt, ?check_positive_ok, trend_ok, ?L; simpl.
  - split.
    + intros ((H1 & H2 & H3 & H4 & H5 & H6) & H7 & H8). repeat split; auto. intros x H. intuition subst; auto.
    + intros (H & H1 & _). repeat split; auto 10.
  - split.
    + intros ((H1 & H2 & H3 & H4 & H5 & H6) & H7 & H8). repeat split; auto. intros x H. intuition subst; auto.
    + intros (H & H1 & [H2|H2]); [discriminate|]. repeat split; auto 10.
Qed.

Lemma validate_error hier h e : validate hier h = Err e -> e = ValueError.
Proof.
  unfold validate, validate_hierarchical, validate_univariate, validate_base. intros H.
  assert (B : forall (m k : res unit) e, (_ <- m ;; k) = Err e -> m = Err e \/ k = Err e) by (intros m k e1; destruct m as [[]|]; cbn [bind]; auto).
  destruct hier; repeat match goal with H : (_ <- _ ;; _) = Err _ |- _ => apply B in H; destruct H as [H|H] end;
    try (now apply check_positive_err in H); destruct (h_trend h); try destruct (str_in _ _); congruence.
Qed.

(** without NaN: accepted iff positive and known *)
Lemma validate_partial hier h : (forall x, In x (numbers hier h) -> x <> XNaN) ->
  (validate hier h = Ok tt <-> (forall x, In x (numbers hier h) -> positive x) /\ known_trend h /\ known_likelihood hier h).
Proof.
  intros N. rewrite validate_exact. split; intros (H & H1 & H2); repeat split; auto.
  intros x Hx. destruct (H x Hx) as [P|P]; [exact P|]. exfalso. exact (N x Hx P).
Qed.

Lemma validated_builds hier h : validate hier h = Ok tt -> exists t, build_trend h = Ok t.
Proof.
  rewrite validate_exact. intros (_ & [H|(s & H & K)] & _); unfold build_trend; rewrite H; [eauto|].
  destruct K as [->|[->|[->| ->]]]; cbn; eauto.
Qed.

Lemma trend_arguments h t : build_trend h = Ok t <->
  (h_trend h = TVName "linear" /\ t = BLinear (h_interval h) (h_changepoint_scale h) (h_offset_scale h) true) \/
  (h_trend h = TVName "linear_raw" /\ t = BLinear (h_interval h) (h_changepoint_scale h) (h_offset_scale h) false) \/
  (h_trend h = TVName "logistic" /\ t = BLogistic (h_interval h) (h_changepoint_scale h) (h_offset_scale h) (h_capacity_scale h) (h_capacity_loc h)) \/
  (h_trend h = TVName "flat" /\ t = BFlat (h_changepoint_scale h)) \/
  (h_trend h = TVEffect /\ t = BObject).
Proof.
  unfold build_trend. split.
  - destruct (h_trend h) as [s| |]; [|intros [= <-]; intuition|discriminate].
    destruct (String.eqb_spec s "linear") as [->|]; [intros [= <-]; intuition|]. destruct (String.eqb_spec s "linear_raw") as [->|]; [intros [= <-]; intuition|].
    destruct (String.eqb_spec s "logistic") as [->|]; [intros [= <-]; intuition|]. destruct (String.eqb_spec s "flat") as [->|]; [intros [= <-]; intuition|discriminate].
  - intros [(-> & ->)|[(-> & ->)|[(-> & ->)|[(-> & ->)|(-> & ->)]]]]; reflexivity.
Qed.

(** the same for the forecaster of Forecaster.v *)
Lemma validated_named c s : (exists t, named_trend c s = Ok t) <-> s = "linear" \/ s = "linear_raw" \/ s = "logistic" \/ s = "flat".
Proof.
  unfold named_trend. split.
  - intros (t & H). destruct (String.eqb s "linear") eqn:E1; [apply String.eqb_eq in E1; auto|].
    destruct (String.eqb s "linear_raw") eqn:E2; [apply String.eqb_eq in E2; auto|].
    destruct (String.eqb s "logistic") eqn:E3; [apply String.eqb_eq in E3; auto|].
    destruct (String.eqb s "flat") eqn:E4; [apply String.eqb_eq in E4; auto|discriminate].
  - intros [->|[->|[->| ->]]]; cbn; eauto.
Qed.

(** * Setters *)
Section Setters.
Context {E : Type}.

Lemma rebind_pairs (new : list (string * E)) (l : entries E) :
  mapM (fun vo => rebind (fst vo) (snd vo)) (combine (map (fun ne => Pair (fst ne) (snd ne)) new) l) =
  Ok (map (fun no => (fst (fst no), snd (fst no), snd (snd no))) (combine new l)).
Proof.
  revert l. induction new as [|[n e] new IH]; intros [|o l]; try reflexivity. cbn [map combine mapM fst snd rebind bind].
  rewrite IH. reflexivity.
Qed.

Lemma set_pairs (new : list (string * E)) (l : entries E) : new <> [] ->
  set_effects (map (fun ne => Pair (fst ne) (snd ne)) new) (Some l) =
  Ok (map (fun no => (fst (fst no), snd (fst no), snd (snd no))) (combine new l)).
Proof.
  intros N. unfold set_effects. destruct new as [|[n e] new]; [congruence|]. cbn [map fst snd item_len Nat.eqb orb negb].
  replace (forallb _ _) with true; [cbn [negb]; exact (rebind_pairs ((n, e) :: new) l)|].
  symmetry. apply forallb_forall. intros v Hv. assert (item_len v = 2) as ->; [|reflexivity].
  destruct Hv as [<-|Hv]; [reflexivity|]. apply in_map_iff in Hv. destruct Hv as ([n' e'] & <- & _). reflexivity.
Qed.

(** an equally long list keeps every pattern at its position *)
Lemma set_keeps (new : list (string * E)) (l : entries E) : new <> [] -> List.length new = List.length l ->
  exists l', set_effects (map (fun ne => Pair (fst ne) (snd ne)) new) (Some l) = Ok l' /\
    List.length l' = List.length l /\ map snd l' = map snd l /\ get_effects (Some l') = new.
Proof.
  intros N L. rewrite set_pairs by exact N. eexists. split; [reflexivity|]. rewrite map_length, combine_length, L, Nat.min_id. split; [reflexivity|].
  cbn [get_effects]. rewrite !map_map. cbn [fst snd]. clear N. revert l L. induction new as [|[n e] new IH]; intros [|o l] L; try discriminate; [auto|].
  cbn [combine map fst snd]. destruct (IH l) as [-> ->]; [simpl in L; lia|]. auto.
Qed.

(** writing back what was read changes nothing *)
Lemma set_get (l : entries E) : l <> [] -> set_effects (map (fun ne => Pair (fst ne) (snd ne)) (get_effects (Some l))) (Some l) = Ok l.
Proof.
  intros N. rewrite set_pairs; [|destruct l; [congruence|discriminate]]. f_equal. cbn [get_effects]. clear N.
  induction l as [|[[n e] r] l IH]; [reflexivity|]. cbn [map combine fst snd]. now rewrite IH.
Qed.

(** a shorter list drops the entries at the end *)
Lemma set_truncates (new : list (string * E)) (l : entries E) : new <> [] -> List.length new < List.length l ->
  exists l', set_effects (map (fun ne => Pair (fst ne) (snd ne)) new) (Some l) = Ok l' /\ List.length l' = List.length new.
Proof. intros N L. rewrite set_pairs by exact N. eexists. split; [reflexivity|]. rewrite map_length, combine_length. lia. Qed.

Lemma set_empty l : set_effects (E := E) [] l = Err IndexError.
Proof. reflexivity. Qed.
Lemma set_none (v : item E) value : Forall (fun w => item_len w = 2) (v :: value) -> set_effects (v :: value) None = Err TypeError.
Proof.
  intros F. unfold set_effects. inversion F as [|? ? H F']; subst. rewrite H. cbn [Nat.eqb orb negb].
  replace (forallb _ _) with true; [reflexivity|]. symmetry. apply forallb_forall. intros w Hw. rewrite Forall_forall in F. now rewrite (F w Hw).
Qed.
(** triples, although accepted by the first assertion, always fail unless there is no effect *)
Lemma set_triples n e r (value : list (item E)) o l :
  Forall (fun w => item_len w = 3) value -> set_effects (Triple n e r :: value) (Some (o :: l)) = Err ValueError.
Proof.
  intros F. unfold set_effects. cbn [item_len Nat.eqb orb negb].
  replace (forallb _ _) with true; [reflexivity|]. symmetry. apply forallb_forall. intros w [<-|Hw]; [reflexivity|].
  rewrite Forall_forall in F. now rewrite (F w Hw).
Qed.

Lemma replace_first_length name new (l : list (string * E)) : List.length (replace_first name new l) = List.length l.
Proof. induction l as [|[n e] l IH]; [reflexivity|]. simpl. destruct (String.eqb n name); simpl; auto. Qed.
Lemma replace_first_names name new (l : list (string * E)) : map fst (replace_first name new l) = map fst l.
Proof. induction l as [|[n e] l IH]; [reflexivity|]. simpl. destruct (String.eqb n name) eqn:K; simpl; [apply String.eqb_eq in K; congruence|now rewrite IH]. Qed.

(** replacing one effect by name keeps names and patterns, and all other effects *)
Lemma set_param_keeps name new (l : entries E) : l <> [] ->
  exists l', set_param name new (Some l) = Ok l' /\ map (fun x => fst (fst x)) l' = map (fun x => fst (fst x)) l /\
    map snd l' = map snd l /\
    forall i n e r, nth_error l i = Some (n, e, r) ->
      (n <> name -> nth_error l' i = Some (n, e, r)) /\
      (n = name -> (forall j e' r', j < i -> nth_error l j <> Some (name, e', r')) -> nth_error l' i = Some (n, new, r)).
Proof.
  intros N. unfold set_param. set (new_l := replace_first name new (get_effects (Some l))).
  assert (NL : List.length new_l = List.length l) by (unfold new_l; rewrite replace_first_length; cbn; now rewrite map_length).
  assert (NN : new_l <> []) by (intros H; rewrite H in NL; destruct l; [congruence|discriminate]).
  destruct (set_keeps new_l l NN NL) as (l' & S & L' & R' & G'). exists l'. split; [exact S|].
  assert (M : map (fun x => fst (fst x)) l' = map (fun x => fst (fst x)) l).
  { assert (map (fun x => fst (fst x)) l' = map fst new_l) as -> by (rewrite <- G'; cbn; now rewrite map_map).
    unfold new_l. rewrite replace_first_names. cbn. now rewrite map_map. }
  split; [exact M|]. split; [exact R'|]. intros i n e r Hi.
  assert (X : forall n' e', nth_error new_l i = Some (n', e') -> nth_error l' i = Some (n', e', r)).
  { intros n' e' H. rewrite <- G' in H. cbn in H. rewrite nth_error_map in H. destruct (nth_error l' i) as [[[n1 e1] r1]|] eqn:Q; [|discriminate].
    cbn in H. injection H as -> ->. f_equal. f_equal. assert (nth_error (map snd l') i = nth_error (map snd l) i) as W by now rewrite R'.
    rewrite !nth_error_map, Q, Hi in W. cbn in W. congruence. }
  clear S L' R' G' M NL NN. split.
  - intros D. apply X. unfold new_l. clear X. cbn [get_effects]. revert i Hi. induction l as [|[[n1 e1] r1] l IH]; intros i Hi; [destruct i; discriminate|].
    cbn [map fst snd replace_first]. destruct (String.eqb n1 name) eqn:K.
    + apply String.eqb_eq in K. destruct i; cbn in *; [congruence|]. now rewrite nth_error_map, Hi.
    + destruct i; cbn in *; [injection Hi as -> -> ->; reflexivity|]. destruct l as [|? ?]; [destruct i; discriminate|]. apply IH; [discriminate|exact Hi].
  - intros -> F. apply X. unfold new_l. clear X. cbn [get_effects]. revert i Hi F. induction l as [|[[n1 e1] r1] l IH]; intros i Hi F; [destruct i; discriminate|].
    cbn [map fst snd replace_first]. destruct (String.eqb n1 name) eqn:K.
    + apply String.eqb_eq in K. destruct i; cbn in *; [reflexivity|]. exfalso. subst. exact (F 0 e1 r1 ltac:(lia) eq_refl).
    + apply String.eqb_neq in K. destruct i; cbn in *; [congruence|]. destruct l as [|? ?]; [destruct i; discriminate|]. apply IH; [discriminate|exact Hi|].
      intros j e' r' Hj. exact (F (S j) e' r' ltac:(lia)).
Qed.
End Setters.

(** * seasonal_transformer *)
Lemma seasonal_exact freq yearly weekly :
  seasonal_transformer freq yearly weekly =
  match terms_of 10 yearly, terms_of 3 weekly with
  | Some y, Some w =>
      Ok (mkFA freq ((match y with Some _ => ["Y"] | None => [] end) ++ (match w with Some _ => ["W"] | None => [] end))
               ((match y with Some n => [n] | None => [] end) ++ (match w with Some n => [n] | None => [] end)) true)
  | _, _ => Err ValueError
  end.
Proof.
  unfold seasonal_transformer, terms_of.
  destruct yearly as [[]|z|]; destruct weekly as [[]|w|]; cbn [num_terms bind py_true]; try reflexivity;
    repeat match goal with |- context [Z.eqb ?a 0] => destruct (Z.eqb a 0); cbn [negb] end; try reflexivity.
Qed.

Lemma seasonal_lengths freq yearly weekly a : seasonal_transformer freq yearly weekly = Ok a ->
  List.length (fa_periods a) = List.length (fa_terms a) /\ ~ In 0%Z (fa_terms a).
Proof.
  rewrite seasonal_exact. unfold terms_of.
  destruct yearly as [[]|z|]; destruct weekly as [[]|w|]; intros H; try discriminate;
    repeat match goal with H : context [Z.eqb ?a 0] |- _ => destruct (Z.eqb_spec a 0) end; injection H as <-; cbn; split; auto; intuition lia.
Qed.
