(** Storing new data: what [combine_first] returns. *)
From Coq Require Import Reals String Bool ZArith Lia List Sorted Permutation.
From Verif.Model Require Import Base Num XFloat Frame Arr Aggregate Predict Prog Effect TrendProg Engine Forecaster History.
From Verif.Spec Require Import FrameSpec HistorySpec.
From Verif.Facts Require Import BaseFacts OrderFacts HistoryRefit.
Import ListNotations.

Lemma string_compare_refl s : String.compare s s = Eq.
Proof. pose proof (String.compare_antisym s s) as H. destruct (String.compare s s); [reflexivity|discriminate H|discriminate H]. Qed.
Lemma path_cmp_before a : forall b, path_cmp a b = Lt <-> path_before a b.
Proof.
  induction a as [|x a IH]; intros [|y b]; cbn [path_cmp].
  - split; [discriminate|]. intros [(c & u & v & ra & rb & E & E' & _)|(u & r & E)]; [destruct c; discriminate E|discriminate E].
  - split; [intros _; right; now exists y, b|reflexivity].
  - split; [discriminate|]. intros [(c & u & v & ra & rb & E & E' & _)|(u & r & E)]; [destruct c; discriminate E'|discriminate E].
  - destruct (String.compare x y) eqn:C.
    + apply String.compare_eq_iff in C. subst y. rewrite IH. split; intros [(c & u & v & ra & rb & E & E' & L)|(u & r & E)].
      * left. exists (x :: c)%list, u, v, ra, rb. cbn. now rewrite E, E'.
      * right. exists u, r. now rewrite E.
      * destruct c as [|z c]; injection E as -> ->; injection E'; intros; subst.
        { rewrite string_compare_refl in L. discriminate L. }
        left. now exists c, u, v, ra, rb.
      * injection E as ->. right. now exists u, r.
    + split; [|reflexivity]. intros _. left. now exists [], x, y, a, b.
    + split; [discriminate|]. intros [(c & u & v & ra & rb & E & E' & L)|(u & r & E)].
      * destruct c as [|z c]; injection E as -> ->; injection E'; intros; subst; [congruence|].
        rewrite string_compare_refl in C. discriminate C.
      * injection E as -> _. rewrite string_compare_refl in C. discriminate C.
Qed.
Lemma label_leb_before (r r' : row R) : label_leb (label r) (label r') = true <-> row_before r r'.
Proof.
  unfold label_leb, label, row_before. cbn [fst snd]. rewrite <- path_cmp_before. destruct (path_cmp (r_path r) (r_path r')) eqn:E.
  - apply path_cmp_eq in E. rewrite Z.leb_le. split; [intros H; right; auto|intros [H|[_ H]]; [discriminate H|exact H]].
  - split; auto.
  - split; [discriminate|]. intros [H|[H _]]; [discriminate H|]. rewrite H, path_cmp_refl in E. discriminate E.
Qed.
Lemma key_sorted_before (l : list (row R)) : key_sorted label l <-> StronglySorted row_before l.
Proof.
  split.
  - induction 1 as [|x l H K IH]; [constructor|]. constructor; [exact IH|]. apply Forall_forall. intros y I. apply label_leb_before. now apply H.
  - induction 1 as [|x l K IH H]; [constructor|]. constructor; [|exact IH]. rewrite Forall_forall in H. intros y I. apply label_leb_before. now apply H.
Qed.

Lemma same_label_iff (r r' : row R) : same_label r r' <-> (path_eqb (r_path r) (r_path r') && Z.eqb (r_time r) (r_time r'))%bool = true.
Proof. unfold same_label. rewrite andb_true_iff, path_eqb_eq, Z.eqb_eq. reflexivity. Qed.

Lemma kept_iff (new : list (row R)) r :
  negb (existsb (fun r' => path_eqb (r_path r') (r_path r) && Z.eqb (r_time r') (r_time r)) new) = true <-> forall r', In r' new -> ~ same_label r' r.
Proof.
  rewrite negb_true_iff. split.
  - intros H r' I F. apply same_label_iff in F. assert (E : existsb (fun r' => path_eqb (r_path r') (r_path r) && Z.eqb (r_time r') (r_time r))%bool new = true) by (apply existsb_exists; eauto). congruence.
  - intros H. apply not_true_iff_false. intros E. apply existsb_exists in E as (r' & I & E). apply same_label_iff in E. exact (H r' I E).
Qed.

Lemma NoDup_labels_inj (l : list (row R)) : NoDup (map label l) -> forall x y, In x l -> In y l -> label x = label y -> x = y.
Proof.
  induction l as [|a l IH]; intros ND x y Ix Iy E; [destruct Ix|]. cbn in ND. inversion ND; subst. destruct Ix as [<-|Ix], Iy as [<-|Iy]; auto.
  - elim H1. rewrite E. now apply in_map.
  - elim H1. rewrite <- E. now apply in_map.
Qed.

Lemma NoDup_app_rows (a b : list (row R)) : NoDup (map label a) -> NoDup (map label b) -> (forall x y, In x a -> In y b -> label x <> label y) -> NoDup (map label (a ++ b)).
Proof.
  induction a as [|x a IH]; intros N1 N2 D; [exact N2|]. cbn in *. inversion N1; subst. constructor; [|apply IH; auto].
  rewrite map_app, in_app_iff. intros [I|I]; [contradiction|]. apply in_map_iff in I as (y & E & I). elim (D x y); auto.
Qed.
Lemma NoDup_filter_rows p (l : list (row R)) : NoDup (map label l) -> NoDup (map label (filter p l)).
Proof.
  induction l as [|x l IH]; intros N; [constructor|]. cbn in *. inversion N; subst. destruct (p x); [|auto]. cbn. constructor; [|auto].
  intros I. apply H1. apply in_map_iff in I as (y & E & I). apply filter_In in I as [I _]. rewrite <- E. now apply in_map.
Qed.

Lemma combine_first_merged new old out : NoDup (labels new) -> NoDup (labels old) -> (combine_first new old = Ok out <-> merged new old out).
Proof.
  intros N1 N2. change (labels new) with (map label (f_rows new)) in N1. change (labels old) with (map label (f_rows old)) in N2.
  set (kept := filter (fun r => negb (existsb (fun r' => path_eqb (r_path r') (r_path r) && Z.eqb (r_time r') (r_time r)) (f_rows new))) (f_rows old)).
  assert (NK : NoDup (map label (f_rows new ++ kept))).
  { apply NoDup_app_rows; [exact N1|now apply NoDup_filter_rows|]. intros x y Ix Iy E. apply filter_In in Iy as [Iy K]. apply (proj1 (kept_iff _ _) K) in Ix. apply Ix. injection E. split; assumption. }
  assert (NS : NoDup (map label (key_sort label (f_rows new ++ kept)))).
  { eapply Permutation_NoDup; [|exact NK]. apply Permutation_map, key_sort_perm. }
  assert (IN : forall r, In r (key_sort label (f_rows new ++ kept)) <-> In r (f_rows new) \/ (In r (f_rows old) /\ forall r', In r' (f_rows new) -> ~ same_label r' r)).
  { intros r. rewrite key_sort_In, in_app_iff. unfold kept. rewrite filter_In, kept_iff. reflexivity. }
  unfold combine_first. fold kept. split.
  - destruct (Nat.eqb (f_levels new) (f_levels old) && path_eqb (f_cols new) (f_cols old))%bool eqn:C; [|discriminate].
    apply andb_true_iff in C as [C1 C2]. apply Nat.eqb_eq in C1. apply path_eqb_eq in C2. intros [= <-]. unfold merged. cbn [f_levels f_cols f_rows]. repeat split; auto; try apply IN.
    apply key_sorted_before, key_sort_sorted.
  - intros (C1 & C2 & L & Cc & I & ND & SS). rewrite C1, C2, Nat.eqb_refl, path_eqb_refl. cbn [andb]. f_equal. destruct out as [lv cs rows]. cbn [f_levels f_cols f_rows] in *. rewrite <- C1, <- C2, L, Cc. f_equal.
    apply (key_sorted_unique label).
    + apply NoDup_labels_inj. exact NS.
    + apply NoDup_Permutation; [exact (NoDup_map_inv _ _ NS)|exact (NoDup_map_inv _ _ ND)|]. intros r. now rewrite IN, I.
    + apply key_sort_sorted.
    + now apply key_sorted_before.
Qed.

Lemma merged_exogenous_ok X old X' : merged_exogenous X old X' ->
  match X, old with None, old => Ok old | Some X, None => Ok (Some X) | Some X, Some old => X <- combine_first X old ;; Ok (Some X) end = Ok X'.
Proof.
  destruct X as [X|], old as [old|]; cbn; try (intros ->; reflexivity). intros (o & -> & N1 & N2 & M). apply combine_first_merged in M; auto. now rewrite M.
Qed.

Section History.
Variable ns_of : Z -> Z.
Variable order : list string -> list string.
Variable keep : path -> bool.
Context {TS : Type}.
Variable tr_fit_transform : TS -> frame R -> TS * res (frame R).
Variable tr_transform : TS -> frame R -> res (frame R).
Context {P : Type}.
Variable svi_run : Z -> nat -> nat -> prog arr -> res (list xr * P).
Variable nuts_run : Z -> nat -> nat -> nat -> prog arr -> res (nat -> nat -> env).
Variable latent_sites : prog arr -> list string.
Variable guide_draw : P -> Z -> nat -> prog arr -> env.
Variable complete_draw : env -> Z -> nat -> prog arr -> env.
Notation step := (step ns_of order keep tr_fit_transform tr_transform svi_run nuts_run latent_sites guide_draw complete_draw).
Notation calls := (calls ns_of order keep tr_fit_transform tr_transform svi_run nuts_run latent_sites guide_draw complete_draw).

Lemma c73_merged c ob cs y X y' X' :
  (forall s X X', tr_fit_transform (fst (tr_fit_transform s X)) X' = tr_fit_transform s X') ->
  (c_trend c = TrendObject -> plain_trend (o_trend ob)) ->
  let s := calls c (new_state ob) cs in st_fitted s <> None ->
  NoDup (labels y) -> NoDup (labels (st_y s)) -> merged y (st_y s) y' -> merged_exogenous X (st_X s) X' ->
  snd (step c s (Update y X true)) = snd (step c (new_state ob) (Fit y' X')) /\
  (snd (step c (new_state ob) (Fit y' X')) = Ok ODone -> fst (step c s (Update y X true)) = fst (step c (new_state ob) (Fit y' X'))).
Proof.
  intros TF HP s HF N1 N2 M MX. apply (c73_update ns_of order keep tr_fit_transform tr_transform svi_run nuts_run latent_sites guide_draw complete_draw TF c ob cs y X y' X' HP HF).
  - now apply combine_first_merged.
  - now apply merged_exogenous_ok.
Qed.
Lemma c73_stored c s f y X y' X' : st_fitted s = Some f -> NoDup (labels y) -> NoDup (labels (st_y s)) -> merged y (st_y s) y' -> merged_exogenous X (st_X s) X' ->
  step c s (Update y X false) = (mkState (st_objects s) y' X' (Some f), Ok ODone).
Proof.
  intros HF N1 N2 M MX. cbn [History.step]. rewrite HF. apply combine_first_merged in M; auto. apply merged_exogenous_ok in MX. rewrite M, MX. reflexivity.
Qed.
(** the columns and levels must agree *)
Lemma c73_mismatch c s f y X u : st_fitted s = Some f -> f_levels y <> f_levels (st_y s) \/ f_cols y <> f_cols (st_y s) -> exists e, step c s (Update y X u) = (s, Err e).
Proof.
  intros HF H. cbn [History.step]. rewrite HF. exists NotFinite.
  assert (E : combine_first y (st_y s) = Err NotFinite).
  { unfold combine_first. destruct H as [H|H]; [apply Nat.eqb_neq in H; now rewrite H|apply path_eqb_neq in H; rewrite H, andb_false_r; reflexivity]. }
  rewrite E. reflexivity.
Qed.
End History.
