(** Exceptions of the array operations and of calls before a fit. *)
From Coq Require Import Reals String Bool ZArith Arith List Lia.
From Verif.Model Require Import Base Num XFloat Arr Frame Expand Aggregate Scale Predict Prog Likelihood Trend Effect TrendProg Engine Forecaster History.
From Verif.Spec Require Import RaiseSpec.
Import ListNotations.

Lemma raise_frame_of levels cols index data e :
  frame_of levels cols index data = Err e <-> e = ValueError /\ List.length index <> List.length data.
Proof.
  unfold frame_of. destruct (Nat.eqb_spec (List.length index) (List.length data)) as [E|E].
  - split; [discriminate|]. intros [_ N]. contradiction.
  - split; [intros [= <-]; auto|]. intros [-> _]. reflexivity.
Qed.

Lemma raise_matmul a coefs e :
  matrix_multiplication a coefs = Err e <-> e = TypeError /\ forall sh, a_shape a <> (sh ++ [List.length coefs])%list.
Proof.
  unfold matrix_multiplication. destruct (rev (a_shape a)) as [|k rest] eqn:E.
  - split; [|intros [-> _]; reflexivity]. intros [= <-]. split; [reflexivity|]. intros sh H. rewrite H, rev_app_distr in E. discriminate.
  - assert (S : a_shape a = (rev rest ++ [k])%list) by (rewrite <- (rev_involutive (a_shape a)), E; reflexivity).
    destruct (Nat.eqb_spec k (List.length coefs)) as [->|N].
    + split; [discriminate|]. intros [_ H]. exfalso. exact (H _ S).
    + split; [|intros [-> _]; reflexivity]. intros [= <-]. split; [reflexivity|]. intros sh H. rewrite S in H.
      apply app_inj_tail in H. destruct H as [_ H]. contradiction.
Qed.

Lemma raise_broadcast2 {A B} (a : list A) (b : list B) e :
  broadcast2 a b = Err e <-> e = TypeError /\ List.length a <> List.length b /\ List.length a <> 1 /\ List.length b <> 1.
Proof.
  unfold broadcast2. destruct (Nat.eqb_spec (List.length a) (List.length b)) as [E|E].
  { split; [discriminate|]. intros (_ & N & _). contradiction. }
  destruct a as [|x [|x' a]]; [|split; [discriminate|intros (_ & _ & N & _); simpl in N; contradiction]|].
  - destruct b as [|y [|y' b]]; [exfalso; apply E; reflexivity|split; [discriminate|intros (_ & _ & _ & N); simpl in N; contradiction]|].
    split; [|intros [-> _]; reflexivity]. intros [= <-]. simpl. repeat split; discriminate.
  - destruct b as [|y [|y' b]]; [|split; [discriminate|intros (_ & _ & _ & N); simpl in N; contradiction]|];
    (split; [|intros [-> _]; reflexivity]; intros [= <-]; simpl in *; repeat split; try discriminate; exact E).
Qed.

Lemma forallb_false {A} (p : A -> bool) l : forallb p l = false <-> exists x, In x l /\ p x = false.
Proof.
  induction l as [|x l IH]; simpl.
  - split; [discriminate|]. intros (x & [] & _).
  - destruct (p x) eqn:E; simpl.
    + rewrite IH. split; intros (z & I & Z); exists z; auto. destruct I as [->|I]; [congruence|auto].
    + split; [|reflexivity]. intros _. exists x. auto.
Qed.

Lemma raise_piecewise2 sq n rows offset coefs e :
  piecewise_predict sq n (D2 rows) offset coefs = Err e <->
  e = TypeError /\ ((exists r, In r rows /\ List.length r <> List.length coefs) \/
    (List.length rows <> List.length offset /\ List.length rows <> 1 /\ List.length offset <> 1)).
Proof.
  unfold piecewise_predict. destruct (forallb (fun r => List.length r =? List.length coefs)%nat rows) eqn:F.
  - destruct (broadcast2 (map (fun r => dot r coefs) rows) offset) as [lo|e'] eqn:B; cbn [bind].
    + split; [discriminate|]. intros (-> & [(r & I & N)|N]).
      * rewrite forallb_forall in F. apply F, Nat.eqb_eq in I. contradiction.
      * assert (X : broadcast2 (map (fun r => dot r coefs) rows) offset = Err TypeError)
          by (apply raise_broadcast2; rewrite map_length; split; [reflexivity|exact N]). congruence.
    + apply raise_broadcast2 in B. rewrite map_length in B. destruct B as [-> N].
      split; [intros [= <-]; split; [reflexivity|right; exact N]|]. intros [-> _]. reflexivity.
  - apply (proj1 (forallb_false _ _)) in F. destruct F as (r & I & N). apply Nat.eqb_neq in N.
    split; [intros [= <-]; split; [reflexivity|left; eauto]|]. intros [-> _]. reflexivity.
Qed.

Lemma raise_piecewise3 sq n series offset coefs e :
  piecewise_predict sq n (D3 series) offset coefs = Err e <->
  e = TypeError /\ ((exists s r, In s series /\ In r s /\ List.length r <> List.length coefs) \/
    (List.length series <> List.length offset /\ List.length series <> 1 /\ List.length offset <> 1)).
Proof.
  unfold piecewise_predict. destruct (forallb (forallb (fun r => List.length r =? List.length coefs)%nat) series) eqn:F.
  - destruct (broadcast2 series offset) as [lo|e'] eqn:B; cbn [bind].
    + split; [destruct ((n =? 1)%nat && sq)%bool; discriminate|]. intros (-> & [(s & r & Is & I & N)|N]).
      * rewrite forallb_forall in F. apply F in Is. rewrite forallb_forall in Is. apply Is, Nat.eqb_eq in I. contradiction.
      * assert (X : broadcast2 series offset = Err TypeError)
          by (apply raise_broadcast2; split; [reflexivity|exact N]). congruence.
    + apply raise_broadcast2 in B. destruct B as [-> N].
      split; [intros [= <-]; split; [reflexivity|right; exact N]|]. intros [-> _]. reflexivity.
  - apply (proj1 (forallb_false _ _)) in F. destruct F as (s & Is & N). apply (proj1 (forallb_false _ _)) in N.
    destruct N as (r & I & N). apply Nat.eqb_neq in N.
    split; [intros [= <-]; split; [reflexivity|left; eauto]|]. intros [-> _]. reflexivity.
Qed.

Section History.
Variable ns_of : Z -> Z.
Variable order : list string -> list string.
Variable keep : path -> bool.
Context {TS : Type}.
Variable tr_fit_transform : TS -> frame R -> TS * res (frame R).
Variable tr_transform : TS -> frame R -> res (frame R).
Context {P : Type}.
Variable svi_run : Z -> nat -> nat -> prog arr -> res (list xr * P).
Variable nuts_run : Z -> nat -> nat -> nat -> prog arr -> res (nat -> nat -> env).
Variable latent_sites : prog arr -> list string.
Variable guide_draw : P -> Z -> nat -> prog arr -> env.
Variable complete_draw : env -> Z -> nat -> prog arr -> env.
Notation step := (step ns_of order keep tr_fit_transform tr_transform svi_run nuts_run latent_sites guide_draw complete_draw).
Notation calls := (calls ns_of order keep tr_fit_transform tr_transform svi_run nuts_run latent_sites guide_draw complete_draw).

Lemma raise_not_fitted c st cl : st_fitted st = None -> (forall y X, cl <> Fit y X) -> step c st cl = (st, Err ValueError).
Proof.
  intros N NF. destruct cl as [y X|y X u|m X fh]; [exfalso; exact (NF y X eq_refl)| |]; simpl; rewrite N; reflexivity.
Qed.

Lemma failed_fit_state c st y X : snd (step c st (Fit y X)) <> Ok ODone -> st_fitted (fst (step c st (Fit y X))) = None.
Proof.
  cbn [History.step]. unfold do_fit. destruct (fit_forecaster _ _ _ _ _ _ _ _ _ _ _) as [ob [f|e]]; cbn [fst snd]; [intros H; exfalso; exact (H eq_refl)|reflexivity].
Qed.

Lemma calls_snoc c st cs cl : calls c st (cs ++ [cl]) = fst (step c (calls c st cs) cl).
Proof. unfold History.calls. rewrite fold_left_app. reflexivity. Qed.

Lemma never_fitted c ob cs :
  (forall cs1 y X cs2, cs = (cs1 ++ Fit y X :: cs2)%list -> snd (step c (calls c (new_state ob) cs1) (Fit y X)) <> Ok ODone) ->
  st_fitted (calls c (new_state ob) cs) = None.
Proof.
  induction cs as [|cl cs IH] using rev_ind; intros H; [reflexivity|].
  rewrite calls_snoc.
  assert (N : st_fitted (calls c (new_state ob) cs) = None).
  { apply IH. intros cs1 y X cs2 ->. apply (H cs1 y X (cs2 ++ [cl])%list). rewrite <- app_assoc. reflexivity. }
  destruct cl as [y X|y X u|m X fh].
  - apply failed_fit_state. exact (H cs y X [] eq_refl).
  - rewrite (raise_not_fitted _ _ _ N) by discriminate. exact N.
  - rewrite (raise_not_fitted _ _ _ N) by discriminate. exact N.
Qed.

Lemma c85_not_fitted c ob cs cl :
  (forall cs1 y X cs2, cs = (cs1 ++ Fit y X :: cs2)%list -> snd (step c (calls c (new_state ob) cs1) (Fit y X)) <> Ok ODone) ->
  (forall y X, cl <> Fit y X) -> step c (calls c (new_state ob) cs) cl = (calls c (new_state ob) cs, Err ValueError).
Proof. intros H NF. apply raise_not_fitted; [apply never_fitted; exact H|exact NF]. Qed.
End History.
