(** Programs whose effects have other names. *)
From Coq Require Import Reals String Ascii Bool ZArith List Lia FunctionalExtensionality.
From Verif.Model Require Import Base Num XFloat Regex Frame Arr Expand Aggregate Scale Predict Prog Likelihood Effect Trend TrendProg Engine Forecaster.
From Verif.Spec Require Import ProgSpec ForecasterSpec SiteSpec ShiftSpec RelistSpec RenameSpec.
From Verif.Facts Require Import BaseFacts FrameFacts MeanFacts EffectPredict ForecasterFacts ForecasterInv.
Import ListNotations.
Local Open Scope string_scope.

(** * Names *)
Lemma cut_join s : fst (cut s) ++ snd (cut s) = s.
Proof. induction s as [|c s IH]; [reflexivity|]. cbn [cut]. destruct (Ascii.eqb c "/"%char); [reflexivity|]. cbn [fst snd append]. now rewrite IH. Qed.
Lemma cut_head s : no_slash (fst (cut s)) = true.
Proof. induction s as [|c s IH]; [reflexivity|]. cbn [cut]. destruct (Ascii.eqb c "/"%char) eqn:E; [reflexivity|]. cbn [fst no_slash]. now rewrite E, IH. Qed.
Lemma cut_rest s : snd (cut s) = "" \/ exists x, snd (cut s) = "/" ++ x.
Proof. induction s as [|c s IH]; [now left|]. cbn [cut]. destruct (Ascii.eqb c "/"%char) eqn:E; [|exact IH]. apply Ascii.eqb_eq in E as ->. right. now exists s. Qed.
Lemma cut_plain n : no_slash n = true -> cut n = (n, "").
Proof. induction n as [|c n IH]; [reflexivity|]. cbn [no_slash cut]. intros H. apply andb_prop in H as [A B]. apply negb_true_iff in A. rewrite A, (IH B). reflexivity. Qed.
Lemma cut_scoped n x : no_slash n = true -> cut (n ++ "/" ++ x) = (n, "/" ++ x).
Proof. induction n as [|c n IH]; [reflexivity|]. cbn [no_slash cut append]. intros H. apply andb_prop in H as [A B]. apply negb_true_iff in A. rewrite A. specialize (IH B). cbn [append] in IH. rewrite IH. reflexivity. Qed.
Lemma join_unique a b r r' : no_slash a = true -> no_slash b = true -> (r = "" \/ exists x, r = "/" ++ x) -> (r' = "" \/ exists x, r' = "/" ++ x) -> a ++ r = b ++ r' -> a = b /\ r = r'.
Proof.
  intros NA NB H H' E. assert (Q : cut (a ++ r) = (a, r)).
  { destruct H as [->|[x ->]]; [|now apply cut_scoped]. replace (a ++ "") with a; [now apply cut_plain|]. clear. induction a; cbn; congruence. }
  assert (Q' : cut (b ++ r') = (b, r')).
  { destruct H' as [->|[x ->]]; [|now apply cut_scoped]. replace (b ++ "") with b; [now apply cut_plain|]. clear. induction b; cbn; congruence. }
  rewrite E, Q' in Q. injection Q as <- <-. auto.
Qed.

Section Renaming.
Variable rho : string -> string.
Hypothesis REN : renaming rho.
Notation sigma := (site_name rho).

Lemma sigma_plain n : no_slash n = true -> sigma n = rho n.
Proof. intros H. unfold site_name. rewrite cut_plain by exact H. cbn [fst snd]. generalize (rho n). induction s; cbn; congruence. Qed.
Lemma sigma_scoped n x : no_slash n = true -> sigma (n ++ "/" ++ x) = rho n ++ "/" ++ x.
Proof. intros H. unfold site_name. now rewrite cut_scoped. Qed.
Lemma sigma_inj a b : sigma a = sigma b -> a = b.
Proof.
  destruct REN as (I & S & _). unfold site_name. intros E. apply join_unique in E as [E1 E2]; try apply S, cut_head; try apply cut_rest. apply I in E1. rewrite <- (cut_join a), <- (cut_join b), E1, E2. reflexivity.
Qed.
Lemma kept n : In n (reserved ++ trend_sites ++ [default_name])%list -> sigma n = n.
Proof.
  intros H. destruct REN as (_ & _ & K). rewrite sigma_plain; [now apply K|]. revert H. generalize n. apply Forall_forall. repeat constructor.
Qed.
Lemma rho_default : rho default_name = default_name.
Proof. destruct REN as (_ & _ & K). apply K. cbn. tauto. Qed.

(** * Dictionaries *)
Lemma eqb_inj (f : string -> string) a b : (forall x y, f x = f y -> x = y) -> String.eqb (f a) (f b) = String.eqb a b.
Proof. intros I. destruct (String.eqb_spec a b) as [->|N]; [apply String.eqb_refl|]. apply String.eqb_neq. intros E. apply N, I, E. Qed.
Lemma get_keys {V} f (d : dict V) k : (forall x y, f x = f y -> x = y) -> dict_get (rename_keys f d) (f k) = dict_get d k.
Proof. intros I. induction d as [|[k' v] d IH]; [reflexivity|]. cbn [rename_keys map fst snd dict_get]. rewrite eqb_inj by exact I. now rewrite <- IH. Qed.
Lemma set_keys {V} f (d : dict V) k v : (forall x y, f x = f y -> x = y) -> dict_set (rename_keys f d) (f k) v = rename_keys f (dict_set d k v).
Proof. intros I. induction d as [|[k' v'] d IH]; [reflexivity|]. cbn [rename_keys map fst snd dict_set]. rewrite eqb_inj by exact I. destruct (String.eqb k k'); [reflexivity|]. cbn [map fst snd]. f_equal. exact IH. Qed.
Lemma item_keys {V} f (d : dict V) k : (forall x y, f x = f y -> x = y) -> dict_item (rename_keys f d) (f k) = dict_item d k.
Proof. intros I. unfold dict_item. now rewrite get_keys. Qed.

(** * Programs *)
Notation ren := (rename_sites sigma).
Lemma ren_bind {A B} (p : prog A) (f : A -> prog B) : ren (pbind p f) = pbind (ren p) (fun a => ren (f a)).
Proof.
  induction p as [a|x|n d sh o k IH|n v k IH|n s k IH]; cbn [pbind rename_sites]; try reflexivity.
  - f_equal. apply functional_extensionality. intros v. apply IH.
  - now rewrite IH.
  - now rewrite IH.
Qed.
Lemma ren_lift {A} (r : res A) : ren (lift_res r) = lift_res r.
Proof. destruct r; reflexivity. Qed.
Lemma ren_scope {A} n (p : prog A) : no_slash n = true -> ren (scope n p) = scope (rho n) p.
Proof.
  intros H. induction p as [a|x|m d sh o k IH|m v k IH|m s k IH]; cbn [scope rename_sites]; try reflexivity; rewrite (sigma_scoped n _ H).
  - f_equal. apply functional_extensionality. intros v. apply IH.
  - now rewrite IH.
  - now rewrite IH.
Qed.
Lemma pbind_assoc {A B C} (p : prog A) (f : A -> prog B) (g : B -> prog C) : pbind (pbind p f) g = pbind p (fun a => pbind (f a) g).
Proof.
  induction p as [a|x|n d sh o k IH|n v k IH|n s k IH]; cbn [pbind]; try reflexivity.
  - f_equal. apply functional_extensionality. intros v. apply IH.
  - now rewrite IH.
  - now rewrite IH.
Qed.
Lemma bind_same {A B} (p : prog A) (f g : A -> prog B) : (forall a, f a = g a) -> pbind p f = pbind p g.
Proof. intros H. f_equal. apply functional_extensionality. exact H. Qed.

Lemma effect_raises e d : exists x, predict e d [] = Raise x.
Proof.
  revert d. induction e as [m p b|m p q b|m p q r b|i IH t ps b s|sp tl ps m r b c l]; intros d; cbn [predict]; unfold predict_mode; cbn [dict_item dict_get lift_res pbind]; try (eexists; reflexivity).
  - destruct d as [|a|d lift]; try (eexists; reflexivity). destruct (IH d) as [x ->]. cbn [pbind]. eexists; reflexivity.
  - destruct l as [[m' b']|]; eexists; reflexivity.
Qed.
Lemma ren_trend t d : ren (trend_predict t d) = trend_predict t d.
Proof.
  assert (KS : forall n, In n (reserved ++ trend_sites ++ [default_name])%list -> sigma n = n) by exact kept.
  destruct t as [p c b [f|]|s b [loc|]|e]; destruct d as [m|a|d]; cbn [trend_predict]; try reflexivity.
  - unfold piecewise_prog. destruct (pw_logistic (pf_params f)).
    + cbn [plate pbind rename_sites sample]. rewrite (KS "series") by (cbn; tauto). f_equal. rewrite (KS "capacity") by (cbn; tauto). f_equal. apply functional_extensionality. intros cap.
      cbn [pbind]. rewrite ren_bind, ren_lift. apply bind_same. intros locs. cbn [pbind rename_sites]. rewrite (KS "offset") by (cbn; tauto). f_equal. apply functional_extensionality. intros off. cbn [pbind].
      destruct (Nat.eqb _ _); cbn [pbind rename_sites]; [|reflexivity]. rewrite (KS "changepoint_coefficients") by (cbn; tauto). f_equal. apply functional_extensionality. intros co. apply ren_lift.
    + rewrite ren_bind, ren_lift. apply bind_same. intros locs. unfold sample. cbn [pbind rename_sites]. rewrite (KS "offset") by (cbn; tauto). f_equal. apply functional_extensionality. intros off. cbn [pbind].
      destruct (Nat.eqb _ _); cbn [pbind rename_sites]; [|reflexivity]. rewrite (KS "changepoint_coefficients") by (cbn; tauto). f_equal. apply functional_extensionality. intros co. apply ren_lift.
  - unfold flat_prog. destruct (flat_prior loc s) as [co ra]. unfold sample. cbn [pbind rename_sites]. rewrite (KS "trend_flat_coefficient") by (cbn; tauto). reflexivity.
  - destruct (effect_raises e d) as [x ->]. reflexivity.
Qed.

Lemma ren_effects (data : dict edata) effs : (forall n, In n (dict_keys effs) -> no_slash n = true) -> forall m pe pe', dict_get pe' "trend" = dict_get pe "trend" ->
  ren (mp <~ apply_effects data (m, pe) (effect_fns effs) ;; Ret (fst mp)) = (mp <~ apply_effects (rename_keys rho data) (m, pe') (effect_fns (rename_keys rho effs)) ;; Ret (fst mp)).
Proof.
  destruct REN as (I & S & K). induction effs as [|[n ef] effs IH]; intros NS m pe pe' T; [reflexivity|].
  unfold effect_fns. cbn [rename_keys map fst snd apply_effects apply_effect]. fold (effect_fns effs). fold (rename_keys rho effs). fold (effect_fns (rename_keys rho effs)).
  assert (NN : no_slash n = true) by (apply NS; now left). rewrite item_keys by exact I. destruct (dict_item data n) as [d|]; cbn [lift_res pbind]; [|reflexivity].
  rewrite (predict_trend_only ef d pe pe') by (symmetry; exact T). rewrite !pbind_assoc, ren_bind, ren_scope by exact NN. apply bind_same. intros v.
  unfold deterministic. cbn [pbind rename_sites]. rewrite sigma_plain by exact NN. f_equal. destruct (arr_zip Rplus m v) as [m'|]; cbn [lift_res pbind]; [|reflexivity].
  apply IH; [intros q Hq; apply NS; now right|]. destruct (String.eqb_spec n "trend") as [->|N].
  - rewrite (K "trend") by (cbn; tauto). now rewrite !dict_get_set.
  - rewrite !dict_get_set. assert (N' : rho n <> "trend") by (intros E; apply N, I; rewrite E; symmetry; apply K; cbn; tauto).
    destruct (String.eqb_spec "trend" n); [congruence|]. destruct (String.eqb_spec "trend" (rho n)); [congruence|]. exact T.
Qed.
End Renaming.
