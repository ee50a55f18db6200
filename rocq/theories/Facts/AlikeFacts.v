(** Two runs of a model with different latent values record the same sites with the same shapes. *)
From Coq Require Import Reals Lra String Bool ZArith List Lia.
From Verif.Model Require Import Base Num XFloat Frame Arr Expand Prog Likelihood Effect Trend TrendProg Engine Forecaster.
From Verif.Spec Require Import ProgSpec.
From Verif.Facts Require Import BaseFacts ArrFacts ProgFacts MeanFacts EffectPredict.
Import ListNotations.
Local Open Scope string_scope.

(** the same shape and as many entries *)
Definition like (a b : arr) : Prop := a_shape a = a_shape b /\ List.length (a_flat a) = List.length (a_flat b).
Lemma like_refl a : like a a.
Proof. split; reflexivity. Qed.
Global Hint Resolve like_refl : core.

Definition site_like (s s' : site) : Prop :=
  match s, s' with
  | SSample _ v o, SSample _ v' o' => like v v' /\ o = o'
  | SDet v, SDet v' => like v v'
  | SPlate n, SPlate n' => n = n'
  | _, _ => False
  end.
Definition trace_like (t t' : trace) : Prop := Forall2 (fun x y => fst x = fst y /\ site_like (snd x) (snd y)) t t'.
Definition dict_like (d d' : dict arr) : Prop := Forall2 (fun x y => fst x = fst y /\ like (snd x) (snd y)) d d'.

(** The two programs make the same statements, except that either may raise. *)
Inductive alike {A B} (Q : A -> B -> Prop) : prog A -> prog B -> Prop :=
| al_ret a b : Q a b -> alike Q (Ret a) (Ret b)
| al_raise_l e q : alike Q (Raise e) q
| al_raise_r p e : alike Q p (Raise e)
| al_sample n d d' sh o k k' : (forall v v', like v v' -> alike Q (k v) (k' v')) -> alike Q (Sample n d sh o k) (Sample n d' sh o k')
| al_det n v v' k k' : like v v' -> alike Q k k' -> alike Q (Det n v k) (Det n v' k')
| al_plate n s k k' : alike Q k k' -> alike Q (Plate n s k) (Plate n s k').

Lemma alike_bind {A B A' B'} (Q : A -> B -> Prop) (Q' : A' -> B' -> Prop) p p' f f' :
  alike Q p p' -> (forall a b, Q a b -> alike Q' (f a) (f' b)) -> alike Q' (pbind p f) (pbind p' f').
Proof. intros H F. induction H; simpl; auto; constructor; auto. Qed.

Lemma alike_lift {A B} (Q : A -> B -> Prop) m m' : (forall a b, m = Ok a -> m' = Ok b -> Q a b) -> alike Q (lift_res m) (lift_res m').
Proof. intros H. destruct m; simpl; [|constructor]. destruct m'; simpl; constructor. auto. Qed.

Lemma alike_scope {A B} (Q : A -> B -> Prop) s p p' : alike Q p p' -> alike Q (scope s p) (scope s p').
Proof. intros H. induction H; simpl; constructor; auto. Qed.

Lemma alike_sample n d d' sh o : alike like (Sample n d sh o Ret) (Sample n d' sh o Ret).
Proof. constructor. intros v v' H. constructor. exact H. Qed.

Lemma alike_weaken {A B} (Q Q' : A -> B -> Prop) p p' : (forall a b, Q a b -> Q' a b) -> alike Q p p' -> alike Q' p p'.
Proof. intros H F. induction F; constructor; auto. Qed.

(** * Traces *)
Lemma trace_like_get t t' n : trace_like t t' -> match dict_get t n, dict_get t' n with Some s, Some s' => site_like s s' | None, None => True | _, _ => False end.
Proof.
  induction 1 as [|[k s] [k' s'] t t' [E H] F IH]; simpl; [exact I|]. cbn in E, H. subst k'. destruct (String.eqb n k); [exact H|exact IH].
Qed.
Lemma trace_like_set t t' n s s' : trace_like t t' -> site_like s s' -> trace_like (dict_set t n s) (dict_set t' n s').
Proof.
  intros F H. induction F as [|[k x] [k' x'] t t' [E H'] F IH]; simpl; [constructor; [auto|constructor]|]. cbn in E, H'. subst k'.
  destruct (String.eqb n k); constructor; auto.
Qed.
Lemma record_like t t' n s s' r r' : trace_like t t' -> site_like s s' -> record t n s = Ok r -> record t' n s' = Ok r' -> trace_like r r'.
Proof.
  intros F H. unfold record. destruct s, s'; try contradiction; try (intros [= <-] [= <-]; now apply trace_like_set).
  destruct (dict_get t n), (dict_get t' n); try discriminate. intros [= <-] [= <-]. now apply trace_like_set.
Qed.
Lemma site_value_like e e' n sh o : like (site_value e n sh o) (site_value e' n sh o).
Proof. unfold site_value. destruct o; [apply like_refl|]. split; [reflexivity|]. cbn. now rewrite !map_length. Qed.

Lemma run_like {A B} (Q : A -> B -> Prop) e e' p p' : alike Q p p' -> forall t t' a b r r', trace_like t t' ->
  run e t p = Ok (a, r) -> run e' t' p' = Ok (b, r') -> Q a b /\ trace_like r r'.
Proof.
  induction 1 as [a0 b0 HQ|x q|p x|n d d' sh o k k' Hk IH|n v v' k k' Hv Hk IH|n s k k' Hk IH]; intros t t' a b r r' F Hr Hr'; cbn [run] in Hr, Hr'; try discriminate.
  - injection Hr as <- <-. injection Hr' as <- <-. auto.
  - destruct (record t n _) as [t1|] eqn:E1; [|discriminate]. destruct (record t' n _) as [t2|] eqn:E2; [|discriminate]. cbn [bind] in Hr, Hr'.
    eapply (IH _ _ (site_value_like e e' n sh o)); [|exact Hr|exact Hr']. eapply record_like; [exact F| |exact E1|exact E2]. split; [apply site_value_like|reflexivity].
  - destruct (record t n _) as [t1|] eqn:E1; [|discriminate]. destruct (record t' n _) as [t2|] eqn:E2; [|discriminate]. cbn [bind] in Hr, Hr'.
    eapply IH; [|exact Hr|exact Hr']. eapply record_like; [exact F| |exact E1|exact E2]. exact Hv.
  - destruct (record t n _) as [t1|] eqn:E1; [|discriminate]. destruct (record t' n _) as [t2|] eqn:E2; [|discriminate]. cbn [bind] in Hr, Hr'.
    eapply IH; [|exact Hr|exact Hr']. eapply record_like; [exact F| |exact E1|exact E2]. reflexivity.
Qed.

Lemma predictive_like latent t t' : trace_like t t' -> dict_like (predictive_values latent t) (predictive_values latent t').
Proof.
  unfold predictive_values, dict_like. induction 1 as [|[k s] [k' s'] t t' [E H] F IH]; simpl; [constructor|]. cbn in E, H. subst k'.
  apply Forall2_app; [|exact IH]. destruct s, s'; try contradiction; cbn in H.
  - destruct (str_in k latent); constructor; [|constructor]. split; [reflexivity|apply H].
  - constructor; [|constructor]. split; [reflexivity|exact H].
  - constructor.
Qed.

(** * Stacking alike draws *)
Lemma dict_like_get d d' k v : dict_like d d' -> In (k, v) d -> NoDup (map fst d) -> exists v', dict_item d' k = Ok v' /\ like v v'.
Proof.
  unfold dict_item. induction 1 as [|[n x] [n' x'] d d' [E H] F IH]; simpl; [contradiction|]. cbn in E, H. subst n'. intros [[= -> ->]|I] N; inversion N; subst.
  - rewrite String.eqb_refl. eauto.
  - destruct (String.eqb_spec k n) as [->|_]; [|auto]. exfalso. apply H2. apply in_map_iff. now exists (n, v).
Qed.

Lemma stack_total ds : ds <> [] -> (forall d d', In d ds -> In d' ds -> dict_like d d') -> (forall d, In d ds -> NoDup (map fst d)) ->
  exists r, stack ds = Ok r /\ forall d, In d ds -> Forall2 (fun x y => fst x = fst y /\ a_shape (snd y) = List.length ds :: a_shape (snd x) /\
     List.length (a_flat (snd y)) = List.length ds * List.length (a_flat (snd x))) d r.
Proof.
  intros NE AL ND. unfold stack. destruct ds as [|d0 tl] eqn:E; [congruence|]. rewrite <- E in *. assert (I0 : In d0 ds) by (rewrite E; simpl; auto).
  assert (G : forall l, (forall ka, In ka l -> In ka d0) -> exists r, mapM (stack_site ds) l = Ok r /\
     Forall2 (fun x y => fst x = fst y /\ a_shape (snd y) = List.length ds :: a_shape (snd x) /\ List.length (a_flat (snd y)) = List.length ds * List.length (a_flat (snd x))) l r).
  { induction l as [|[k a] l IH]; intros HL; [exists []; split; [reflexivity|constructor]|]. destruct IH as (r & Er & Fr); [intros; apply HL; simpl; auto|]. cbn [mapM].
    assert (S1 : exists b, stack_site ds (k, a) = Ok (k, b) /\ a_shape b = List.length ds :: a_shape a /\ List.length (a_flat b) = List.length ds * List.length (a_flat a)).
    { unfold stack_site. cbn [fst snd]. assert (M : exists vs, mapM (fun d => dict_item d k) ds = Ok vs /\ List.length vs = List.length ds /\ Forall (like a) vs).
      { assert (Q : forall l', (forall d, In d l' -> In d ds) -> exists vs, mapM (fun d => dict_item d k) l' = Ok vs /\ List.length vs = List.length l' /\ Forall (like a) vs).
        { induction l' as [|d l' IH']; intros HI; [exists []; auto|]. destruct IH' as (vs & Ev & Lv & Fv); [intros; apply HI; simpl; auto|].
          destruct (dict_like_get d0 d k a) as (v & Eg & Lg); [apply AL; [exact I0|apply HI; simpl; auto]|apply HL; simpl; auto|now apply ND|].
          exists (v :: vs). cbn [mapM]. rewrite Eg. cbn [bind]. rewrite Ev. cbn [bind]. split; [reflexivity|]. split; [simpl; congruence|constructor; assumption]. }
        apply Q. auto. }
      destruct M as (vs & Ev & Lv & Fv). rewrite Ev. cbn [bind]. rewrite Forall_forall in Fv.
      assert (B : forallb (fun v => if list_eq_dec Nat.eq_dec (a_shape v) (a_shape a) then true else false) vs = true).
      { apply forallb_forall. intros v Hv. destruct (list_eq_dec _ _ _) as [_|N]; [reflexivity|]. exfalso. apply N. symmetry. now apply Fv. }
      rewrite B. eexists. split; [reflexivity|]. cbn [a_shape a_flat]. split; [reflexivity|]. rewrite <- Lv. clear -Fv. induction vs as [|v vs IH]; [reflexivity|]. simpl.
      rewrite app_length, IH by (intros; apply Fv; simpl; auto). rewrite (proj2 (Fv v ltac:(simpl; auto))). reflexivity. }
    destruct S1 as (b & Eb & Sb & Lb). rewrite Eb. cbn [bind]. rewrite Er. cbn [bind]. eexists. split; [reflexivity|]. constructor; [auto|exact Fr]. }
  destruct (G d0) as (r & Er & Fr); [auto|]. exists r. rewrite E in Er at 1. rewrite <- E in Er. split; [exact Er|]. intros d Hd.
  pose proof (AL d d0 Hd I0) as L. clear -L Fr. revert r Fr. induction L as [|x y d d0 [E1 E2] L IH]; intros r Fr; inversion Fr; subst; constructor; auto.
  destruct H1 as (A1 & A2 & A3). destruct E2 as [E2 E3]. split; [congruence|]. split; [congruence|]. rewrite E3. exact A3.
Qed.

(** * Arithmetic on alike arrays *)
Lemma arr_map_like f g a b : like a b -> like (arr_map f a) (arr_map g b).
Proof. intros [E L]. split; [exact E|]. cbn. now rewrite !map_length. Qed.
Lemma arr_zip_like f a b a' b' x y : like a a' -> like b b' -> arr_zip f a b = Ok x -> arr_zip f a' b' = Ok y -> like x y.
Proof.
  intros [E L] [E' L']. unfold arr_zip. destruct (list_eq_dec _ _ _); [|discriminate]. destruct (list_eq_dec _ _ _); [|discriminate]. intros [= <-] [= <-].
  split; [exact E|]. cbn. rewrite !map_length, !combine_length. congruence.
Qed.
Lemma reshape_like sh sh' a a' x y : sh = sh' -> like a a' -> reshape sh a = Ok x -> reshape sh' a' = Ok y -> like x y.
Proof. intros <- [E L]. unfold reshape. destruct (_ =? _)%nat; [|discriminate]. destruct (_ =? _)%nat; [|discriminate]. intros [= <-] [= <-]. split; [reflexivity|exact L]. Qed.
Lemma reshape_col_like a b : like a b -> like (reshape_col a) (reshape_col b).
Proof. intros [E L]. unfold reshape_col. split; cbn; congruence. Qed.
Lemma dict_like_item d d' k a b : dict_like d d' -> dict_item d k = Ok a -> dict_item d' k = Ok b -> like a b.
Proof.
  unfold dict_item. induction 1 as [|[n x] [n' x'] d d' [E H] F IH]; simpl; [discriminate|]. cbn in E, H. subst n'. destruct (String.eqb k n); [intros [= <-] [= <-]; exact H|exact IH].
Qed.
Lemma dict_like_set d d' k a b : dict_like d d' -> like a b -> dict_like (dict_set d k a) (dict_set d' k b).
Proof.
  intros F H. induction F as [|[n x] [n' x'] d d' [E H'] F IH]; simpl; [constructor; [auto|constructor]|]. cbn in E, H'. subst n'. destruct (String.eqb k n); constructor; auto.
Qed.

(** * Effects *)
Lemma predict_mode_alike m raw raw' pe pe' : dict_like pe pe' -> alike like raw raw' -> alike like (predict_mode m raw pe) (predict_mode m raw' pe').
Proof.
  intros HD HR. unfold predict_mode. apply (alike_bind like); [apply alike_lift; intros a b; now apply dict_like_item|]. intros t t' Ht.
  set (u := if (ndim t =? 1)%nat then _ else _). set (u' := if (ndim t' =? 1)%nat then _ else _).
  assert (Hu : like u u').
  { unfold u, u', ndim. rewrite (proj1 Ht). clear u u'. destruct (List.length (a_shape t') =? 1)%nat; [now apply reshape_col_like|exact Ht]. }
  apply (alike_bind like); [exact HR|]. intros x x' Hx. apply (alike_bind like).
  - apply alike_lift. intros a b. apply reshape_like; [apply Hu|exact Hx].
  - intros z z' Hz. destruct m; [now constructor|]. apply alike_lift. intros a b. now apply arr_zip_like.
Qed.

Lemma linear_raw_alike prior d : alike like (linear_raw prior d) (linear_raw prior d).
Proof.
  unfold linear_raw. destruct d; try solve [constructor]. destruct (rev (a_shape a)) as [|[|k] l]; try solve [constructor]. apply (alike_bind (fun _ _ => True)); [constructor; constructor; exact I|].
  intros _ _ _. apply (alike_bind like); [apply alike_sample|]. intros c c' [_ L]. apply alike_lift. intros x y. unfold matrix_multiplication.
  destruct (rev (a_shape a)); [discriminate|]. rewrite L. destruct (_ =? _)%nat; [|discriminate]. intros [= <-] [= <-]. split; [reflexivity|]. cbn. now rewrite !map_length.
Qed.
Lemma log_raw_alike p q d : alike like (log_raw p q d) (log_raw p q d).
Proof.
  unfold log_raw. destruct d; try solve [constructor]. apply (alike_bind like); [apply alike_sample|]. intros s s' _. apply (alike_bind like); [apply alike_sample|]. intros r r' _.
  constructor. now apply arr_map_like.
Qed.
Lemma hill_raw_alike p q r d : alike like (hill_raw p q r d) (hill_raw p q r d).
Proof.
  unfold hill_raw. destruct d; try solve [constructor]. apply (alike_bind like); [apply alike_sample|]. intros h h' _. apply (alike_bind like); [apply alike_sample|]. intros s s' _.
  apply (alike_bind like); [apply alike_sample|]. intros m m' _. apply (alike_bind (fun x y => List.length x = List.length y)).
  - apply alike_lift. intros x y Hx Hy. apply mapM_length in Hx. apply mapM_length in Hy. congruence.
  - intros x y L. constructor. split; [reflexivity|exact L].
Qed.

Lemma predict_alike e : forall d pe pe', dict_like pe pe' -> alike like (predict e d pe) (predict e d pe').
Proof.
  induction e as [m prior b|m p q b|m p q r b|inner IH table ps b s|sp tl ps m b ff x l]; intros d pe pe' HD; cbn [predict].
  - apply predict_mode_alike; [exact HD|apply linear_raw_alike].
  - apply predict_mode_alike; [exact HD|apply log_raw_alike].
  - apply predict_mode_alike; [exact HD|apply hill_raw_alike].
  - destruct d; try solve [constructor]. apply (alike_bind like); [now apply IH|]. intros v v' Hv. apply (alike_bind like); [apply alike_sample|]. intros _ _ _. now constructor.
  - destruct l as [[mm bb]|]; [|constructor]. apply predict_mode_alike; [exact HD|apply linear_raw_alike].
Qed.

(** * The location *)
Lemma apply_effect_alike (data : dict edata) name e m m' pe pe' : like m m' -> dict_like pe pe' ->
  alike (fun x y => like (fst x) (fst y) /\ dict_like (snd x) (snd y))
    (apply_effect data (m, pe) (name, predict e)) (apply_effect data (m', pe') (name, predict e)).
Proof.
  intros Hm Hp. unfold apply_effect. apply (alike_bind (fun a b => a = b)); [apply alike_lift; congruence|]. intros d _ <-.
  apply (alike_bind like); [apply alike_scope; now apply predict_alike|]. intros v v' Hv. apply (alike_bind like); [constructor; [exact Hv|now constructor]|].
  intros w w' Hw. apply (alike_bind like); [apply alike_lift; intros a b; now apply arr_zip_like|]. intros z z' Hz. constructor. split; [exact Hz|now apply dict_like_set].
Qed.

Lemma effects_alike (data : dict edata) effs : forall m m' pe pe', like m m' -> dict_like pe pe' ->
  alike (fun x y => like (fst x) (fst y) /\ dict_like (snd x) (snd y))
    (apply_effects data (m, pe) (effect_fns effs)) (apply_effects data (m', pe') (effect_fns effs)).
Proof.
  induction effs as [|[name e] effs IH]; intros m m' pe pe' Hm Hp; cbn [effect_fns map apply_effects]; [constructor; auto|].
  eapply alike_bind; [now apply apply_effect_alike|]. intros [x px] [y py] [Hx Hy]. now apply IH.
Qed.

Lemma compute_mean_alike (trend trend' : prog arr) (data : option (dict edata)) effs : alike like trend trend' ->
  alike like (compute_mean trend data (option_map effect_fns effs)) (compute_mean trend' data (option_map effect_fns effs)).
Proof.
  intros HT. unfold compute_mean. apply (alike_bind like); [exact HT|]. intros t t' Ht. apply (alike_bind like); [constructor; [exact Ht|now constructor]|]. intros _ _ _.
  destruct effs as [effs|]; cbn [option_map]; [|now constructor]. destruct (effect_fns effs) as [|f fs] eqn:E; [now constructor|]. rewrite <- E. destruct data as [data|]; [|constructor].
  eapply alike_bind; [apply effects_alike; [exact Ht|constructor; [split; [reflexivity|exact Ht]|constructor]]|]. intros [x px] [y py] [Hx _]. now constructor.
Qed.

(** * Model functions *)
Lemma squeeze_last_like a b x y : like a b -> squeeze_last a = Ok x -> squeeze_last b = Ok y -> like x y.
Proof.
  intros [E L]. unfold squeeze_last. rewrite <- E. destruct (rev (a_shape a)) as [|[|[|n]] l]; try discriminate. intros [= <-] [= <-]. split; [reflexivity|exact L].
Qed.
Lemma transpose_like a b : like a b -> like (transpose a) (transpose b).
Proof. intros [E L]. unfold transpose, tabulate. rewrite <- E. split; [reflexivity|]. cbn. now rewrite !map_length. Qed.
Lemma matmul_like a b a' b' x y : like a a' -> like b b' -> matmul a b = Ok x -> matmul a' b' = Ok y -> like x y.
Proof.
  intros [E L] [E' L']. unfold matmul. rewrite <- E, <- E'. destruct (a_shape a) as [|n [|m [|]]]; try discriminate. destruct (a_shape b) as [|m' [|k [|]]]; try discriminate.
  destruct (m =? m')%nat; [|discriminate]. intros [= <-] [= <-]. split; [reflexivity|]. cbn [a_flat].
  generalize (seq 0 n). intros l. induction l as [|i l IH]; [reflexivity|]. simpl. rewrite !app_length, IH, !map_length. reflexivity.
Qed.
Lemma diag_like a b : like a b -> like (diag a) (diag b).
Proof.
  intros [E L]. unfold diag. rewrite <- L. split; [reflexivity|]. cbn [a_flat]. set (l0 := seq 0 (List.length (a_flat a))). generalize l0 at 2 4. intros l.
  induction l as [|i l IH]; [reflexivity|]. simpl. rewrite !app_length, IH, !map_length. reflexivity.
Qed.

Section Models.
Variable trend trend' : prog arr.
Hypothesis trend_alike : alike like trend trend'.
Variable data : option (dict edata).
Variable effs : option (dict effect).
Notation fns := (option_map effect_fns effs).

Lemma tail_alike n d d' (sh : arr) (sh' : arr) obs : like sh sh' -> alike like (observe n d (a_shape sh) obs) (observe n d' (a_shape sh') obs).
Proof. intros [<- _]. apply alike_sample. Qed.

Lemma univariate_alike y noise : alike like (univariate_model y trend data fns noise) (univariate_model y trend' data fns noise).
Proof.
  unfold univariate_model. apply (alike_bind like); [now apply compute_mean_alike|]. intros m m' Hm. apply (alike_bind like); [apply alike_sample|]. intros s s' _.
  apply (alike_bind (fun a b => a = b)); [apply alike_lift; unfold len; rewrite (proj1 Hm); congruence|]. intros n _ <-.
  apply (alike_bind (fun _ _ => True)); [constructor; now constructor|]. intros _ _ _. apply tail_alike. now apply reshape_col_like.
Qed.
Lemma gamma_alike y noise : alike like (univariate_gamma_model y trend data fns noise) (univariate_gamma_model y trend' data fns noise).
Proof.
  unfold univariate_gamma_model. apply (alike_bind like); [now apply compute_mean_alike|]. intros m m' Hm. apply (alike_bind like); [apply alike_sample|]. intros s s' _.
  apply (alike_bind (fun a b => a = b)); [apply alike_lift; unfold len, to_positive, arr_map; cbn [a_shape]; rewrite (proj1 Hm); congruence|]. intros n _ <-.
  apply (alike_bind (fun _ _ => True)); [constructor; now constructor|]. intros _ _ _. apply tail_alike. apply reshape_col_like. now apply arr_map_like.
Qed.
Lemma negbinomial_alike y noise k : alike like (univariate_negbinomial_model y trend data fns noise k) (univariate_negbinomial_model y trend' data fns noise k).
Proof.
  unfold univariate_negbinomial_model. apply (alike_bind like); [now apply compute_mean_alike|]. intros m m' Hm. apply (alike_bind like); [apply alike_sample|]. intros s s' _.
  apply (alike_bind (fun a b => a = b)); [apply alike_lift; unfold len, to_positive, arr_map; cbn [a_shape]; rewrite (proj1 Hm); congruence|]. intros n _ <-.
  apply (alike_bind (fun _ _ => True)); [constructor; now constructor|]. intros _ _ _. apply tail_alike. apply reshape_col_like. apply arr_map_like. now apply arr_map_like.
Qed.
Lemma multivariate_alike y noise conc sg : alike like (multivariate_model y trend data fns noise conc sg) (multivariate_model y trend' data fns noise conc sg).
Proof.
  unfold multivariate_model. apply (alike_bind like); [now apply compute_mean_alike|]. intros m m' Hm. apply (alike_bind (fun a b => a = b)).
  { destruct y as [y|]; [|now constructor]. apply (alike_bind (fun a b => a = b)); [apply alike_lift; congruence|]. intros a _ <-. now constructor. }
  intros ya _ <-. destruct sg.
  - apply (alike_bind like); [apply alike_sample|]. intros s s' _. apply (alike_bind (fun _ _ => True)); [constructor; now constructor|]. intros _ _ _. apply tail_alike. now apply reshape_col_like.
  - apply (alike_bind (fun a b => a = b)); [apply alike_lift; unfold shape_at; rewrite (proj1 Hm); congruence|]. intros n _ <-.
    apply (alike_bind like); [apply alike_sample|]. intros s s' Hs. apply (alike_bind like); [apply alike_sample|]. intros co co' Hco.
    apply (alike_bind like); [apply alike_lift; intros a b; apply matmul_like; [now apply diag_like|exact Hco]|]. intros h h' Hh.
    apply (alike_bind like); [apply alike_lift; intros a b; apply matmul_like; [exact Hh|now apply diag_like]|]. intros cv cv' Hcv.
    apply (alike_bind (fun a b => a = b)); [apply alike_lift; unfold shape_at; rewrite (proj1 Hm); congruence|]. intros t _ <-.
    rewrite (proj1 Hm). apply (alike_bind (fun _ _ => True)); [constructor; now constructor|]. intros _ _ _.
    apply (alike_bind like); [apply alike_lift; intros a b; now apply squeeze_last_like|]. intros l l' Hl. rewrite (proj1 (transpose_like l l' Hl)). apply alike_sample.
Qed.
End Models.

(** * Trends *)
Lemma broadcast2_fst {A B} (a : list A) (b b' : list B) x y : List.length b = List.length b' -> broadcast2 a b = Ok x -> broadcast2 a b' = Ok y -> map fst x = map fst y.
Proof.
  intros L. unfold broadcast2. rewrite <- L. destruct (List.length a =? List.length b)%nat eqn:E.
  - intros [= <-] [= <-]. apply Nat.eqb_eq in E. clear -E L. revert b b' E L. induction a as [|u a IH]; intros [|v b] [|v' b'] E L; simpl in *; try discriminate; [reflexivity|]. f_equal. apply IH; lia.
  - clear E. destruct a as [|u [|u' a]].
    + destruct b as [|v [|]], b' as [|v' [|]]; simpl in L; try discriminate; intros [= <-] [= <-]; reflexivity.
    + intros [= <-] [= <-]. rewrite !map_map. cbn. clear -L. revert b' L. induction b as [|v b IH]; intros [|v' b'] L; simpl in *; try discriminate; [reflexivity|]. f_equal. apply IH. lia.
    + destruct b as [|v [|]], b' as [|v' [|]]; simpl in L; try discriminate. intros [= <-] [= <-]. simpl. rewrite !map_map. reflexivity.
Qed.
Lemma broadcast2_len {A B A' B'} (a : list A) (a' : list A') (b : list B) (b' : list B') x y : List.length a = List.length a' -> List.length b = List.length b' ->
  broadcast2 a b = Ok x -> broadcast2 a' b' = Ok y -> List.length x = List.length y.
Proof.
  intros La Lb. unfold broadcast2. rewrite <- La, <- Lb. destruct (List.length a =? List.length b)%nat.
  - intros [= <-] [= <-]. rewrite !combine_length. congruence.
  - destruct a as [|u [|u1 a]], a' as [|u' [|u1' a']]; simpl in La; try discriminate.
    + destruct b as [|v [|]], b' as [|v' [|]]; simpl in Lb; try discriminate; intros [= <-] [= <-]; reflexivity.
    + intros [= <-] [= <-]. now rewrite !map_length.
    + destruct b as [|v [|]], b' as [|v' [|]]; simpl in Lb; try discriminate. intros [= <-] [= <-]. simpl. rewrite !map_length. simpl in La. congruence.
Qed.

Lemma piecewise_predict_like sq n m o o' c c' x y : List.length o = List.length o' -> List.length c = List.length c' ->
  piecewise_predict sq n m o c = Ok x -> piecewise_predict sq n m o' c' = Ok y -> like x y.
Proof.
  intros Lo Lc. unfold piecewise_predict. rewrite <- Lc. destruct m as [rows|series].
  - destruct (forallb _ _); [|discriminate]. destruct (broadcast2 (map (fun r => dot r c) rows) o) as [u|] eqn:E; [|discriminate].
    destruct (broadcast2 (map (fun r => dot r c') rows) o') as [u'|] eqn:E'; [|discriminate]. cbn [bind]. intros [= <-] [= <-].
    assert (L : List.length u = List.length u') by (eapply broadcast2_len; [| |exact E|exact E']; [now rewrite !map_length|exact Lo]).
    split; cbn; [now rewrite L|now rewrite !map_length].
  - destruct (forallb _ _); [|discriminate]. destruct (broadcast2 series o) as [u|] eqn:E; [|discriminate]. destruct (broadcast2 series o') as [u'|] eqn:E'; [|discriminate]. cbn [bind].
    pose proof (broadcast2_fst _ _ _ _ _ Lo E E') as F. assert (L : List.length u = List.length u') by (rewrite <- (map_length fst u), F; apply map_length).
    set (vals := concat _). set (vals' := concat _).
    assert (V : List.length vals = List.length vals').
    { unfold vals, vals'. clear -F. revert u' F. induction u as [|[s0 k] u IH]; intros [|[s1 k'] u'] F; simpl in F; try discriminate; [reflexivity|]. injection F as -> F. simpl.
      rewrite !app_length, !map_length. f_equal. now apply IH. }
    destruct (_ && _)%bool; intros [= <-] [= <-]; split; cbn; rewrite ?V, ?L; auto.
Qed.

Lemma chunks_lengths {A} (l l' : list A) k n : List.length l = List.length l' -> map (@List.length A) (chunks k n l) = map (@List.length A) (chunks k n l').
Proof.
  intros L. unfold chunks. rewrite !map_map. apply map_ext. intros i. rewrite !firstn_length, !skipn_length. congruence.
Qed.

Lemma broadcast2_lengths {A B} (a a' : list (list A)) (b b' : list B) x y : map (@List.length A) a = map (@List.length A) a' -> List.length b = List.length b' ->
  broadcast2 a b = Ok x -> broadcast2 a' b' = Ok y -> map (fun p => List.length (fst p)) x = map (fun p => List.length (fst p)) y.
Proof.
  intros La Lb. assert (L : List.length a = List.length a') by (rewrite <- (map_length (@List.length A) a), La; apply map_length).
  unfold broadcast2. rewrite <- L, <- Lb. destruct (List.length a =? List.length b)%nat eqn:E.
  - intros [= <-] [= <-]. apply Nat.eqb_eq in E. clear -La Lb E. revert a' b b' La Lb E.
    induction a as [|u a IH]; intros [|u' a'] [|v b] [|v' b'] La Lb E; simpl in *; try discriminate; [reflexivity|]. injection La as E1 La. f_equal; [exact E1|]. apply IH; [exact La|lia|lia].
  - clear E. destruct a as [|u [|u1 a]], a' as [|u' [|u1' a']]; simpl in L; try discriminate.
    + destruct b as [|v [|]], b' as [|v' [|]]; simpl in Lb; try discriminate; intros [= <-] [= <-]; reflexivity.
    + intros [= <-] [= <-]. rewrite !map_map. cbn. simpl in La. injection La as La. clear -La Lb. revert b' Lb. induction b as [|v b IH]; intros [|v' b'] Lb; simpl in *; try discriminate; [reflexivity|].
      f_equal; [exact La|]. apply IH. lia.
    + destruct b as [|v [|]], b' as [|v' [|]]; simpl in Lb; try discriminate. intros [= <-] [= <-]. simpl. rewrite !map_map. exact La.
Qed.

Lemma logistic_predict_like sq n m k k' o o' c c' x y : List.length k = List.length k' -> List.length o = List.length o' -> List.length c = List.length c' ->
  logistic_predict sq n m k o c = Ok x -> logistic_predict sq n m k' o' c' = Ok y -> like x y.
Proof.
  intros Lk Lo Lc. unfold logistic_predict. destruct (piecewise_predict sq n m o c) as [t|] eqn:E; [|discriminate]. destruct (piecewise_predict sq n m o' c') as [t'|] eqn:E'; [|discriminate]. cbn [bind].
  pose proof (piecewise_predict_like _ _ _ _ _ _ _ _ _ Lo Lc E E') as [S0 L0].
  assert (G : (match match a_shape t with [N; T; _] => Some (T, chunks T N (a_flat t)) | [T; _] => Some (T, [a_flat t]) | _ => None end with
      | None => Err TypeError
      | Some (T, bs) => bc <- broadcast2 bs k ;; Ok (mkArr [List.length bc; T; 1] (concat (map (fun x => map (logistic (snd x)) (fst x)) bc))) end) = Ok x ->
     (match match a_shape t' with [N; T; _] => Some (T, chunks T N (a_flat t')) | [T; _] => Some (T, [a_flat t']) | _ => None end with
      | None => Err TypeError
      | Some (T, bs) => bc <- broadcast2 bs k' ;; Ok (mkArr [List.length bc; T; 1] (concat (map (fun x => map (logistic (snd x)) (fst x)) bc))) end) = Ok y -> like x y).
  { rewrite <- S0. assert (H : forall T (bs bs' : list (list R)), map (@List.length R) bs = map (@List.length R) bs' ->
       (bc <- broadcast2 bs k ;; Ok (mkArr [List.length bc; T; 1] (concat (map (fun x => map (logistic (snd x)) (fst x)) bc)))) = Ok x ->
       (bc <- broadcast2 bs' k' ;; Ok (mkArr [List.length bc; T; 1] (concat (map (fun x => map (logistic (snd x)) (fst x)) bc)))) = Ok y -> like x y).
    { intros T bs bs' Lb. destruct (broadcast2 bs k) as [u|] eqn:Eu; [|discriminate]. destruct (broadcast2 bs' k') as [u'|] eqn:Eu'; [|discriminate]. cbn [bind]. intros [= <-] [= <-].
      pose proof (broadcast2_lengths _ _ _ _ _ _ Lb Lk Eu Eu') as F. split; cbn.
      - rewrite <- (map_length (fun p => List.length (fst p)) u), F, map_length. reflexivity.
      - clear -F. revert u' F. induction u as [|[b0 k0] u IH]; intros [|[b1 k1] u'] F; simpl in F; try discriminate; [reflexivity|]. injection F as F0 F. simpl. rewrite !app_length, !map_length, F0. f_equal. now apply IH. }
    destruct (a_shape t) as [|d1 [|d2 [|d3 [|]]]]; try discriminate.
    - apply H. simpl. congruence.
    - apply H. now apply chunks_lengths. }
  destruct n as [|[|n]]; [exact G| |exact G]. destruct k as [|k0 [|k1 k]], k' as [|k0' [|k1' k']]; simpl in Lk; try discriminate; try exact G.
  intros [= <-] [= <-]. apply arr_map_like. split; assumption.
Qed.

Lemma piecewise_prog_alike cap f m : alike like (piecewise_prog cap f m) (piecewise_prog cap f m).
Proof.
  unfold piecewise_prog.
  assert (V : forall (k k' : list R -> list R -> prog arr), (forall o o' c c', List.length o = List.length o' -> List.length c = List.length c' -> alike like (k o c) (k' o' c')) ->
    alike like (locs <~ lift_res (mapM finite (pf_offset_loc f)) ;;
    o <~ sample "offset" (DNormal (vector locs) (const_arr [List.length locs] (pw_offset_scale (pf_params f)))) [List.length locs] ;;
    _ <~ (if Nat.eqb (List.length (pf_cp_loc f)) (List.length (pf_cp_scale f)) then Ret tt else Raise ValueError) ;;
    c <~ sample "changepoint_coefficients" (DLaplace (vector (pf_cp_loc f)) (vector (pf_cp_scale f))) [List.length (pf_cp_loc f)] ;;
    k (a_flat o) (a_flat c))
    (locs <~ lift_res (mapM finite (pf_offset_loc f)) ;;
    o <~ sample "offset" (DNormal (vector locs) (const_arr [List.length locs] (pw_offset_scale (pf_params f)))) [List.length locs] ;;
    _ <~ (if Nat.eqb (List.length (pf_cp_loc f)) (List.length (pf_cp_scale f)) then Ret tt else Raise ValueError) ;;
    c <~ sample "changepoint_coefficients" (DLaplace (vector (pf_cp_loc f)) (vector (pf_cp_scale f))) [List.length (pf_cp_loc f)] ;;
    k' (a_flat o) (a_flat c))).
  { intros k k' H. apply (alike_bind (fun a b => a = b)); [apply alike_lift; congruence|]. intros locs _ <-. apply (alike_bind like); [apply alike_sample|]. intros o o' Ho.
    apply (alike_bind (fun _ _ => True)); [destruct (_ =? _)%nat; constructor; exact I|]. intros _ _ _. apply (alike_bind like); [apply alike_sample|]. intros c c' Hc. apply H; [apply Ho|apply Hc]. }
  destruct (pw_logistic (pf_params f)) as [lc|].
  - apply (alike_bind (fun _ _ => True)); [constructor; now constructor|]. intros _ _ _. apply (alike_bind like); [apply alike_sample|]. intros k k' Hk.
    apply (V (fun o c => lift_res (logistic_predict (pw_squeeze (pf_params f)) (pf_n_series f) m (a_flat k) o c)) (fun o c => lift_res (logistic_predict (pw_squeeze (pf_params f)) (pf_n_series f) m (a_flat k') o c))).
    intros o o' c c' Lo Lc. apply alike_lift. intros a b. apply logistic_predict_like; [apply Hk|exact Lo|exact Lc].
  - apply (V (fun o c => lift_res (piecewise_predict (pw_squeeze (pf_params f)) (pf_n_series f) m o c)) (fun o c => lift_res (piecewise_predict (pw_squeeze (pf_params f)) (pf_n_series f) m o c))).
    intros o o' c c' Lo Lc. apply alike_lift. intros a b. now apply piecewise_predict_like.
Qed.

Lemma trend_predict_alike t td : alike like (trend_predict t td) (trend_predict t td).
Proof.
  destruct t as [p cap b [f|]|s b [loc|]|e]; cbn [trend_predict]; try solve [constructor]; destruct td; try solve [constructor].
  - apply piecewise_prog_alike.
  - unfold flat_prog. destruct (flat_prior loc s). apply (alike_bind like); [apply alike_sample|]. intros c c' _. constructor. apply arr_map_like. apply like_refl.
  - apply predict_alike. constructor.
Qed.

Lemma model_call_alike c s p t td y data : alike like (model_call c s p t td y data) (model_call c s p t td y data).
Proof.
  unfold model_call. pose proof (trend_predict_alike t td) as H. destruct (c_hier c).
  - apply (multivariate_alike _ _ H data (Some (p_effects p))).
  - set (fs := if p_has_exogenous p then _ else _). assert (E : fs = option_map effect_fns (if p_has_exogenous p then Some (p_effects p) else None)) by (unfold fs; destruct (p_has_exogenous p); reflexivity).
    rewrite E. destruct (String.eqb _ _); [now apply univariate_alike|]. destruct (String.eqb _ _); [now apply gamma_alike|]. destruct (String.eqb _ _); [now apply negbinomial_alike|constructor].
Qed.

Lemma predictive_nodup latent tr : NoDup (map fst tr) -> NoDup (map fst (predictive_values latent tr)).
Proof.
  intros N. unfold predictive_values. induction tr as [|[k x] tr IH]; simpl; [constructor|]. inversion N; subst. rewrite map_app.
  assert (G : forall k', In k' (map fst (flat_map (fun ns : string * site => match snd ns with SSample _ v _ => if str_in (fst ns) latent then [] else [(fst ns, v)] | SDet v => [(fst ns, v)] | SPlate _ => [] end) tr)) -> In k' (map fst tr)).
  { intros k' Hk. apply in_map_iff in Hk as ([k1 v1] & <- & Hk). apply in_flat_map in Hk as ([k2 s2] & Hin & Hk). cbn in *. apply in_map_iff. exists (k2, s2). split; [|exact Hin]. cbn.
    destruct s2; [destruct (str_in k2 _)| |]; simpl in Hk; intuition congruence. }
  destruct x; [destruct (str_in k latent)| |]; cbn [map app fst]; try (apply IH; assumption); constructor; auto.
Qed.

(** * The engine: drawing succeeds as soon as every single draw does *)
Lemma engine_predict_total {P} (guide_draw : P -> Z -> nat -> prog arr -> env) complete_draw a i m : alike like m m ->
  draws guide_draw complete_draw a i m <> [] ->
  (forall e, In e (draws guide_draw complete_draw a i m) -> exists o tr, run e [] m = Ok (o, tr) /\ NoDup (map fst tr)) ->
  exists d, engine_predict guide_draw complete_draw a i m = Ok d /\
    forall e o tr, In e (draws guide_draw complete_draw a i m) -> run e [] m = Ok (o, tr) ->
      Forall2 (fun x y => fst x = fst y /\ a_shape (snd y) = List.length (draws guide_draw complete_draw a i m) :: a_shape (snd x) /\
        List.length (a_flat (snd y)) = List.length (draws guide_draw complete_draw a i m) * List.length (a_flat (snd x))) (predictive_values (latent_of i) tr) d.
Proof.
  intros AL NE RUN. unfold engine_predict. set (ds := draws _ _ _ _ _) in *.
  assert (M : exists ts, mapM (fun e => run e [] m) ds = Ok ts /\ List.length ts = List.length ds /\
    (forall t, In t ts -> exists e, In e ds /\ run e [] m = Ok t /\ NoDup (map fst (snd t))) /\ (forall e t, In e ds -> run e [] m = Ok t -> In t ts)).
  { clear NE. induction ds as [|e ds IH]; [exists []; repeat split; simpl; tauto|]. destruct IH as (ts & Et & Lt & Ft & Gt); [intros; apply RUN; simpl; auto|].
    destruct (RUN e ltac:(simpl; auto)) as (o & tr & Er & N). exists ((o, tr) :: ts). cbn [mapM]. rewrite Er. cbn [bind]. rewrite Et. cbn [bind]. split; [reflexivity|]. split; [simpl; congruence|]. split.
    - intros t [<-|Ht]; [exists e; simpl; auto|]. destruct (Ft t Ht) as (e' & H1 & H2). exists e'. simpl. auto.
    - intros e' t [<-|He] Hr; [left; congruence|right; eauto]. }
  destruct M as (ts & Et & Lt & Ft & Gt). rewrite Et. cbn [bind]. set (l := map _ ts).
  assert (Ll : List.length l = List.length ds) by (unfold l; rewrite map_length; exact Lt).
  destruct (stack_total l) as (r & Er & Fr).
  - destruct l; [destruct ds; [congruence|discriminate]|discriminate].
  - intros d d' Hd Hd'. unfold l in Hd, Hd'. apply in_map_iff in Hd as ([o tr] & <- & Hd). apply in_map_iff in Hd' as ([o' tr'] & <- & Hd'). cbn [snd]. apply predictive_like.
    destruct (Ft _ Hd) as (e & _ & R1 & _). destruct (Ft _ Hd') as (e' & _ & R2 & _). eapply (run_like like e e' m m AL); [constructor|exact R1|exact R2].
  - intros d Hd. unfold l in Hd. apply in_map_iff in Hd as ([o tr] & <- & Hd). cbn [snd]. destruct (Ft _ Hd) as (_ & _ & _ & N). cbn [snd] in N. now apply predictive_nodup.
  - exists r. split; [exact Er|]. intros e o tr He Hr. rewrite <- Ll. apply (Fr (predictive_values (latent_of i) tr)). unfold l. apply in_map_iff. exists (o, tr). split; [reflexivity|]. eapply Gt; eauto.
Qed.
