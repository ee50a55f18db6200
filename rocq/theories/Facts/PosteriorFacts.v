(** The model of a forecast has the parameters of the fitted model. *)
From Coq Require Import Reals Lra String Bool ZArith List Lia.
From Verif.Model Require Import Base Num XFloat Frame Arr Expand Aggregate Scale Prog Likelihood Effect Trend TrendProg Engine Predict Forecaster Tensors.
From Verif.Spec Require Import FrameSpec ScaleSpec TrendSpec ProgSpec EffectSpec ForecasterSpec AlignSpec ShapeSpec SiteSpec PosteriorSpec.
From Verif.Facts Require Import BaseFacts NumFacts OrderFacts FrameFacts FrameProps ArrFacts ProgFacts MeanFacts LikelihoodFacts ScaleFacts ExpandFacts EffectFacts EffectPredict
  TrendFacts AlignFacts PredictFacts ForecasterFacts ForecasterInv ForecasterProps CompleteFacts ShapeFacts SiteFacts AlikeFacts RaiseFacts.
Import ListNotations.
Local Open Scope string_scope.

(** The two programs sample the same parameters from the same priors; given values, deterministic values,
    plates and the target (if [t] is true) may differ, and either may raise. *)
Inductive shared {A B} (t : bool) (Q : A -> B -> Prop) : prog A -> prog B -> Prop :=
| sd_ret a b : Q a b -> shared t Q (Ret a) (Ret b)
| sd_raise_l e q : shared t Q (Raise e) q
| sd_raise_r p e : shared t Q p (Raise e)
| sd_latent n d sh k k' : (forall v v', like v v' -> shared t Q (k v) (k' v')) -> shared t Q (Sample n d sh None k) (Sample n d sh None k')
| sd_given n d d' sh sh' v v' k k' : shared t Q (k v) (k' v') -> shared t Q (Sample n d sh (Some v) k) (Sample n d' sh' (Some v') k')
| sd_target d d' sh sh' o o' k k' : t = true -> (forall v v', shared t Q (k v) (k' v')) -> shared t Q (Sample "obs" d sh o k) (Sample "obs" d' sh' o' k')
| sd_det n v v' k k' : shared t Q k k' -> shared t Q (Det n v k) (Det n v' k')
| sd_plate n s s' k k' : shared t Q k k' -> shared t Q (Plate n s k) (Plate n s' k').

Lemma shared_bind {A B A' B'} t (Q : A -> B -> Prop) (Q' : A' -> B' -> Prop) p p' f f' :
  shared t Q p p' -> (forall a b, Q a b -> shared t Q' (f a) (f' b)) -> shared t Q' (pbind p f) (pbind p' f').
Proof. intros H F. induction H; simpl; auto; constructor; auto. Qed.
Lemma shared_lift {A B} t (Q : A -> B -> Prop) m m' : (forall a b, m = Ok a -> m' = Ok b -> Q a b) -> shared t Q (lift_res m) (lift_res m').
Proof. intros H. destruct m; simpl; [|constructor]. destruct m'; simpl; constructor. auto. Qed.
Lemma shared_scope {A B} (Q : A -> B -> Prop) s p p' : shared false Q p p' -> shared false Q (scope s p) (scope s p').
Proof. intros H. induction H; simpl; try (constructor; auto; fail). discriminate. Qed.
Lemma shared_up {A B} (Q : A -> B -> Prop) p p' : shared false Q p p' -> shared true Q p p'.
Proof. intros H. induction H; try (constructor; auto; fail). Qed.
Lemma shared_sample t n d sh : shared t like (sample n d sh) (sample n d sh).
Proof. constructor. intros v v' H. constructor. exact H. Qed.
Lemma shared_target d d' sh sh' o o' : shared true (fun _ _ => True) (observe "obs" d sh o) (observe "obs" d' sh' o').
Proof. constructor; [reflexivity|]. intros. constructor. exact I. Qed.
Lemma shared_plate t n s s' : shared t (fun _ _ => True) (plate n s) (plate n s').
Proof. constructor. constructor. exact I. Qed.

(** * Traces *)
Definition site_shared (n : string) (s s' : site) : Prop :=
  match s, s' with
  | SSample d v o, SSample d' v' o' => n = "obs" \/ o = true /\ o' = true \/ o = false /\ o' = false /\ d = d' /\ a_shape v = a_shape v'
  | SDet _, SDet _ | SPlate _, SPlate _ => True
  | _, _ => False
  end.
Definition trace_shared (t t' : trace) : Prop := Forall2 (fun x y => fst x = fst y /\ site_shared (fst x) (snd x) (snd y)) t t'.

Lemma trace_shared_set t t' n s s' : trace_shared t t' -> site_shared n s s' -> trace_shared (dict_set t n s) (dict_set t' n s').
Proof.
  intros F H. induction F as [|[k x] [k' x'] t t' [E H'] F IH]; simpl; [constructor; [auto|constructor]|]. cbn in E, H'. subst k'.
  destruct (String.eqb_spec n k) as [->|_]; constructor; auto.
Qed.
Lemma record_shared t t' n s s' r r' : trace_shared t t' -> site_shared n s s' -> record t n s = Ok r -> record t' n s' = Ok r' -> trace_shared r r'.
Proof.
  intros F H. unfold record. destruct s, s'; try contradiction; try (intros [= <-] [= <-]; now apply trace_shared_set).
  destruct (dict_get t n), (dict_get t' n); try discriminate. intros [= <-] [= <-]. now apply trace_shared_set.
Qed.

Lemma run_shared {A B} (Q : A -> B -> Prop) e e' p p' : shared true Q p p' -> forall t t' a b r r', trace_shared t t' ->
  run e t p = Ok (a, r) -> run e' t' p' = Ok (b, r') -> trace_shared r r'.
Proof.
  induction 1 as [a0 b0 HQ|x q|p x|n d sh k k' Hk IH|n d d' sh sh' v v' k k' Hk IH|d d' sh sh' o o' k k' _ Hk IH|n v v' k k' Hk IH|n s s' k k' Hk IH];
    intros t t' a b r r' F Hr Hr'; cbn [run] in Hr, Hr'; try discriminate.
  - injection Hr as <- <-. injection Hr' as <- <-. auto.
  - destruct (record t n _) as [t1|] eqn:E1; [|discriminate]. destruct (record t' n _) as [t2|] eqn:E2; [|discriminate]. cbn [bind] in Hr, Hr'.
    eapply (IH _ _ (site_value_like e e' n sh None)); [|exact Hr|exact Hr']. eapply record_shared; [exact F| |exact E1|exact E2].
    cbn [site_shared]. right. right. repeat split; apply site_value_like.
  - destruct (record t n _) as [t1|] eqn:E1; [|discriminate]. destruct (record t' n _) as [t2|] eqn:E2; [|discriminate]. cbn [bind] in Hr, Hr'.
    eapply IH; [|exact Hr|exact Hr']. eapply record_shared; [exact F| |exact E1|exact E2]. cbn [site_shared]. auto.
  - destruct (record t _ _) as [t1|] eqn:E1; [|discriminate]. destruct (record t' _ _) as [t2|] eqn:E2; [|discriminate]. cbn [bind] in Hr, Hr'.
    eapply IH; [|exact Hr|exact Hr']. eapply record_shared; [exact F| |exact E1|exact E2]. cbn [site_shared]. auto.
  - destruct (record t n _) as [t1|] eqn:E1; [|discriminate]. destruct (record t' n _) as [t2|] eqn:E2; [|discriminate]. cbn [bind] in Hr, Hr'.
    eapply IH; [|exact Hr|exact Hr']. eapply record_shared; [exact F| |exact E1|exact E2]. exact I.
  - destruct (record t n _) as [t1|] eqn:E1; [|discriminate]. destruct (record t' n _) as [t2|] eqn:E2; [|discriminate]. cbn [bind] in Hr, Hr'.
    eapply IH; [|exact Hr|exact Hr']. eapply record_shared; [exact F| |exact E1|exact E2]. exact I.
Qed.

Lemma shared_parameters t t' : trace_shared t t' -> parameters t = parameters t'.
Proof.
  induction 1 as [|[k x] [k' x'] t t' [E H] F IH]; [reflexivity|]. cbn in E, H. subst k'. unfold parameters in *. cbn [flat_map fst snd]. rewrite IH. f_equal.
  destruct x as [d v o| |], x' as [d' v' o'| |]; try contradiction; try reflexivity. cbn [site_shared] in H.
  destruct H as [->|[[-> ->]|(-> & -> & -> & ->)]]; [|reflexivity|reflexivity]. cbn. now destruct o, o'.
Qed.

(** * Data of effects *)
Fixpoint data_shared (d d' : edata) : Prop :=
  match d, d' with
  | ENothing, ENothing => True
  | EArr a, EArr b => hd_error (rev (a_shape a)) = hd_error (rev (a_shape b))
  | ELift x _, ELift y _ => data_shared x y
  | _, _ => False
  end.
Lemma frame_array_last X a : frame_array X = Ok a -> hd_error (rev (a_shape a)) = Some (List.length (f_cols X)).
Proof. unfold frame_array. destruct (series_to_tensor_or_array X) as [[rows|s]|]; [| |discriminate]; cbn [bind]; intros [= <-]; reflexivity. Qed.
Lemma linear_transform_shared b X X' fh fh' d d' : linear_transform b X fh = Ok d -> linear_transform b X' fh' = Ok d' -> data_shared d d'.
Proof.
  unfold linear_transform. intros H H'. inv_bind H. cbn [bind] in H'. destruct (negb x); [discriminate|]. inv_bind H. cbn [bind] in H'. destruct x0.
  { injection H as <-. injection H' as <-. exact I. }
  inv_bind H. cbn [bind] in H'. inv_bind H. inv_bind H. inv_bind H'. inv_bind H'. injection H as <-. injection H' as <-. cbn [data_shared].
  apply frame_array_last in E3. apply frame_array_last in E5. apply select_columns_cols in E2 as (C & _). apply select_columns_cols in E4 as (C' & _). congruence.
Qed.
Lemma inner_transform_shared e : forall X X' fh fh' d d', f_cols X = f_cols X' -> inner_transform e X fh = Ok d -> inner_transform e X' fh' = Ok d' -> data_shared d d'.
Proof.
  assert (G : forall X X' d d', f_cols X = f_cols X' -> (a <- frame_array X ;; Ok (EArr a)) = Ok d -> (a <- frame_array X' ;; Ok (EArr a)) = Ok d' -> data_shared d d').
  { intros X X' d d' C H H'. inv_bind H. inv_bind H'. injection H as <-. injection H' as <-. cbn. apply frame_array_last in E. apply frame_array_last in E0. congruence. }
  induction e as [m p b|m p q b|m p q r b|i IH t p b s|sp tl ps m b ff x l]; intros X X' fh fh' d d' C H H'; cbn [inner_transform] in H, H'; try (eapply G; eauto; fail).
  - inv_bind H. inv_bind H. inv_bind H'. cbn [bind] in H'. injection H as <-. injection H' as <-. cbn [data_shared]. eapply IH; eauto.
  - inv_bind H. cbn [bind] in H'. inv_bind H. inv_bind H. inv_bind H'. inv_bind H'. inv_bind H. cbn [bind] in H'. match goal with u : (mode * Effect.base)%type |- _ => destruct u as [mm bb] end. eapply linear_transform_shared; eauto.
Qed.
Lemma transform_shared e X X' fh fh' d d' : transform e X fh = Ok d -> transform e X' fh' = Ok d' -> data_shared d d'.
Proof.
  unfold transform. intros H H'. inv_bind H. cbn [bind] in H'. destruct (negb x); [discriminate|]. inv_bind H. cbn [bind] in H'. destruct x0.
  { injection H as <-. injection H' as <-. exact I. }
  inv_bind H. cbn [bind] in H'. destruct X as [X|]; [|discriminate]. destruct X' as [X'|]; [|discriminate]. inv_bind H. inv_bind H'.
  eapply inner_transform_shared; [|exact H|exact H']. apply select_columns_cols in E2 as (C & _). apply select_columns_cols in E3 as (C' & _). congruence.
Qed.
Definition dict_shared (d d' : dict edata) : Prop := Forall2 (fun x y => fst x = fst y /\ data_shared (snd x) (snd y)) d d'.
Lemma dict_shared_set d d' n x y : dict_shared d d' -> data_shared x y -> dict_shared (dict_set d n x) (dict_set d' n y).
Proof.
  intros F H. induction F as [|[k u] [k' u'] t t' [E H'] F IH]; simpl; [constructor; [auto|constructor]|]. cbn in E, H'. subst k'. destruct (String.eqb n k); constructor; auto.
Qed.
Lemma dict_shared_item d d' k a b : dict_shared d d' -> dict_item d k = Ok a -> dict_item d' k = Ok b -> data_shared a b.
Proof.
  unfold dict_item. induction 1 as [|[n x] [n' x'] d d' [E H] F IH]; simpl; [discriminate|]. cbn in E, H. subst n'. destruct (String.eqb k n); [intros [= <-] [= <-]; exact H|exact IH].
Qed.
Lemma effects_data_shared fitted X X' fh fh' d d' : transform_effects fitted X fh = Ok d -> transform_effects fitted X' fh' = Ok d' -> dict_shared d d'.
Proof.
  unfold transform_effects. assert (I0 : dict_shared [] []) by constructor. revert I0. generalize (@nil (string * edata)) at 1 3. generalize (@nil (string * edata)).
  induction fitted as [|[[name e] cols] fitted IH]; intros acc' acc HA H H'; cbn [foldM] in H, H'; [injection H as <-; injection H' as <-; exact HA|].
  inv_bind H. inv_bind H'. inv_bind E. cbn [bind] in E0. eapply IH; [|exact H|exact H']. destruct x1.
  - injection E as <-. injection E0 as <-. exact HA.
  - inv_bind E. inv_bind E. inv_bind E0. inv_bind E0. injection E as <-. injection E0 as <-. apply dict_shared_set; [exact HA|]. eapply transform_shared; eauto.
Qed.

(** * Effects *)
Lemma mode_shared m raw raw' pe pe' : shared false (fun _ _ => True) raw raw' -> shared false (fun _ _ : arr => True) (predict_mode m raw pe) (predict_mode m raw' pe').
Proof.
  intros H. unfold predict_mode. apply (shared_bind _ (fun _ _ => True)); [apply shared_lift; auto|]. intros t t' _. apply (shared_bind _ (fun _ _ => True)); [exact H|]. intros x x' _.
  apply (shared_bind _ (fun _ _ => True)); [apply shared_lift; auto|]. intros z z' _. destruct m; [now constructor|]. apply shared_lift. auto.
Qed.
Lemma linear_shared prior d d' : data_shared d d' -> shared false (fun _ _ : arr => True) (linear_raw prior d) (linear_raw prior d').
Proof.
  intros H. unfold linear_raw. destruct d as [|a|]; try constructor. destruct d' as [|b|]; try constructor. cbn [data_shared] in H.
  destruct (rev (a_shape a)) as [|[|k] l], (rev (a_shape b)) as [|[|k'] l']; cbn [hd_error] in H; try constructor. injection H as <-.
  apply (shared_bind _ like (fun _ _ => True) (sample "coefs" prior [S k])); [apply shared_sample|]. intros. apply shared_lift. auto.
Qed.
Lemma predict_shared e : forall d d' pe pe', data_shared d d' -> shared false (fun _ _ => True) (predict e d pe) (predict e d' pe').
Proof.
  induction e as [m p b|m p q b|m p q r b|i IH t p b s|sp tl ps m b ff x l]; intros d d' pe pe' H; cbn [predict].
  - apply mode_shared. now apply linear_shared.
  - apply mode_shared. unfold log_raw. destruct d; try constructor; destruct d'; try constructor. intros v v' _. constructor. intros w w' _. now constructor.
  - apply mode_shared. unfold hill_raw. destruct d; try constructor; destruct d'; try constructor. intros v v' _. constructor. intros w w' _. constructor. intros u u' _.
    apply (shared_bind _ (fun _ _ => True)); [apply shared_lift; auto|]. intros. now constructor.
  - destruct d as [|a|d lift]; try constructor. destruct d' as [|a'|d' lift']; try constructor. cbn [data_shared] in H.
    apply (shared_bind _ (fun _ _ => True)); [now apply IH|]. intros z z' _. constructor. now constructor.
  - destruct l as [[mm bb]|]; [|constructor]. apply mode_shared. now apply linear_shared.
Qed.

(** * The mean.  [first] is the length of the first axis. *)
Definition first (b : bool) (x y : arr) : Prop := b = true -> hd_error (a_shape x) = hd_error (a_shape y).
Lemma mean_shared b (t t' : prog arr) data data' effs : shared false (first b) t t' -> dict_shared data data' ->
  shared false (first b) (compute_mean t (Some data) (option_map effect_fns effs)) (compute_mean t' (Some data') (option_map effect_fns effs)).
Proof.
  intros HT HD. unfold compute_mean. apply (shared_bind _ (first b)); [exact HT|]. intros v v' Hv. apply (shared_bind _ (fun _ _ => True)); [constructor; now constructor|]. intros _ _ _.
  destruct effs as [effs|]; cbn [option_map]; [|now constructor]. destruct (effect_fns effs) as [|g gs] eqn:E; [now constructor|]. rewrite <- E. clear E g gs.
  apply (shared_bind _ (fun x y : arr * dict arr => first b (fst x) (fst y))); [|intros [x px] [y py] Hx; now constructor].
  generalize [("trend", v)] as pe. generalize [("trend", v')] as pe'. revert v v' Hv. induction effs as [|[name e] effs IH]; intros v v' Hv pe' pe; cbn [effect_fns map apply_effects]; [now constructor|].
  eapply (shared_bind _ (fun x y : arr * dict arr => first b (fst x) (fst y))); [|intros [x px] [y py] Hx; now apply IH].
  unfold apply_effect. apply (shared_bind _ data_shared); [apply shared_lift; intros a a'; now apply dict_shared_item|]. intros d d' Hd.
  apply (shared_bind _ (fun _ _ => True)); [apply shared_scope; now apply predict_shared|]. intros x x' _. apply (shared_bind _ (fun _ _ => True)); [constructor; now constructor|]. intros y y' _.
  apply (shared_bind _ (first b)); [|intros; now constructor]. apply shared_lift. intros a a' Ha Ha'. unfold arr_zip in Ha, Ha'. destruct (list_eq_dec _ _ _); [|discriminate]. destruct (list_eq_dec _ _ _); [|discriminate].
  injection Ha as <-. injection Ha' as <-. exact Hv.
Qed.

Lemma shared_weaken {A B} t (Q Q' : A -> B -> Prop) p p' : (forall a b, Q a b -> Q' a b) -> shared t Q p p' -> shared t Q' p p'.
Proof. intros H F. induction F; constructor; auto. Qed.


(** * Model functions *)
Lemma tail_shared n k k' d d' sh sh' o o' : shared true (fun _ _ : arr => True) (_ <~ plate n k ;; observe "obs" d sh o) (_ <~ plate n k' ;; observe "obs" d' sh' o').
Proof. apply (shared_bind _ (fun _ _ => True)); [apply shared_plate|]. intros. apply shared_target. Qed.

Lemma model_call_shared c s s' p t td td' y y' data data' :
  shared false (first (c_hier c && negb (p_single p))) (trend_predict t td) (trend_predict t td') -> dict_shared data data' ->
  shared true (fun _ _ => True) (model_call c s p t td y (Some data)) (model_call c s' p t td' y' (Some data')).
Proof.
  intros HT HD. unfold model_call.
  assert (M : forall effs, shared true (first (c_hier c && negb (p_single p))) (compute_mean (trend_predict t td) (Some data) (option_map effect_fns effs)) (compute_mean (trend_predict t td') (Some data') (option_map effect_fns effs))).
  { intros effs. apply shared_up. now apply mean_shared. }
  destruct (c_hier c).
  - unfold multivariate_model. eapply shared_bind; [exact (M (Some (p_effects p)))|]. intros m m' Hm. apply (shared_bind _ (fun _ _ => True)).
    { destruct y as [y|], y' as [y'|]; try (now constructor); [|..].
      - apply (shared_bind _ (fun _ _ => True)); [apply shared_lift; auto|]. intros. now constructor.
      - destruct (squeeze_last y); cbn; now constructor.
      - destruct (squeeze_last y'); cbn; now constructor. }
    intros ya ya' _. destruct (p_single p).
    + eapply shared_bind; [apply shared_sample|]. intros. apply tail_shared.
    + specialize (Hm eq_refl). apply (shared_bind _ (fun a b => a = b)).
      { apply shared_lift. intros a b Ha Hb. unfold shape_at in *. destruct (a_shape m), (a_shape m'); cbn in *; congruence. }
      intros n _ <-. eapply shared_bind; [apply shared_sample|]. intros sd sd' _. eapply shared_bind; [apply shared_sample|]. intros co co' _.
      apply (shared_bind _ (fun _ _ => True)); [apply shared_lift; auto|]. intros ? ? _. apply (shared_bind _ (fun _ _ => True)); [apply shared_lift; auto|]. intros ? ? _.
      apply (shared_bind _ (fun _ _ => True)); [apply shared_lift; auto|]. intros ? ? _. apply (shared_bind _ (fun _ _ => True)); [apply shared_plate|]. intros ? ? _.
      apply (shared_bind _ (fun _ _ => True)); [apply shared_lift; auto|]. intros ? ? _. apply shared_target.
  - assert (E : (if p_has_exogenous p then Some (effect_fns (p_effects p)) else None) = option_map effect_fns (if p_has_exogenous p then Some (p_effects p) else None)) by now destruct (p_has_exogenous p).
    rewrite E. destruct (String.eqb (c_likelihood c) "normal"); [|destruct (String.eqb (c_likelihood c) "gamma"); [|destruct (String.eqb (c_likelihood c) "negbinomial"); [|constructor]]].
    + unfold univariate_model. eapply shared_bind; [apply M|]. intros m m' _. eapply shared_bind; [apply shared_sample|]. intros ? ? _.
      apply (shared_bind _ (fun _ _ => True)); [apply shared_lift; auto|]. intros. apply tail_shared.
    + unfold univariate_gamma_model. eapply shared_bind; [apply M|]. intros m m' _. eapply shared_bind; [apply shared_sample|]. intros ? ? _.
      apply (shared_bind _ (fun _ _ => True)); [apply shared_lift; auto|]. intros. apply tail_shared.
    + unfold univariate_negbinomial_model. eapply shared_bind; [apply M|]. intros m m' _. eapply shared_bind; [apply shared_sample|]. intros ? ? _.
      apply (shared_bind _ (fun _ _ => True)); [apply shared_lift; auto|]. intros. apply tail_shared.
Qed.

(** * Trends *)
Lemma rates_shared (Q : arr -> arr -> Prop) f k k' : (forall o o' c c', List.length o = List.length o' -> List.length c = List.length c' -> shared false Q (k o c) (k' o' c')) ->
  shared false Q (rates_prog f k) (rates_prog f k').
Proof.
  intros H. unfold rates_prog. apply (shared_bind _ (fun a b => a = b)); [apply shared_lift; congruence|]. intros locs _ <-. eapply shared_bind; [apply shared_sample|]. intros o o' Ho.
  apply (shared_bind _ (fun _ _ => True)); [destruct (_ =? _)%nat; constructor; exact I|]. intros _ _ _. eapply shared_bind; [apply shared_sample|]. intros c c' Hc. apply H; [apply Ho|apply Hc].
Qed.

Lemma matrix_3d sq cps ts : List.length cps <> 1 -> exists series, get_changepoint_matrix sq cps ts = D3 series /\ List.length series = List.length cps.
Proof.
  intros N. unfold get_changepoint_matrix. assert (L : List.length (multi_changepoint_matrix cps ts) = List.length cps) by (unfold multi_changepoint_matrix; cbv zeta; rewrite map_length, seq_length; unfold n_changepoint_per_series; now rewrite ?map_length).
  destruct (multi_changepoint_matrix cps ts) as [|m [|m' ms]]; [eauto| |eauto]. exfalso. apply N. now rewrite <- L.
Qed.
Lemma piecewise_first sq n se se' o o' c c' x y : n <> 1 -> List.length se = List.length se' -> List.length o = List.length o' ->
  piecewise_predict sq n (D3 se) o c = Ok x -> piecewise_predict sq n (D3 se') o' c' = Ok y -> exists N T T', a_shape x = [N; T; 1] /\ a_shape y = [N; T'; 1].
Proof.
  intros Hn Ls Lo. unfold piecewise_predict. apply Nat.eqb_neq in Hn. rewrite Hn. cbn [andb]. destruct (forallb _ _); [|discriminate]. destruct (forallb _ _); [|discriminate].
  destruct (broadcast2 se o) as [u|] eqn:E; [|discriminate]. destruct (broadcast2 se' o') as [u'|] eqn:E'; [|discriminate]. cbn [bind]. intros [= <-] [= <-]. cbn [a_shape].
  rewrite (broadcast2_len _ _ _ _ _ _ Ls Lo E E'). eauto.
Qed.
Lemma logistic_first sq n se se' k k' o o' c c' x y : n <> 1 -> List.length se = List.length se' -> List.length k = List.length k' -> List.length o = List.length o' ->
  logistic_predict sq n (D3 se) k o c = Ok x -> logistic_predict sq n (D3 se') k' o' c' = Ok y -> hd_error (a_shape x) = hd_error (a_shape y).
Proof.
  intros Hn Ls Lk Lo. unfold logistic_predict. destruct (piecewise_predict sq n (D3 se) o c) as [t|] eqn:E; [|discriminate]. destruct (piecewise_predict sq n (D3 se') o' c') as [t'|] eqn:E'; [|discriminate]. cbn [bind].
  destruct (piecewise_first _ _ _ _ _ _ _ _ _ _ Hn Ls Lo E E') as (N & T & T' & S1 & S2). rewrite S1, S2.
  assert (G : (bc <- broadcast2 (chunks T N (a_flat t)) k ;; Ok (mkArr [List.length bc; T; 1] (concat (map (fun x => map (logistic (snd x)) (fst x)) bc)))) = Ok x ->
              (bc <- broadcast2 (chunks T' N (a_flat t')) k' ;; Ok (mkArr [List.length bc; T'; 1] (concat (map (fun x => map (logistic (snd x)) (fst x)) bc)))) = Ok y -> hd_error (a_shape x) = hd_error (a_shape y)).
  { intros H H'. inv_bind H. inv_bind H'. injection H as <-. injection H' as <-. cbn. f_equal. eapply broadcast2_len; [|exact Lk|exact E0|exact E1]. unfold chunks. now rewrite !map_length, !seq_length. }
  destruct n as [|[|n]]; [exact G|congruence|exact G].
Qed.

Lemma trend_shared ns_of b t X X' fh fh' td td' : trend_transform ns_of t X fh = Ok td -> trend_transform ns_of t X' fh' = Ok td' ->
  (b = true -> exists p cap bb f, t = TPiecewise p cap bb (Some f) /\ pf_n_series f <> 1 /\ List.length (pf_cps f) <> 1) ->
  shared false (first b) (trend_predict t td) (trend_predict t td').
Proof.
  intros H H' HB. destruct t as [p cap bb [f|]|s bb [loc|]|e]; cbn [trend_transform] in H, H'.
  - inv_bind H. inv_bind H'. cbn [attr bind] in H, H'. injection H as <-. injection H' as <-. cbn [trend_predict]. unfold piecewise_prog.
    assert (HB' : b = true -> pf_n_series f <> 1 /\ List.length (pf_cps f) <> 1).
    { intros Hb. destruct (HB Hb) as (p' & cap' & bb' & f' & [= <- <- <- <-] & N). exact N. }
    assert (D : b = true -> exists se se', piecewise_transform ns_of f fh = D3 se /\ piecewise_transform ns_of f fh' = D3 se' /\ List.length se = List.length se').
    { intros Hb. unfold piecewise_transform.
      destruct (matrix_3d (pw_squeeze (pf_params f)) (pf_cps f) (map (fun t => scale_time (pf_t_scale f) (pf_t_start f) (days_since_epoch (ns_of t))) match pf_series f with None => fh | Some _ => times_unique fh end)) as (se & E1 & L1); [apply (HB' Hb)|].
      destruct (matrix_3d (pw_squeeze (pf_params f)) (pf_cps f) (map (fun t => scale_time (pf_t_scale f) (pf_t_start f) (days_since_epoch (ns_of t))) match pf_series f with None => fh' | Some _ => times_unique fh' end)) as (se' & E2 & L2); [apply (HB' Hb)|].
      exists se, se'. split; [exact E1|]. split; [exact E2|]. congruence. }
    destruct (pw_logistic (pf_params f)) as [lc|].
    + apply (shared_bind _ (fun _ _ => True)); [apply shared_plate|]. intros _ _ _. eapply shared_bind; [apply shared_sample|]. intros k k' Hk.
      apply (rates_shared (first b) f (fun o c => lift_res (logistic_predict _ _ _ (a_flat k) o c)) (fun o c => lift_res (logistic_predict _ _ _ (a_flat k') o c))).
      intros o o' c c' Lo Lc. apply shared_lift. intros a a' Ha Ha' Hb. destruct (D Hb) as (se & se' & E1 & E2 & L). rewrite E1 in Ha. rewrite E2 in Ha'.
      eapply logistic_first; [exact (proj1 (HB' Hb))|exact L|apply Hk|exact Lo|exact Ha|exact Ha'].
    + apply (rates_shared (first b) f (fun o c => lift_res (piecewise_predict _ _ _ o c)) (fun o c => lift_res (piecewise_predict _ _ _ o c))).
      intros o o' c c' Lo Lc. apply shared_lift. intros a a' Ha Ha' Hb. destruct (D Hb) as (se & se' & E1 & E2 & L). rewrite E1 in Ha. rewrite E2 in Ha'.
      destruct (piecewise_first _ _ _ _ _ _ _ _ _ _ (proj1 (HB' Hb)) L Lo Ha Ha') as (N & T & T' & -> & ->). reflexivity.
  - inv_bind H. discriminate.
  - inv_bind H. inv_bind H'. injection H as <-. injection H' as <-. cbn [trend_predict]. unfold flat_prog. destruct (flat_prior loc s). eapply shared_bind; [apply shared_sample|]. intros. constructor.
    intros Hb. destruct (HB Hb) as (? & ? & ? & ? & K & _). discriminate.
  - inv_bind H. inv_bind H'. injection H as <-. injection H' as <-. constructor.
  - inv_bind H. inv_bind H'. injection H as <-. injection H' as <-. cbn [trend_predict].
    eapply shared_weaken; [|apply predict_shared; eapply transform_shared; [exact E|exact E0]]. intros u w _ Hb. destruct (HB Hb) as (? & ? & ? & ? & K & _). discriminate.
Qed.

(** * Values of a run *)
Lemma run_values {A} e (p : prog A) : forall t a r, run e t p = Ok (a, r) -> forall n d v, In (n, SSample d v false) r ->
  In (n, SSample d v false) t \/ v = site_value e n (a_shape v) None.
Proof.
  assert (D : forall (t : trace) k s n x, In (n, x) (dict_set t k s) -> In (n, x) t \/ (n, x) = (k, s)).
  { induction t as [|[k' x'] t IH]; intros k s n x; simpl; [intros [H|[]]; auto|]. destruct (String.eqb_spec k k') as [<-|_]; simpl; intros [H|H]; auto. destruct (IH _ _ _ _ H); auto. }
  assert (G : forall t k s r n x, record t k s = Ok r -> In (n, x) r -> In (n, x) t \/ (n, x) = (k, s)).
  { intros t k s r n x H. unfold record in H. destruct s; [destruct (dict_get t k); [discriminate|]|..]; injection H as <-; apply D. }
  induction p as [a0|x|k d0 sh o kk IH|k w kk IH|k w kk IH]; intros t a r H n d v Hn; cbn [run] in H; try discriminate.
  - injection H as <- <-. auto.
  - destruct (record t k _) as [t1|] eqn:E; [|discriminate]. cbn [bind] in H. destruct (IH _ _ _ _ H _ _ _ Hn) as [Q|Q]; [|auto]. destruct (G _ _ _ _ _ _ E Q) as [Q'|[= <- <- -> Q']]; [auto|].
    right. destruct o; [discriminate|]. reflexivity.
  - destruct (record t k _) as [t1|] eqn:E; [|discriminate]. cbn [bind] in H. destruct (IH _ _ _ H _ _ _ Hn) as [Q|Q]; [|auto]. destruct (G _ _ _ _ _ _ E Q) as [Q'|Q']; [auto|discriminate].
  - destruct (record t k _) as [t1|] eqn:E; [|discriminate]. cbn [bind] in H. destruct (IH _ _ _ H _ _ _ Hn) as [Q|Q]; [|auto]. destruct (G _ _ _ _ _ _ E Q) as [Q'|Q']; [auto|discriminate].
Qed.

Lemma parameters_In tr n d sh : In (n, d, sh) (parameters tr) <-> n <> "obs" /\ exists v, In (n, SSample d v false) tr /\ a_shape v = sh.
Proof.
  unfold parameters. rewrite in_flat_map. split.
  - intros ([k x] & H & I). cbn [fst snd] in I. destruct x as [d' v [|]|v|w]; try contradiction. destruct (String.eqb_spec k "obs") as [->|N]; [contradiction|]. destruct I as [[= -> -> <-]|[]]. eauto.
  - intros (N & v & H & <-). exists (n, SSample d v false). split; [exact H|]. cbn. apply String.eqb_neq in N. rewrite N. simpl. auto.
Qed.
Lemma parameter_names_In tr n : In n (parameter_names tr) <-> n <> "obs" /\ exists d v, In (n, SSample d v false) tr.
Proof.
  unfold parameter_names. rewrite in_map_iff. split.
  - intros ([[k d] sh] & <- & H). apply parameters_In in H as (N & v & H & _). cbn. eauto.
  - intros (N & d & v & H). exists (n, d, a_shape v). split; [reflexivity|]. apply parameters_In. eauto.
Qed.

(** * Runs which differ in the target only *)
Lemma eval_agree {A} e e' (p : prog A) : forall a l, eval e p = Ok (a, l) ->
  (forall n d v, In (n, SSample d v false) l -> forall j, e n j = e' n j) -> eval e' p = Ok (a, l).
Proof.
  induction p as [a0|x|n d sh o k IH|n v k IH|n s k IH]; intros a l H HE; cbn [eval] in *; auto.
  - destruct (eval e (k _)) as [[a1 l1]|] eqn:E; [|discriminate]. cbn [bind] in H. injection H as <- <-.
    assert (V : site_value e' n sh o = site_value e n sh o).
    { destruct o; [reflexivity|]. unfold site_value. f_equal. apply map_ext. intros j. symmetry. eapply HE. left. reflexivity. }
    rewrite V, (IH _ _ _ E); [reflexivity|]. intros m dd w I. apply (HE m dd w). simpl. auto.
  - destruct (eval e k) as [[a1 l1]|] eqn:E; [|discriminate]. cbn [bind] in H. injection H as <- <-. rewrite (IH _ _ eq_refl); [reflexivity|]. intros m dd w I. apply (HE m dd w). simpl. auto.
  - destruct (eval e k) as [[a1 l1]|] eqn:E; [|discriminate]. cbn [bind] in H. injection H as <- <-. rewrite (IH _ _ eq_refl); [reflexivity|]. intros m dd w I. apply (HE m dd w). simpl. auto.
Qed.

(** the program ends with the target, which is sampled once *)
Inductive ends_in_target : prog arr -> Prop :=
| et_raise x : ends_in_target (Raise x)
| et_sample n d sh k : n <> "obs" -> (forall v, ends_in_target (k v)) -> ends_in_target (Sample n d sh None k)
| et_plate n s k : ends_in_target k -> ends_in_target (Plate n s k)
| et_target d sh o : ends_in_target (observe "obs" d sh o).
Lemma ends_lift {A} (m : res A) f : (forall a, ends_in_target (f a)) -> ends_in_target (pbind (lift_res m) f).
Proof. intros H. destruct m; simpl; [apply H|constructor]. Qed.
Lemma ends_obs e p : ends_in_target p -> forall a l, eval e p = Ok (a, l) -> In "obs" (map fst l).
Proof.
  induction 1 as [x|n d sh k N Hk IH|n s k Hk IH|d sh o]; intros a l H; cbn [eval] in H; try discriminate.
  - destruct (eval e (k _)) as [[a1 l1]|] eqn:E1; [|discriminate]. cbn [bind] in H. injection H as <- <-. right. eauto.
  - destruct (eval e k) as [[a1 l1]|] eqn:E1; [|discriminate]. cbn [bind] in H. injection H as <- <-. right. eauto.
  - unfold observe in H. cbn [eval bind] in H. injection H as <- <-. left. reflexivity.
Qed.
Lemma ends_eval e e' p : ends_in_target p -> forall a a' l l', eval e p = Ok (a, l) -> eval e' p = Ok (a', l') ->
  (forall n d v, In (n, SSample d v false) l -> n <> "obs" -> forall j, e n j = e' n j) -> same_but_target l l'.
Proof.
  induction 1 as [x|n d sh k N Hk IH|n s k Hk IH|d sh o]; intros a a' l l' H H' HE; cbn [eval] in H, H'; try discriminate.
  - destruct (eval e (k _)) as [[a1 l1]|] eqn:E1; [|discriminate]. destruct (eval e' (k _)) as [[a2 l2]|] eqn:E2; [|discriminate]. cbn [bind] in H, H'. injection H as <- <-. injection H' as <- <-.
    assert (V : site_value e' n sh None = site_value e n sh None).
    { unfold site_value. f_equal. apply map_ext. intros j. symmetry. eapply HE; [left; reflexivity|exact N]. }
    rewrite V in E2. constructor; [cbn [fst snd]; unfold site_value in V; injection V as V; rewrite V; auto|]. eapply (IH _ _ _ _ _ E1 E2). intros m dd w I. apply (HE m dd w). simpl. auto.
  - destruct (eval e k) as [[a1 l1]|] eqn:E1; [|discriminate]. destruct (eval e' k) as [[a2 l2]|] eqn:E2; [|discriminate]. cbn [bind] in H, H'. injection H as <- <-. injection H' as <- <-.
    constructor; [auto|]. eapply (IH _ _ _ _ eq_refl eq_refl). intros m dd w I. apply (HE m dd w). simpl. auto.
  - unfold observe in H, H'. cbn [eval bind] in H, H'. injection H as <- <-. injection H' as <- <-. constructor; [auto|constructor].
Qed.

Lemma eval_split {A B} e (p : prog A) (f : A -> prog B) b l : eval e (pbind p f) = Ok (b, l) ->
  exists a l1 l2, eval e p = Ok (a, l1) /\ eval e (f a) = Ok (b, l2) /\ l = (l1 ++ l2)%list.
Proof.
  revert l. induction p as [a0|x|n d sh o k IH|n v k IH|n s k IH]; intros l H; cbn [pbind eval] in *; try discriminate.
  - exists a0, [], l. auto.
  - destruct (eval e (pbind (k _) f)) as [[b1 l0]|] eqn:E; [|discriminate]. cbn [bind] in H. injection H as <- <-. destruct (IH _ _ E) as (a & l1 & l2 & E1 & E2 & ->). rewrite E1. cbn [bind]. do 3 eexists. eauto.
  - destruct (eval e (pbind k f)) as [[b1 l0]|] eqn:E; [|discriminate]. cbn [bind] in H. injection H as <- <-. destruct (IH _ eq_refl) as (a & l1 & l2 & E1 & E2 & ->). rewrite E1. cbn [bind]. do 3 eexists. eauto.
  - destruct (eval e (pbind k f)) as [[b1 l0]|] eqn:E; [|discriminate]. cbn [bind] in H. injection H as <- <-. destruct (IH _ eq_refl) as (a & l1 & l2 & E1 & E2 & ->). rewrite E1. cbn [bind]. do 3 eexists. eauto.
Qed.

Lemma model_ends c s p t td data : exists k, model_call c s p t td None data = pbind (compute_mean (trend_predict t td) data (if c_hier c then Some (effect_fns (p_effects p)) else if p_has_exogenous p then Some (effect_fns (p_effects p)) else None)) k /\ (forall m, ends_in_target (k m))
  \/ model_call c s p t td None data = Raise KeyError.
Proof.
  unfold model_call. destruct (c_hier c).
  - unfold multivariate_model. eexists. left. split; [reflexivity|]. intros m. cbn [pbind]. destruct (p_single p).
    + constructor; [discriminate|]. intros v. cbn [pbind]. constructor. apply et_target.
    + apply ends_lift. intros n. constructor; [discriminate|]. intros v. cbn [pbind]. constructor; [discriminate|]. intros w. cbn [pbind].
      do 3 (apply ends_lift; intros ?). constructor. apply ends_lift. intros l. apply et_target.
  - destruct (String.eqb (c_likelihood c) "normal"); [|destruct (String.eqb (c_likelihood c) "gamma"); [|destruct (String.eqb (c_likelihood c) "negbinomial"); [|exists (fun _ => Raise KeyError); now right]]].
    all: unfold univariate_model, univariate_gamma_model, univariate_negbinomial_model; eexists; left; split; [reflexivity|]; intros m; constructor; [discriminate|]; intros v; cbn [pbind]; apply ends_lift; intros n; constructor; apply et_target.
Qed.

Lemma runs_but_target c s p t td data e e' o o' tr tr' : let m := model_call c s p t td None data in
  NoDup (actions e m) -> NoDup (actions e' m) -> run e [] m = Ok (o, tr) -> run e' [] m = Ok (o', tr') ->
  (forall n, In n (parameter_names tr) -> forall j, e n j = e' n j) -> same_but_target tr tr'.
Proof.
  intros m N N' H H' HE. apply run_eval in H as (l & E & F). apply run_eval in H' as (l' & E' & F').
  rewrite (actions_eval _ _ _ _ E) in N. rewrite (actions_eval _ _ _ _ E') in N'. rewrite record_all_fresh in F, F' by assumption. injection F as <-. injection F' as <-. cbn [app] in *.
  assert (HE' : forall n d v, In (n, SSample d v false) l -> n <> "obs" -> forall j, e n j = e' n j) by (intros n d v I Hn; apply HE; apply parameter_names_In; eauto).
  destruct (model_ends c s p t td data) as (k & [[EM K]|EM]); unfold m in *; rewrite EM in *; [|discriminate].
  apply eval_split in E as (a & l1 & l2 & E1 & E2 & ->). apply eval_split in E' as (a' & l1' & l2' & E1' & E2' & ->).
  assert (Q : eval e' (compute_mean (trend_predict t td) data (if c_hier c then Some (effect_fns (p_effects p)) else if p_has_exogenous p then Some (effect_fns (p_effects p)) else None)) = Ok (a, l1)).
  { apply (eval_agree _ _ _ _ _ E1). intros n d v I. eapply HE'; [apply in_app_iff; left; exact I|]. intros ->.
    rewrite map_app in N. pose proof (ends_obs _ _ (K a) _ _ E2) as IO. apply (in_map fst) in I. cbn [fst] in I. apply in_split in I as (u & w & EU). rewrite EU, <- app_assoc in N. apply NoDup_remove_2 in N. apply N.
    rewrite !in_app_iff. auto. }
  rewrite Q in E1'. injection E1' as <- <-. apply Forall2_app.
  - clear. induction l1 as [|[n x] l1 IH]; constructor; auto.
  - eapply ends_eval; [apply K|exact E2|exact E2'|]. intros n d v I. apply (HE' n d v). apply in_app_iff. auto.
Qed.

(** * Forecasters *)
Section Forecaster.
Variable ns_of : Z -> Z.
Variable order : list string -> list string.
Variable keep : path -> bool.
Context {TS : Type}.
Variable tr_fit_transform : TS -> frame R -> TS * res (frame R).
Variable tr_transform : TS -> frame R -> res (frame R).
Context {P : Type}.
Variable svi_run : Z -> nat -> nat -> prog arr -> res (list xr * P).
Variable nuts_run : Z -> nat -> nat -> nat -> prog arr -> res (nat -> nat -> env).
Variable latent_sites : prog arr -> list string.
Variable guide_draw : P -> Z -> nat -> prog arr -> env.
Variable complete_draw : env -> Z -> nat -> prog arr -> env.
Notation fit_data := (fit_data ns_of order keep tr_fit_transform).
Notation fit_forecaster := (fit_forecaster ns_of order keep tr_fit_transform svi_run nuts_run latent_sites).
Notation predict_model := (predict_model ns_of keep tr_transform).

(** several series need a piecewise trend *)
Lemma panel_trend c ob s y X ob' p m : fit_data c ob s y X = (ob', Ok (p, m)) -> c_hier c = true ->
  f_levels y <> 0 -> frame_wf y -> (forall r, In r (f_rows y) -> ~ In "__total" (r_path r)) -> List.length (series_ids y) = 1 \/ scalar_piecewise (o_trend ob') ->
  negb (p_single p) = true -> exists pp cap bb f, o_trend ob' = TPiecewise pp cap bb (Some f) /\ pf_n_series f <> 1 /\ List.length (pf_cps f) <> 1.
Proof.
  intros H Hc L W NT HT HS. destruct (hierarchical_setup _ _ _ _ _ _ _ _ _ _ _ _ H Hc L W NT) as (tensor & X2 & t0 & td & data & _ & HTF & _ & HP & RY & _).
  rewrite HP in HS. apply negb_true_iff, Nat.eqb_neq in HS. destruct HT as [HT|SP]; [contradiction|].
  destruct (fitted_trend ns_of order _ _ _ _ _ HTF SP) as (pp & cap & b & f & iv & rg & E & PF & PI & PR). exists pp, cap, b, f. split; [exact E|].
  destruct (piecewise_fit_inv _ _ _ _ PF) as (ts & _ & _ & Hn & _ & Hcps & _). rewrite PI, PR in Hcps. apply setup_length in Hcps.
  assert (N : n_series_of (sort_index y) = List.length (series_ids y)).
  { unfold n_series_of. assert (LS : f_levels (sort_index y) = f_levels y) by reflexivity. rewrite LS. destruct (f_levels y); [congruence|]. apply sort_index_ids. }
  rewrite Hn, Hcps, N. auto.
Qed.

Lemma plain_single c ob s y X ob' p m : fit_data c ob s y X = (ob', Ok (p, m)) -> c_hier c = true -> f_levels y = 0 -> p_single p = true.
Proof.
  intros H Hc L. unfold Forecaster.fit_data in H. rewrite Hc in H. apply hierarchical_fit_inv in H.
  destruct H as (yb & tensor & X0 & X1 & X2 & ob1 & t0 & t & td & data & _ & _ & _ & _ & _ & _ & _ & _ & _ & _ & _ & _ & _ & _ & H & _).
  rewrite H. unfold aggregate. rewrite L. cbv iota. now rewrite L.
Qed.

Lemma models_share c ob0 s y X ob f m ob2 y2 X2 fh m2 : fit_data c ob0 s y X = (ob, Ok (ft_prepared (P := P) f, m)) ->
  predict_model c ob2 f y2 X2 fh = Ok m2 -> o_trend ob2 = o_trend ob ->
  (c_hier c = true -> negb (p_single (ft_prepared f)) = true -> exists p cap bb pf, o_trend ob = TPiecewise p cap bb (Some pf) /\ pf_n_series pf <> 1 /\ List.length (pf_cps pf) <> 1) ->
  shared true (fun _ _ => True) m m2.
Proof.
  intros H H2 HO HB. destruct (fit_data_inv _ _ _ _ _ _ _ _ _ _ _ _ H) as (Xe & td & ya & data & _ & HD & _ & HT & HX & ->).
  destruct (predict_inv _ _ _ _ _ _ _ _ _ _ H2 HX) as (Xe2 & td2 & times & data2 & HD2 & HT2 & ->). rewrite HO in *.
  apply model_call_shared; [|eapply effects_data_shared; eauto]. eapply trend_shared; [exact HT|exact HT2|].
  intros Hb. apply andb_prop in Hb as [Hb1 Hb2]. auto.
Qed.

Lemma fit_share c ob0 y X ob f : fit_forecaster c ob0 y X = (ob, Ok f) -> one_or_piecewise c y (o_trend ob) ->
  exists m, (exists ys, scale_y (discrete c) (ft_scale f) y = Ok ys /\ fit_data c ob0 (ft_scale f) ys X = (ob, Ok (ft_prepared f, m))) /\
    infer svi_run nuts_run latent_sites (engine_of c) m = Ok (ft_posterior f) /\
    forall ob2 y2 X2 fh m2, predict_model c ob2 f y2 X2 fh = Ok m2 -> o_trend ob2 = o_trend ob -> shared true (fun _ _ => True) m m2.
Proof.
  intros H HO. destruct (RaiseFacts.fit_inv _ _ _ _ _ _ _ _ _ _ _ _ _ H) as (s & ys & m & _ & Hys & HD & HI & <-).
  exists m. split; [eauto|]. split; [exact HI|]. intros ob2 y2 X2 fh m2 H2 HE. eapply models_share; [exact HD|exact H2|exact HE|].
  intros Hc HS. destruct (scale_y_index _ _ _ _ Hys) as [I1 I2].
  destruct HO as [HO|[L|(W & NT & HT)]]; [congruence| |].
  { exfalso. rewrite <- I2 in L. revert HS. rewrite (plain_single _ _ _ _ _ _ _ _ HD Hc L). discriminate. }
  destruct (Nat.eq_dec (f_levels y) 0) as [L|L].
  { exfalso. rewrite <- I2 in L. revert HS. rewrite (plain_single _ _ _ _ _ _ _ _ HD Hc L). discriminate. }
  eapply panel_trend; [exact HD|exact Hc|congruence|eapply scale_y_wf; eauto| | |exact HS].
  - intros r Hr. assert (Q : In (r_path r, r_time r) (index_of y)) by (rewrite <- I1; unfold index_of; apply in_map_iff; eauto).
    unfold index_of in Q. apply in_map_iff in Q as (r' & [= E _] & Hr'). rewrite <- E. auto.
  - destruct HT as [HT|HT]; [left|right; exact HT]. rewrite <- HT. unfold series_ids. f_equal. f_equal.
    assert (Q : map fst (index_of ys) = map fst (index_of y)) by congruence. unfold index_of in Q. rewrite !map_map in Q. exact Q.
Qed.

Lemma c87_parameters c ob0 y X ob f : fit_forecaster c ob0 y X = (ob, Ok f) -> one_or_piecewise c y (o_trend ob) ->
  exists m, (exists ys, scale_y (discrete c) (ft_scale f) y = Ok ys /\ fit_data c ob0 (ft_scale f) ys X = (ob, Ok (ft_prepared f, m))) /\
    infer svi_run nuts_run latent_sites (engine_of c) m = Ok (ft_posterior f) /\
    forall ob2 y2 X2 fh m2, predict_model c ob2 f y2 X2 fh = Ok m2 -> o_trend ob2 = o_trend ob ->
    forall e e2 o o2 tr tr2, run e [] m = Ok (o, tr) -> run e2 [] m2 = Ok (o2, tr2) -> parameters tr2 = parameters tr.
Proof.
  intros H HO. destruct (fit_share _ _ _ _ _ _ H HO) as (m & H1 & H2 & H3). exists m. split; [exact H1|]. split; [exact H2|].
  intros ob2 y2 X2 fh m2 HM HT e e2 o o2 tr tr2 R1 R2. symmetry. apply shared_parameters. eapply (run_shared _ e e2 _ _ (H3 _ _ _ _ _ HM HT)); [constructor|exact R1|exact R2].
Qed.

Lemma c87_site_names c ob0 y X ob f : fit_forecaster c ob0 y X = (ob, Ok f) -> one_or_piecewise c y (o_trend ob) ->
  exists m, (exists ys, scale_y (discrete c) (ft_scale f) y = Ok ys /\ fit_data c ob0 (ft_scale f) ys X = (ob, Ok (ft_prepared f, m))) /\
    site_names f = latent_sites m /\
    (posterior_sites (site_names f) m ->
     forall ob2 y2 X2 fh m2, predict_model c ob2 f y2 X2 fh = Ok m2 -> o_trend ob2 = o_trend ob ->
     forall e o tr, run e [] m2 = Ok (o, tr) -> forall n, n <> "obs" -> (In n (site_names f) <-> In n (parameter_names tr))).
Proof.
  intros H HO. destruct (c87_parameters _ _ _ _ _ _ H HO) as (m & H1 & H2 & H3). exists m. split; [exact H1|]. split.
  - unfold infer in H2. unfold site_names. destruct (String.eqb _ "mcmc"); [|destruct (String.eqb _ "map"); [|discriminate]].
    + inv_bind H2. now injection H2 as <-.
    + inv_bind H2. destruct x as [losses pp]. inv_bind H2. destruct x; [discriminate|]. now injection H2 as <-.
  - intros (e0 & o0 & tr0 & R0 & HL) ob2 y2 X2 fh m2 HM HT e o tr R2 n No. rewrite (HL n No). unfold parameter_names. now rewrite (H3 _ _ _ _ _ HM HT _ _ _ _ _ _ R0 R2).
Qed.

Lemma c87_posterior c ob0 y X ob f samples latent : fit_forecaster c ob0 y X = (ob, Ok f) -> one_or_piecewise c y (o_trend ob) ->
  ft_posterior f = IMcmc samples latent -> completes_posterior complete_draw latent ->
  exists m, (exists ys, scale_y (discrete c) (ft_scale f) y = Ok ys /\ fit_data c ob0 (ft_scale f) ys X = (ob, Ok (ft_prepared f, m))) /\
    (posterior_sites latent m ->
     forall ob2 y2 X2 fh m2, predict_model c ob2 f y2 X2 fh = Ok m2 -> o_trend ob2 = o_trend ob ->
     forall e o tr, In e (draws guide_draw complete_draw (engine_of c) (ft_posterior f) m2) -> run e [] m2 = Ok (o, tr) -> exists s, In s samples /\ takes_values s tr).
Proof.
  intros H HO HP HC. destruct (c87_parameters _ _ _ _ _ _ H HO) as (m & H1 & H2 & H3). exists m. split; [exact H1|].
  intros (e0 & o0 & tr0 & R0 & HL) ob2 y2 X2 fh m2 HM HT e o tr He R2. pose proof (H3 _ _ _ _ _ HM HT _ _ _ _ _ _ R0 R2) as EP.
  rewrite HP in He. unfold draws in He. apply in_map_iff in He as ([i s] & <- & I). cbn [fst snd] in *. apply in_combine_r in I. exists s. split; [exact I|].
  intros n d v Hn No. destruct (run_values _ _ _ _ _ R2 _ _ _ Hn) as [[]|V]. rewrite V at 1. unfold site_value. f_equal. apply map_ext. intros j. apply HC.
  apply (HL n No). unfold parameter_names. rewrite <- EP. apply parameter_names_In. eauto.
Qed.

Lemma c87_map c ob0 y X ob f params latent point : fit_forecaster c ob0 y X = (ob, Ok f) -> one_or_piecewise c y (o_trend ob) -> clean_config c ->
  ft_posterior f = IMap params latent -> point_guide guide_draw latent params point ->
  exists m, (exists ys, scale_y (discrete c) (ft_scale f) y = Ok ys /\ fit_data c ob0 (ft_scale f) ys X = (ob, Ok (ft_prepared f, m))) /\
    (posterior_sites latent m ->
     forall ob2 y2 X2 fh m2, predict_model c ob2 f y2 X2 fh = Ok m2 -> o_trend ob2 = o_trend ob ->
     forall e o tr, In e (draws guide_draw complete_draw (engine_of c) (ft_posterior f) m2) -> run e [] m2 = Ok (o, tr) ->
     takes_values point tr /\
     forall e' o' tr', In e' (draws guide_draw complete_draw (engine_of c) (ft_posterior f) m2) -> run e' [] m2 = Ok (o', tr') -> same_but_target tr tr').
Proof.
  intros H HO CL HP HC. destruct (c87_parameters _ _ _ _ _ _ H HO) as (m & H1 & H2 & H3). exists m. split; [exact H1|].
  intros (e0 & o0 & tr0 & R0 & HL) ob2 y2 X2 fh m2 HM HT e o tr He R2. pose proof (H3 _ _ _ _ _ HM HT _ _ _ _ _ _ R0 R2) as EP.
  assert (AG : forall e', In e' (draws guide_draw complete_draw (engine_of c) (ft_posterior f) m2) -> forall n, In n (parameter_names tr) -> forall j, e' n j = point n j).
  { intros e' He' n Hn j. rewrite HP in He'. unfold draws in He'. apply in_map_iff in He' as (i & <- & _). apply HC. pose proof (proj1 (proj1 (parameter_names_In _ _) Hn)) as No.
    apply (HL n No). unfold parameter_names in *. now rewrite <- EP. }
  split.
  - intros n d v Hn No. destruct (run_values _ _ _ _ _ R2 _ _ _ Hn) as [[]|V]. rewrite V at 1. unfold site_value. f_equal. apply map_ext. intros j. apply AG; [exact He|]. apply parameter_names_In. eauto.
  - intros e' o' tr' He' R2'.
    destruct (forecaster_clean ns_of order keep tr_fit_transform svi_run nuts_run latent_sites _ _ _ _ _ _ H CL) as (C1 & C2 & HX).
    destruct (predict_inv _ _ _ _ _ _ _ _ _ _ HM HX) as (Xe & td & times & data & _ & _ & ->).
    assert (Y : forall e1 o1 tr1, run e1 [] (model_call c (ft_scale f) (ft_prepared f) (o_trend ob2) td None (Some data)) = Ok (o1, tr1) ->
       NoDup (actions e1 (model_call c (ft_scale f) (ft_prepared f) (o_trend ob2) td None (Some data)))).
    { intros e1 o1 tr1 R1. eapply model_sites; [exact HX|exact C1|exact C2|]. apply run_eval in R1 as (l1 & E1 & _). apply eval_yields. eauto. }
    eapply runs_but_target; [eapply Y; exact R2|eapply Y; exact R2'|exact R2|exact R2'|]. intros n Hn j. rewrite (AG e He n Hn j). symmetry. now apply AG.
Qed.
End Forecaster.
