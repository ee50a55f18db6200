(** Hyperparameters of priors change only priors. *)
From Coq Require Import Reals Lra ZArith String Bool List Lia FunctionalExtensionality.
From Verif.Model Require Import Base Num XFloat Frame Arr Prog Likelihood Effect Trend TrendProg Aggregate Scale Expand Engine Predict Forecaster.
From Verif.Spec Require Import ForecasterSpec OptionSpec.
From Verif.Facts Require Import BaseFacts.
Import ListNotations.
Local Open Scope string_scope.

(** * Programs that differ in distributions *)
Inductive twin (S : string -> Prop) {A} : prog A -> prog A -> Prop :=
| twin_ret a : twin S (Ret a) (Ret a)
| twin_raise x : twin S (Raise x) (Raise x)
| twin_sample n d d' sh o k k' : (d = d' \/ S n) -> (forall v, twin S (k v) (k' v)) -> twin S (Sample n d sh o k) (Sample n d' sh o k')
| twin_det n v k k' : twin S k k' -> twin S (Det n v k) (Det n v k')
| twin_plate n s k k' : twin S k k' -> twin S (Plate n s k) (Plate n s k').

Lemma twin_refl S {A} (p : prog A) : twin S p p.
Proof. induction p; constructor; auto. Qed.
Lemma twin_bind S {A B} (p p' : prog A) (f f' : A -> prog B) : twin S p p' -> (forall a, twin S (f a) (f' a)) -> twin S (pbind p f) (pbind p' f').
Proof. intros H F. induction H; cbn [pbind]; [apply F|constructor|constructor; auto..]. Qed.
Lemma twin_none S {A} (p p' : prog A) : twin S p p' -> (forall n, ~ S n) -> p = p'.
Proof.
  intros H N. induction H as [| |n d d' sh o k k' [->|I] K IH|n v k k' K IH|n s k k' K IH]; try reflexivity.
  - f_equal. apply functional_extensionality. exact IH.
  - destruct (N _ I).
  - now rewrite IH.
  - now rewrite IH.
Qed.

Lemma like_get S tr tr' n : Forall2 (like_site S) tr tr' -> match dict_get tr n, dict_get tr' n with Some _, Some _ | None, None => True | _, _ => False end.
Proof.
  induction 1 as [|[a s] [b s'] tr tr' [E _] F IH]; [exact I|]. cbn [fst] in E. subst b. cbn [dict_get]. destruct (String.eqb n a); [exact I|exact IH].
Qed.
Lemma like_set S tr tr' n s s' : Forall2 (like_site S) tr tr' -> like_site S (n, s) (n, s') -> Forall2 (like_site S) (dict_set tr n s) (dict_set tr' n s').
Proof.
  intros H L. induction H as [|[a t] [b t'] tr tr' [E Q] F IH]; cbn [dict_set]; [constructor; [exact L|constructor]|]. cbn [fst] in E. subst b. destruct (String.eqb_spec n a) as [<-|N]; constructor; auto; now split.
Qed.
Lemma like_record S tr tr' n s s' : Forall2 (like_site S) tr tr' -> like_site S (n, s) (n, s') ->
  match record tr n s, record tr' n s' with Ok t, Ok t' => Forall2 (like_site S) t t' | Err x, Err x' => x = x' | _, _ => False end.
Proof.
  intros H L. pose proof (like_get S _ _ n H) as G. pose proof (like_set S _ _ n s s' H L) as T. destruct L as [_ [Q|(_ & d & d' & v & o & Q & Q')]]; cbn [snd] in *.
  - subst s'. unfold record. destruct s; [|exact T|exact T]. destruct (dict_get tr n), (dict_get tr' n); try contradiction; [reflexivity|exact T].
  - subst s s'. unfold record. destruct (dict_get tr n), (dict_get tr' n); try contradiction; [reflexivity|exact T].
Qed.
Lemma twin_run S {A} (p p' : prog A) e : twin S p p' -> forall tr tr', Forall2 (like_site S) tr tr' ->
  match run e tr p, run e tr' p' with Ok (o, t), Ok (o', t') => o = o' /\ Forall2 (like_site S) t t' | Err x, Err x' => x = x' | _, _ => False end.
Proof.
  induction 1 as [a|x|n d d' sh o k k' D K IH|n v k k' K IH|n s k k' K IH]; intros tr tr' H; cbn [run]; [auto|reflexivity|..].
  - assert (L : like_site S (n, SSample d (site_value e n sh o) (match o with Some _ => true | None => false end)) (n, SSample d' (site_value e n sh o) (match o with Some _ => true | None => false end))).
    { split; [reflexivity|]. destruct D as [->|I]; [now left|]. right. split; [exact I|]. do 4 eexists. split; reflexivity. }
    pose proof (like_record S _ _ n _ _ H L) as Q. destruct (record tr n _), (record tr' n _); try contradiction; cbn [bind]; [now apply IH|exact Q].
  - pose proof (like_record S _ _ n (SDet v) (SDet v) H ltac:(split; auto)) as Q. destruct (record tr n _), (record tr' n _); try contradiction; cbn [bind]; [now apply IH|exact Q].
  - pose proof (like_record S _ _ n (SPlate s) (SPlate s) H ltac:(split; auto)) as Q. destruct (record tr n _), (record tr' n _); try contradiction; cbn [bind]; [now apply IH|exact Q].
Qed.
Lemma twin_like S m m' : twin S m m' -> like_runs S m m'.
Proof. intros H e. apply (twin_run S m m' e H [] []). constructor. Qed.

(** * Trends *)
Definition twin_params (p p' : piecewise_params) : Prop :=
  pw_interval p = pw_interval p' /\ pw_range p = pw_range p' /\ pw_squeeze p = pw_squeeze p' /\ pw_detrend p = pw_detrend p' /\ pw_logistic p = pw_logistic p'.
Definition twin_fitted (f f' : piecewise_fitted) : Prop :=
  twin_params (pf_params f) (pf_params f') /\ pf_t_scale f = pf_t_scale f' /\ pf_t_start f = pf_t_start f' /\ pf_n_series f = pf_n_series f' /\ pf_cps f = pf_cps f' /\
  pf_offset_loc f = pf_offset_loc f' /\ pf_cp_loc f = pf_cp_loc f' /\ List.length (pf_cp_scale f) = List.length (pf_cp_scale f') /\ pf_series f = pf_series f'.
(** trends whose priors agree outside [S] *)
Definition twin_trend (S : string -> Prop) (t t' : trend) : Prop :=
  t = t' \/
  (exists p p' cap cap' b, twin_params p p' /\ (pw_offset_scale p = pw_offset_scale p' \/ S "offset") /\ (pw_logistic p = None \/ cap = cap' \/ S "capacity") /\
     ((t = TPiecewise p cap b None /\ t' = TPiecewise p' cap' b None /\
       exists sg sg', pw_prior_scale p = Scalar sg /\ pw_prior_scale p' = Scalar sg' /\ (sg = sg' \/ S "changepoint_coefficients")) \/
      exists f f', t = TPiecewise p cap b (Some f) /\ t' = TPiecewise p' cap' b (Some f') /\ twin_fitted f f' /\ pf_params f = p /\ pf_params f' = p' /\
        (pf_cp_scale f = pf_cp_scale f' \/ S "changepoint_coefficients"))) \/
  (exists s s' b l, t = TFlat s b l /\ t' = TFlat s' b l /\ (s = s' \/ S "trend_flat_coefficient")).

Section Trends.
Variable ns_of : Z -> Z.
Variable order : list string -> list string.
Variable S : string -> Prop.

Lemma suggest_twin p p' y ts : twin_params p p' -> suggest p y ts = suggest p' y ts.
Proof. intros (_ & _ & _ & D & L). unfold suggest. now rewrite D, L. Qed.

Lemma concat_lengths (ns : list nat) (a b : R) n : List.length (concat (map (fun q => repeat (snd q) (fst q)) (combine ns (repeat a n)))) = List.length (concat (map (fun q => repeat (snd q) (fst q)) (combine ns (repeat b n)))).
Proof.
  revert n. induction ns as [|k ns IH]; intros n; [reflexivity|]. destruct n as [|n]; [reflexivity|]. cbn [repeat combine map concat fst snd]. now rewrite !app_length, !repeat_length, (IH n).
Qed.

Lemma piecewise_fit_twin p p' y sg sg' : twin_params p p' -> pw_prior_scale p = Scalar sg -> pw_prior_scale p' = Scalar sg' ->
  match piecewise_fit ns_of p y, piecewise_fit ns_of p' y with
  | Ok f, Ok f' => twin_fitted f f' /\ pf_params f = p /\ pf_params f' = p' /\ (sg = sg' -> pf_cp_scale f = pf_cp_scale f')
  | Err x, Err x' => x = x'
  | _, _ => False
  end.
Proof.
  intros T H H'. assert (T0 := T). destruct T as (T1 & T2 & T3 & T4 & T5). unfold piecewise_fit. rewrite <- T1, <- T2. destruct (fit_time _) as [[a b]|]; cbn [bind]; [|reflexivity].
  destruct (setup_changepoints _ _ _ _) as [cps|]; cbn [bind]; [|reflexivity]. rewrite <- (suggest_twin p p' y _ T0). destruct (suggest p y _) as [[rates offs]|]; cbn [bind]; [|reflexivity].
  unfold changepoint_prior_vectors. rewrite H, H'. cbn [to_list_if_scalar].
  split; [split; [exact T0|]; cbn [pf_t_scale pf_t_start pf_n_series pf_cps pf_offset_loc pf_cp_loc pf_cp_scale pf_series]; repeat split; apply concat_lengths|].
  split; [reflexivity|]. split; [reflexivity|]. now intros ->.
Qed.

Lemma trend_fit_twin t t' X y s : twin_trend S t t' -> (forall p c b f, t = TPiecewise p c b (Some f) -> t = t') ->
  let r := trend_fit ns_of order t X y s in let r' := trend_fit ns_of order t' X y s in snd r = snd r' /\ (snd r = None -> twin_trend S (fst r) (fst r')).
Proof.
  intros [->|[(p & p' & cap & cap' & b & TP & O & C & [(-> & -> & sg & sg' & H & H' & D)|(f & f' & -> & -> & _)])|(a & a' & b & l & -> & -> & D)]] NF; cbv zeta.
  - split; [reflexivity|]. intros _. now left.
  - pose proof (piecewise_fit_twin p p' y sg sg' TP H H') as Q. cbn [trend_fit]. destruct (piecewise_fit ns_of p y) as [f|], (piecewise_fit ns_of p' y) as [f'|]; try contradiction; cbn [fst snd].
    + split; [reflexivity|]. intros _. right. left. destruct Q as (Q1 & Q2 & Q3 & Q4). exists p, p', cap, cap'. eexists. split; [exact TP|]. split; [exact O|]. split; [exact C|]. right. exists f, f'.
      do 5 (split; [auto; try reflexivity|]). destruct D as [D|D]; auto.
    + subst. split; [reflexivity|discriminate].
  - pose proof (NF _ _ _ _ eq_refl) as E. rewrite <- E. split; [reflexivity|]. intros _. now left.
  - cbn [trend_fit fst snd]. split; [reflexivity|]. intros _. right. right. do 4 eexists. split; [reflexivity|]. split; [reflexivity|exact D].
Qed.

Lemma trend_transform_twin t t' X fh : twin_trend S t t' -> trend_transform ns_of t X fh = trend_transform ns_of t' X fh.
Proof.
  intros [->|[(p & p' & cap & cap' & b & TP & O & C & [(-> & -> & _)|(f & f' & -> & -> & F & _)])|(a & a' & b & l & -> & -> & D)]]; try reflexivity.
  - cbn [trend_transform]. destruct (trend_rows b X fh); cbn [bind attr]; [|reflexivity]. destruct F as ((_ & _ & Sq & _) & F1 & F2 & _ & F4 & _ & _ & _ & F8). unfold piecewise_transform. rewrite F8, F1, F2, F4, Sq. reflexivity.
Qed.

Lemma vectors_twin f f' (k k' : list R -> list R -> prog arr) : twin_fitted f f' -> (pw_offset_scale (pf_params f) = pw_offset_scale (pf_params f') \/ S "offset") ->
  (pf_cp_scale f = pf_cp_scale f' \/ S "changepoint_coefficients") -> (forall o c, twin S (k o c) (k' o c)) ->
  twin S (locs <~ lift_res (mapM finite (pf_offset_loc f)) ;;
    o <~ sample "offset" (DNormal (vector locs) (const_arr [List.length locs] (pw_offset_scale (pf_params f)))) [List.length locs] ;;
    _ <~ (if Nat.eqb (List.length (pf_cp_loc f)) (List.length (pf_cp_scale f)) then Ret tt else Raise ValueError) ;;
    c <~ sample "changepoint_coefficients" (DLaplace (vector (pf_cp_loc f)) (vector (pf_cp_scale f))) [List.length (pf_cp_loc f)] ;;
    k (a_flat o) (a_flat c))
   (locs <~ lift_res (mapM finite (pf_offset_loc f')) ;;
    o <~ sample "offset" (DNormal (vector locs) (const_arr [List.length locs] (pw_offset_scale (pf_params f')))) [List.length locs] ;;
    _ <~ (if Nat.eqb (List.length (pf_cp_loc f')) (List.length (pf_cp_scale f')) then Ret tt else Raise ValueError) ;;
    c <~ sample "changepoint_coefficients" (DLaplace (vector (pf_cp_loc f')) (vector (pf_cp_scale f'))) [List.length (pf_cp_loc f')] ;;
    k' (a_flat o) (a_flat c)).
Proof.
  intros (_ & _ & _ & _ & _ & F5 & F6 & F7 & _) O C K. rewrite <- F5, <- F6, <- F7. apply twin_bind; [apply twin_refl|]. intros locs. apply twin_bind.
  - constructor; [|intros; constructor]. destruct O as [->|O]; auto.
  - intros o. apply twin_bind; [apply twin_refl|]. intros _. apply twin_bind; [|auto]. constructor; [|intros; constructor]. destruct C as [->|C]; auto.
Qed.

Lemma trend_predict_twin t t' td : twin_trend S t t' -> twin S (trend_predict t td) (trend_predict t' td).
Proof.
  intros [->|[(p & p' & cap & cap' & b & TP & O & C & [(-> & -> & _)|(f & f' & -> & -> & F & <- & <- & D)])|(a & a' & b & l & -> & -> & D)]]; [apply twin_refl|apply twin_refl|..].
  - cbn [trend_predict]. destruct td as [m| |]; [|apply twin_refl..]. unfold piecewise_prog. assert (F0 := F). destruct F as ((_ & _ & Sq & _ & Lg) & _ & _ & Ns & _). rewrite <- Sq, <- Lg, <- Ns.
    destruct (pw_logistic (pf_params f)) as [cc|].
    + apply twin_bind; [apply twin_refl|]. intros _. apply twin_bind.
      * constructor; [|intros; constructor]. destruct C as [C|C]; [discriminate|exact C].
      * intros v. apply (vectors_twin f f' (fun o c => lift_res (logistic_predict _ _ m (a_flat v) o c)) (fun o c => lift_res (logistic_predict _ _ m (a_flat v) o c))); auto. intros; apply twin_refl.
    + apply (vectors_twin f f' (fun o c => lift_res (piecewise_predict _ _ m o c)) (fun o c => lift_res (piecewise_predict _ _ m o c))); auto. intros; apply twin_refl.
  - cbn [trend_predict]. destruct l as [l|]; [|apply twin_refl]. destruct td as [|v|]; [apply twin_refl| |apply twin_refl]. unfold flat_prog. destruct D as [->|D]; [apply twin_refl|].
    destruct (flat_prior l a), (flat_prior l a'). apply twin_bind; [|intros; apply twin_refl]. constructor; [now right|intros; constructor].
Qed.
End Trends.

(** * Models *)
Section Models.
Variables c c' : config.
Hypothesis HS : same_structure c c'.
Notation S := (touched c c').

Lemma noise_twin (n : string) (g : R -> distr) sh : (c_noise c <> c_noise c' -> S n) -> twin S (sample n (g (c_noise c)) sh) (sample n (g (c_noise c')) sh).
Proof. intros H. constructor; [|intros; constructor]. destruct (Req_dec (c_noise c) (c_noise c')) as [->|N]; auto. Qed.

Lemma mean_twin (t t' : prog arr) (data : option (dict edata)) effs : twin S t t' -> twin S (compute_mean t data effs) (compute_mean t' data effs).
Proof. intros H. unfold compute_mean. apply twin_bind; [exact H|]. intros v. apply twin_refl. Qed.

Lemma model_twin s p t t' td y data : twin_trend S t t' -> twin S (model_call c s p t td y data) (model_call c' s p t' td y data).
Proof.
  intros T. apply (trend_predict_twin S t t' td) in T. destruct HS as (Hh & _ & _ & _ & _ & _ & Hl & _). unfold model_call. rewrite <- Hh, <- Hl. destruct (c_hier c) eqn:Hc.
  - unfold multivariate_model. apply twin_bind; [now apply mean_twin|]. intros mean. apply twin_bind; [apply twin_refl|]. intros y0. destruct (p_single p).
    + apply twin_bind; [|intros; apply twin_refl]. apply (noise_twin "std_observation" (fun k => DHalfNormal (scalar k))). now apply touched_std.
    + apply twin_bind; [apply twin_refl|]. intros n. apply twin_bind; [apply (noise_twin "std_observation" (fun k => DHalfNormal (const_arr [n] k))); now apply touched_std|].
      intros v. apply twin_bind; [|intros; apply twin_refl]. constructor; [|intros; constructor].
      destruct (Req_dec (c_concentration c) (c_concentration c')) as [->|N]; [now left|right]. now apply touched_corr.
  - set (effs := if p_has_exogenous p then _ else _).
    destruct (String.eqb (c_likelihood c) "normal"); [|destruct (String.eqb (c_likelihood c) "gamma"); [|destruct (String.eqb (c_likelihood c) "negbinomial"); [|apply twin_refl]]];
      (apply twin_bind; [now apply mean_twin|]; intros mean; apply twin_bind; [|intros; apply twin_refl]; apply (noise_twin "noise_scale" (fun k => DHalfNormal (scalar k))); now apply touched_noise).
Qed.

Lemma named_twin name : c_trend c = TrendName name ->
  match named_trend c name, named_trend c' name with
  | Ok t, Ok t' => twin_trend S t t' /\ forall p k b f, t <> TPiecewise p k b (Some f)
  | Err x, Err x' => x = x'
  | _, _ => False
  end.
Proof.
  intros HT. destruct HS as (_ & _ & Hi & Hr & _).
  assert (PW : forall d lg, In name ["linear"; "linear_raw"; "logistic"] -> (lg = None \/ name = "logistic") ->
    let t c := TPiecewise (mkPW (Scalar (c_interval c)) (Scalar (c_range c)) (Scalar (c_changepoint_scale c)) (c_offset_scale c) true d lg) (DShifted (DHalfNormal (scalar (c_capacity_scale c))) (c_capacity_loc c)) base_init None in
    twin_trend S (t c) (t c') /\ forall p k b f, t c <> TPiecewise p k b (Some f)).
  { intros d lg I L. split; [|discriminate]. right. left. do 5 eexists. split; [|split; [|split]].
    4:{ left. split; [reflexivity|]. split; [reflexivity|]. do 2 eexists. split; [reflexivity|]. split; [reflexivity|].
        destruct (Req_dec (c_changepoint_scale c) (c_changepoint_scale c')) as [E|N]; [now left|right]. now apply (touched_rates _ _ name). }
    - unfold twin_params. cbn. now rewrite Hi, Hr.
    - cbn. destruct (Req_dec (c_offset_scale c) (c_offset_scale c')) as [E|N]; [now left|right]. now apply (touched_offset _ _ name).
    - cbn. destruct L as [->| ->]; [now left|right].
      destruct (Req_dec (c_capacity_scale c) (c_capacity_scale c')) as [E|N]; [|right; apply touched_capacity; auto].
      destruct (Req_dec (c_capacity_loc c) (c_capacity_loc c')) as [E'|N]; [|right; apply touched_capacity; auto]. left. now rewrite E, E'. }
  unfold named_trend. destruct (String.eqb_spec name "linear") as [->|N1]; [apply PW; simpl; auto|]. destruct (String.eqb_spec name "linear_raw") as [->|N2]; [apply PW; simpl; auto|].
  destruct (String.eqb_spec name "logistic") as [->|N3]; [apply PW; simpl; auto|]. destruct (String.eqb_spec name "flat") as [->|N4]; [|reflexivity].
  split; [|discriminate]. right. right. do 4 eexists. split; [reflexivity|]. split; [reflexivity|].
  destruct (Req_dec (c_changepoint_scale c) (c_changepoint_scale c')) as [E|N]; [now left|right]. now apply touched_flat.
Qed.
End Models.
