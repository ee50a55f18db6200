(** A column of predicted samples belongs to one posterior draw. *)
From Coq Require Import Reals Lra ZArith String Bool List Lia.
From Verif.Model Require Import Base Num XFloat Frame Arr Prog Likelihood Effect Trend TrendProg Aggregate Scale Expand Engine Predict Forecaster.
From Verif.Spec Require Import ScaleSpec ForecasterSpec DrawSpec.
From Verif.Facts Require Import BaseFacts ArrFacts LikelihoodFacts ForecasterInv ForecasterProps EngineFacts AlikeFacts ComponentFacts PredictProps PredictFacts ForecasterFacts.
Import ListNotations.
Local Open Scope string_scope.

(** * Traces *)
Lemma dict_set_keys {V} (d : dict V) k v k' : In k' (map fst (dict_set d k v)) -> k' = k \/ In k' (map fst d).
Proof.
  induction d as [|[a b] d IH]; cbn [dict_set]; [simpl; intuition|]. destruct (String.eqb_spec k a) as [->|]; simpl; [intuition|]. intros [H|H]; [auto|]. apply IH in H. tauto.
Qed.
Lemma dict_set_nodup {V} (d : dict V) k v : NoDup (map fst d) -> NoDup (map fst (dict_set d k v)).
Proof.
  induction d as [|[a b] d IH]; cbn [dict_set]; intros N; [repeat constructor; auto|]. inversion N as [|? ? N1 N2]; subst. destruct (String.eqb_spec k a) as [->|NE]; [now constructor|].
  cbn [map fst]. constructor; [|auto]. intros H. apply dict_set_keys in H. destruct H as [H|H]; [congruence|contradiction].
Qed.
Lemma record_nodup tr n s tr' : record tr n s = Ok tr' -> NoDup (map fst tr) -> NoDup (map fst tr').
Proof.
  unfold record. intros H N. assert (tr' = dict_set tr n s) as -> by (destruct s; [destruct (dict_get tr n); [discriminate|]|..]; congruence). now apply dict_set_nodup.
Qed.
Lemma run_keys {A} e (p : prog A) : forall tr o tr', run e tr p = Ok (o, tr') -> NoDup (map fst tr) -> NoDup (map fst tr').
Proof.
  induction p as [a|x|n d sh ob k IH|n v k IH|n s k IH]; cbn [run]; intros tr o tr' H N; [congruence|discriminate|..]; inv_bind H; eapply IH; eauto; eapply record_nodup; eauto.
Qed.
Lemma predictive_sample lat (tr : trace) n d v b w : NoDup (map fst tr) -> dict_get tr n = Some (SSample d v b) -> dict_get (predictive_values lat tr) n = Some w -> w = v.
Proof.
  unfold predictive_values. induction tr as [|[k s] tr IH]; [discriminate|]. cbn [dict_get flat_map fst snd map]. intros N G H. inversion N as [|? ? N1 N2]; subst.
  assert (NG : forall tr, ~ In n (map fst tr) -> dict_get (flat_map (fun ns : string * site => match snd ns with SSample _ v _ => if str_in (fst ns) lat then [] else [(fst ns, v)] | SDet v => [(fst ns, v)] | SPlate _ => [] end) tr) n = None).
  { clear. induction tr as [|[k s] tr IH]; [reflexivity|]. cbn [flat_map fst snd map]. intros H. assert (K : n <> k) by (intros ->; apply H; now left). assert (T : ~ In n (map fst tr)) by (intros I; apply H; now right).
    apply String.eqb_neq in K. destruct s as [d v b|v|z]; [destruct (str_in k lat)|..]; cbn [app dict_get]; rewrite ?K; auto. }
  destruct (String.eqb_spec n k) as [->|NE].
  - injection G as ->. destruct (str_in k lat); cbn [app dict_get] in H; [rewrite NG in H by exact N1; discriminate|]. rewrite String.eqb_refl in H. congruence.
  - apply IH; auto. apply String.eqb_neq in NE. destruct s as [d' v' b'|v'|z]; [destruct (str_in k lat)|..]; cbn [app dict_get] in H; rewrite ?NE in H; exact H.
Qed.

(** * Stacked draws *)
Lemma stack_keys ds out k a : stack ds = Ok out -> dict_get out k = Some a -> exists vs, Forall2 (fun d v => dict_get d k = Some v) ds vs.
Proof.
  unfold stack. destruct ds as [|d ds]; [discriminate|]. intros H G. apply mapM_ok in H.
  assert (Q : exists ka, stack_site (d :: ds) ka = Ok (k, a)).
  { clear -H G. remember (d :: ds) as all eqn:E. clear E. revert G. induction H as [|ka [k2 a2] l r E F IH]; [discriminate|]. cbn [dict_get]. destruct (String.eqb_spec k k2) as [->|]; [|exact IH]. intros [= ->]. eauto. }
  destruct Q as [[k0 a0] Q]. unfold stack_site in Q. cbn [fst snd] in Q. inv_bind Q. destruct (forallb _ _); [|discriminate]. injection Q as -> _. exists x. apply mapM_ok in E. clear -E.
  induction E as [|u v l r H F IH]; constructor; auto. unfold dict_item in H. destruct (dict_get u k); congruence.
Qed.

Lemma stacked_entry a vs s T k j : a_flat a = concat (map a_flat vs) -> a_shape a = [s; T; 1] -> List.length vs = s -> (forall v, In v vs -> List.length (a_flat v) = T) -> k < s -> j < T ->
  aget a [k; j; 0]%nat = nth j (a_flat (nth k vs (mkArr [] []))) 0%R.
Proof.
  intros F S L W Hk Hj. unfold aget. rewrite S, F. replace (ravel [s; T; 1] [k; j; 0]%nat) with (k * T + j) by (simpl; lia).
  rewrite (nth_concat_uniform _ T).
  - replace (nth k (map a_flat vs) []) with (a_flat (nth k vs (mkArr [] []))); [reflexivity|]. symmetry. apply (map_nth a_flat vs (mkArr [] [])).
  - intros l Hl. apply in_map_iff in Hl as (v & <- & Hv). auto.
  - rewrite map_length. lia.
  - exact Hj.
Qed.

(** * The observations of a forecast *)
Lemma uni_obs_value c s p t td (data : option (dict edata)) e o tr : c_hier c = false -> run e [] (model_call c s p t td None data) = Ok (o, tr) ->
  exists d N, dict_get tr "obs" = Some (SSample d (mkArr [N; 1] (map (e "obs") (seq 0 N))) false).
Proof.
  intros Hc H. unfold model_call in H. rewrite Hc in H. set (effs := if p_has_exogenous p then _ else _) in H.
  assert (Q : forall a d o, o = site_value e "obs" (a_shape (reshape_col a)) None -> dict_get tr "obs" = Some (SSample d o false) ->
    exists d N, dict_get tr "obs" = Some (SSample d (mkArr [N; 1] (map (e "obs") (seq 0 N))) false)).
  { intros a d o' -> G. exists d, (List.length (a_flat a)). rewrite G. unfold site_value, reshape_col. cbn [a_shape prod_shape fold_right]. now rewrite !Nat.mul_1_r. }
  destruct (String.eqb (c_likelihood c) "normal"); [|destruct (String.eqb (c_likelihood c) "gamma"); [|destruct (String.eqb (c_likelihood c) "negbinomial"); [|discriminate]]].
  - unfold univariate_model in H. rewrite run_bind in H. inv_bind H. destruct x as [m tr1].
    apply (tail_run e tr1 _ (len m) (fun noise => DNormal (reshape_col m) (const_arr (a_shape (reshape_col m)) (item0 noise)))) in H. destruct H as (_ & H1 & H2). eapply Q; eauto.
  - unfold univariate_gamma_model in H. rewrite run_bind in H. inv_bind H. destruct x as [m tr1].
    apply (tail_run e tr1 _ (len (to_positive m)) (fun noise => gamma_reparametrized (reshape_col (to_positive m)) (item0 noise))) in H. destruct H as (_ & H1 & H2). eapply Q; eauto.
  - unfold univariate_negbinomial_model in H. rewrite run_bind in H. inv_bind H. destruct x as [m tr1]. set (m2 := arr_map _ (to_positive m)) in *.
    apply (tail_run e tr1 _ (len m2) (fun noise => DNegBinomial2 (reshape_col m2) (const_arr (a_shape (reshape_col m2)) (item0 noise * scale_number s)%R))) in H. destruct H as (_ & H1 & H2). eapply Q; eauto.
Qed.

Lemma chunks_count {A} k n (l : list A) : List.length (chunks k n l) = n.
Proof. unfold chunks. now rewrite map_length, seq_length. Qed.
Lemma forecast_times lb ts ds obs s N out : predict_samples_base lb ts ds = Ok out -> lb_levels lb = 0 -> dict_get ds "obs" = Some obs -> a_shape obs = [s; N; 1] -> s <> 0 -> N = List.length ts.
Proof.
  unfold predict_samples_base. intros H L G Sh Hs. unfold dict_item in H. rewrite G in H. cbn [bind] in H. rewrite Sh in H. inv_bind H. inv_bind H. inv_bind H.
  unfold periodindex_to_multiindex in E0. rewrite L in E0. apply (f_equal (fun r => match r with Ok l => List.length l | Err _ => 0 end)) in E0. rewrite map_length in E0. unfold frame_of in E1. destruct (Nat.eqb_spec (List.length x0) (List.length x)) as [Q|]; [|discriminate E1].
  rewrite <- E0 in Q. rewrite Q. unfold rows_of_width in E. destruct s as [|s]; [congruence|]. destruct (Nat.eqb _ 0) in E; [|discriminate]. apply (f_equal (fun r => match r with Ok l => List.length l | Err _ => 0 end)) in E. rewrite chunks_count in E.
  rewrite <- E. assert (TL : List.length (a_flat (transpose obs)) = N * S s).
  { rewrite (transpose_flat3 obs (S s) N 1 Sh). change (seq 0 1) with [0]. cbn [flat_map]. rewrite app_nil_r, (flat_map_const_length _ (S s)); [rewrite seq_length; lia|]. intros j. now rewrite map_length, seq_length. }
  rewrite TL. now rewrite Nat.div_mul by discriminate.
Qed.

Section Any.
Variable ns_of : Z -> Z.
Variable order : list string -> list string.
Variable keep : path -> bool.
Context {TS P : Type}.
Variable tr_fit_transform : TS -> frame R -> TS * res (frame R).
Variable tr_transform : TS -> frame R -> res (frame R).
Variable svi_run : Z -> nat -> nat -> prog arr -> res (list xr * P).
Variable nuts_run : Z -> nat -> nat -> nat -> prog arr -> res (nat -> nat -> env).
Variable latent_sites : prog arr -> list string.
Variable guide_draw : P -> Z -> nat -> prog arr -> env.
Variable complete_draw : env -> Z -> nat -> prog arr -> env.
Notation fit_data := (fit_data ns_of order keep tr_fit_transform).
Notation fit_forecaster := (fit_forecaster ns_of order keep tr_fit_transform svi_run nuts_run latent_sites).
Notation predict_model := (predict_model ns_of keep tr_transform).
Notation forecast_samples := (forecast_samples ns_of keep tr_transform guide_draw complete_draw).
Notation draws := (draws guide_draw complete_draw).

Lemma samples_inv c ob (f : fitted (P := P)) y X fh f' out : forecast_samples c ob f y X fh = (f', Ok out) ->
  exists m ts traces ds, predict_model c ob f y X fh = Ok m /\ fh_to_index y fh = Ok ts /\
    mapM (fun e => run e [] m) (draws (engine_of c) (ft_posterior f) m) = Ok traces /\
    stack (map (fun at_ => predictive_values (latent_of (ft_posterior f)) (snd at_)) traces) = Ok ds /\
    predict_samples keep (labeller_of c f y) ts ds = Ok out.
Proof.
  unfold Forecaster.forecast_samples, predictive_samples_dict, ForecasterSpec.predict_model. intros H.
  destruct (fh_to_index y fh) as [times|]; [|discriminate]. destruct (c_hier c).
  - destruct (hierarchical_predict_model _ _ _ _ _ _ _ _ _) as [[m ex]|]; [|discriminate]. injection H as _ H. inv_bind H.
    unfold engine_predict in E. inv_bind E. exists m, times, x0, x. auto.
  - injection H as _ H. inv_bind H. inv_bind E. unfold engine_predict in E. inv_bind E. exists x0, times, x1, x. auto.
Qed.

(** stacked observations whose shape is the same in all runs *)
Lemma stacked_obs (m : prog arr) es traces lat ds obs (val : env -> arr -> Prop) : mapM (fun e => run e [] m) es = Ok traces ->
  stack (map (fun at_ => predictive_values lat (snd at_)) traces) = Ok ds -> dict_get ds "obs" = Some obs ->
  (forall e o tr, In e es -> run e [] m = Ok (o, tr) -> exists d v b, dict_get tr "obs" = Some (SSample d v b) /\ val e v) ->
  exists vs sh, Forall2 val es vs /\ a_shape obs = List.length es :: sh /\ a_flat obs = concat (map a_flat vs) /\ (forall v, In v vs -> a_shape v = sh) /\ es <> [].
Proof.
  intros HM HS HO V. destruct (stack_keys _ _ _ _ HS HO) as (vs & FV). destruct (stack_get _ _ _ _ HS FV) as (a & sh & G & S & F & W). rewrite HO in G. injection G as <-.
  apply mapM_ok in HM. exists vs, sh. rewrite map_length in S. pose proof (Forall2_len _ _ _ HM) as L. split; [|split; [congruence|split; [exact F|split; [exact W|]]]].
  - clear -HM FV V. revert vs FV V. induction HM as [|e [o tr] es traces E H IH]; intros vs FV V; inversion FV as [|? v ? vs' G FV']; subst; constructor.
    + destruct (V e o tr (or_introl eq_refl) E) as (d & w & b & T & Q). cbn [snd] in G. assert (N : NoDup (map fst tr)) by (eapply run_keys; [exact E|constructor]). now rewrite (predictive_sample _ _ _ _ _ _ _ N T G).
    + apply IH; auto. intros e0 o0 tr0 I. apply V. now right.
  - intros ->. destruct traces; [discriminate|inversion HM].
Qed.

Lemma univariate_rows c ob (f : fitted (P := P)) y X fh f' out u : c_hier c = false -> f_levels y = 0 -> forecast_samples c ob f y X fh = (f', Ok out) ->
  (discrete c = true /\ u = 1%R \/ discrete c = false /\ ft_scale f = SFloat u) ->
  exists m ts, predict_model c ob f y X fh = Ok m /\ fh_to_index y fh = Ok ts /\
    forall row, In row (f_rows out) <-> exists j, j < List.length ts /\ row = mkRow [] (nth j ts 0%Z) (map (fun e => e "obs" j * u)%R (draws (engine_of c) (ft_posterior f) m)).
Proof.
  intros Hc L H U. destruct (samples_inv _ _ _ _ _ _ _ _ H) as (m & ts & traces & ds & PM & FT & HM & HS & HP). exists m, ts. split; [exact PM|]. split; [exact FT|].
  assert (M : exists t td data, m = model_call c (ft_scale f) (ft_prepared f) t td None data).
  { unfold ForecasterSpec.predict_model in PM. rewrite Hc in PM. unfold univariate_predict_model in PM. do 4 inv_bind PM. injection PM as <-. eauto. }
  destruct M as (t & td & data & ->). set (es := draws (engine_of c) (ft_posterior f) _) in *.
  assert (O : exists obs, dict_get ds "obs" = Some obs).
  { unfold predict_samples in HP. inv_bind HP. unfold predict_samples_base in E. inv_bind E. unfold dict_item in E0. destruct (dict_get ds "obs"); [eauto|discriminate]. }
  destruct O as (obs & HO).
  destruct (stacked_obs _ es traces _ ds obs (fun e v => exists N, v = mkArr [N; 1] (map (e "obs") (seq 0 N))) HM HS HO) as (vs & sh & FV & S & F & W & NE).
  { intros e o tr _ RU. destruct (uni_obs_value _ _ _ _ _ _ _ _ _ Hc RU) as (d & N & G). exists d, (mkArr [N; 1] (map (e "obs") (seq 0 N))), false. split; [exact G|]. now exists N. }
  assert (SH : exists N, sh = [N; 1] /\ Forall2 (fun e v => a_flat v = map (e "obs") (seq 0 N)) es vs).
  { destruct FV as [|e v es' vs' (N & ->) FV]; [congruence|]. exists N. assert (Q : sh = [N; 1]) by (symmetry; apply (W (mkArr [N; 1] (map (e "obs") (seq 0 N)))); now left). split; [exact Q|]. constructor; [reflexivity|].
    assert (W' : forall v, In v vs' -> a_shape v = [N; 1]) by (intros v I; rewrite <- Q; apply W; now right). clear -FV W'.
    induction FV as [|e v es vs (K & ->) FV IH]; constructor; [|apply IH; intros; apply W'; now right]. specialize (W' _ (or_introl eq_refl)). cbn in W'. injection W' as ->. reflexivity. }
  destruct SH as (N & -> & FE). pose proof (Forall2_len _ _ _ FE) as LE. assert (LN : List.length es <> 0) by (destruct es; [congruence|discriminate]).
  assert (EN : N = List.length ts).
  { unfold predict_samples in HP. inv_bind HP. eapply forecast_times; [exact E|exact L|exact HO|exact S|exact LN]. }
  subst N. destruct (c52_uni keep (labeller_of c f y) ts ds obs (List.length es) u L HO LN S U) as (out' & E & _ & _ & _ & _ & R). rewrite HP in E. injection E as <-.
  assert (V : forall j, j < List.length ts -> map (fun k => aget obs [k; j; 0]%nat * u)%R (seq 0 (List.length es)) = map (fun e => e "obs" j * u)%R es).
  { intros j Hj. symmetry. etransitivity; [apply (map_nth_seq _ es (fun _ _ => 0%R))|]. symmetry. apply map_ext_in. intros k Hk. apply in_seq in Hk. f_equal.
    assert (WL : forall v, In v vs -> List.length (a_flat v) = List.length ts).
    { intros v Hv. apply Forall2_In_both in FE. destruct FE as [_ FE]. destruct (FE v Hv) as (e & _ & ->). now rewrite map_length, seq_length. }
    rewrite (stacked_entry obs vs (List.length es) (List.length ts) k j F S (eq_sym LE) WL) by lia.
    assert (Q : a_flat (nth k vs (mkArr [] [])) = map (nth k es (fun _ _ => 0%R) "obs") (seq 0 (List.length ts))).
    { clear -FE Hk. destruct Hk as [_ Hk]. cbn in Hk. revert k Hk. induction FE as [|e v es vs E FE IH]; intros k Hk; [simpl in Hk; lia|]. destruct k as [|k]; [exact E|]. apply IH. simpl in Hk. lia. }
    rewrite Q. rewrite (nth_indep _ 0%R (nth k es (fun _ _ => 0%R) "obs" 0)) by (rewrite map_length, seq_length; exact Hj). rewrite map_nth, seq_nth by exact Hj. reflexivity. }
  intros row. rewrite R. split; intros (j & Hj & ->); exists j; (split; [exact Hj|]); now rewrite V.
Qed.

(** * Which draws *)
Lemma seq_app_map n k : seq 0 (n * S k) = (seq 0 n ++ map (fun i => n + i) (seq 0 (n * k)))%list.
Proof.
  replace (n * S k) with (n + n * k) by lia. rewrite seq_app. f_equal. cbn [Nat.add]. generalize (n * k). intros q. clear. revert n. induction q as [|q IH]; intros n; [reflexivity|].
  cbn [seq map]. rewrite Nat.add_0_r. f_equal. rewrite IH. rewrite <- seq_shift, map_map. apply map_ext. intros; lia.
Qed.
(** chain after chain *)
Lemma chains_flat {A} (r : nat -> nat -> A) n k : 0 < n -> flat_map (fun c => map (r c) (seq 0 n)) (seq 0 k) = map (fun q => r (q / n) (q mod n)) (seq 0 (n * k)).
Proof.
  intros Hn. revert r. induction k as [|k IH]; intros r; [now rewrite Nat.mul_0_r|]. rewrite seq_app_map, map_app. cbn [seq flat_map]. f_equal.
  - apply map_ext_in. intros q Hq. apply in_seq in Hq. rewrite Nat.div_small, Nat.mod_small by lia. reflexivity.
  - rewrite <- seq_shift, flat_map_concat_map, map_map, <- flat_map_concat_map. rewrite (IH (fun c => r (S c))), map_map. apply map_ext. intros q.
    replace (n + q) with (q + 1 * n) by lia. rewrite Nat.div_add, Nat.mod_add by lia. now rewrite Nat.add_1_r.
Qed.
Lemma combine_seq {A B} (g : nat -> A -> B) l d : map (fun se => g (fst se) (snd se)) (combine (seq 0 (List.length l)) l) = map (fun k => g k (nth k l d)) (seq 0 (List.length l)).
Proof.
  revert g. induction l as [|x l IH]; intros g; [reflexivity|]. cbn [List.length seq combine map fst snd nth]. f_equal. rewrite <- seq_shift, !map_map.
  rewrite <- (IH (fun k => g (S k))). rewrite <- (map_length (fun x => x) l) at 1. rewrite map_length. clear. generalize (seq 0 (List.length l)). revert g. induction l as [|x l IH]; intros g s; destruct s as [|a s]; try reflexivity.
  cbn [map combine fst snd]. f_equal. apply IH.
Qed.

Lemma mcmc_draws c m0 (post : inferred P) m : infer svi_run nuts_run latent_sites (engine_of c) m0 = Ok post -> c_method c = "mcmc" ->
  exists r, nuts_run (en_key (engine_of c)) (c_warmup c) (c_samples c) (c_chains c) m0 = Ok r /\
    draws (engine_of c) post m = map (fun k => complete_draw (r (k / c_samples c) (k mod c_samples c)) (en_key (engine_of c)) k m) (seq 0 (c_samples c * c_chains c)).
Proof.
  intros H M. unfold infer in H. cbn [engine_of en_method] in H. rewrite M in H. cbn [String.eqb Ascii.eqb Bool.eqb] in H. inv_bind H. injection H as <-. exists x. split; [exact E|]. unfold Engine.draws. cbn [engine_of en_samples en_chains].
  destruct (Nat.eq_dec (c_samples c) 0) as [Z|NZ].
  { rewrite Z. cbn [seq map Nat.mul]. assert (N : forall l, flat_map (fun _ : nat => @nil env) l = []) by (induction l; auto). now rewrite N. }
  rewrite chains_flat by lia. set (l := map _ (seq 0 (c_samples c * c_chains c))). rewrite (combine_seq (fun k e => complete_draw e _ k m) l (fun _ _ => 0%R)). unfold l. rewrite map_length, seq_length.
  apply map_ext_in. intros k Hk. apply in_seq in Hk. f_equal. rewrite (nth_indep _ _ (x (0 / c_samples c) (0 mod c_samples c))) by (rewrite map_length, seq_length; lia).
  rewrite (map_nth (fun q => x (q / c_samples c) (q mod c_samples c))), seq_nth by lia. reflexivity.
Qed.
Lemma map_draws c m0 (post : inferred P) m : infer svi_run nuts_run latent_sites (engine_of c) m0 = Ok post -> c_method c = "map" ->
  exists losses params, svi_run (en_key (engine_of c)) (c_optimizer c) (c_steps c) m0 = Ok (losses, params) /\
    draws (engine_of c) post m = map (fun k => guide_draw params (en_key (engine_of c)) k m) (seq 0 (Z.to_nat 1000)).
Proof.
  intros H M. unfold infer in H. cbn [engine_of en_method] in H. rewrite M in H. cbn [String.eqb Ascii.eqb Bool.eqb] in H. inv_bind H. destruct x as [losses params]. inv_bind H. destruct x; [discriminate|]. injection H as <-.
  exists losses, params. split; [exact E|]. reflexivity.
Qed.

Lemma c110_mcmc c ob y X ob' f : fit_forecaster c ob y X = (ob', Ok f) -> c_hier c = false -> c_method c = "mcmc" ->
  exists ys m0 r, scale_y (discrete c) (ft_scale f) y = Ok ys /\ fit_data c ob (ft_scale f) ys X = (ob', Ok (ft_prepared f, m0)) /\
    nuts_run (en_key (engine_of c)) (c_warmup c) (c_samples c) (c_chains c) m0 = Ok r /\
    forall ob2 y2 X2 fh f2 out u, forecast_samples c ob2 f y2 X2 fh = (f2, Ok out) -> f_levels y2 = 0 -> factor c f u ->
    exists m ts, predict_model c ob2 f y2 X2 fh = Ok m /\ fh_to_index y2 fh = Ok ts /\
      samples_of out ts (fun k => complete_draw (chain_draw (c_samples c) r k) (en_key (engine_of c)) k m) (c_samples c * c_chains c) u.
Proof.
  intros H Hc M. apply fit_forecaster_inv in H. destruct H as (s & ys & p & m0 & post & _ & E2 & E3 & E4 & ->). cbn [ft_scale ft_prepared ft_posterior].
  destruct (mcmc_draws c m0 post m0 E4 M) as (r & N & _). exists ys, m0, r. do 3 (split; [assumption|]). intros ob2 y2 X2 fh f2 out u HF L U.
  destruct (univariate_rows _ _ _ _ _ _ _ _ u Hc L HF U) as (m & ts & PM & FT & R). exists m, ts. split; [exact PM|]. split; [exact FT|]. cbn [ft_posterior] in R.
  destruct (mcmc_draws c m0 post m E4 M) as (r' & N' & D). rewrite N in N'. injection N' as <-. rewrite D in R. intros row. rewrite R. split; intros (j & Hj & ->); exists j; (split; [exact Hj|]); now rewrite map_map.
Qed.
Lemma c110_map c ob y X ob' f : fit_forecaster c ob y X = (ob', Ok f) -> c_hier c = false -> c_method c = "map" ->
  exists ys m0 losses params, scale_y (discrete c) (ft_scale f) y = Ok ys /\ fit_data c ob (ft_scale f) ys X = (ob', Ok (ft_prepared f, m0)) /\
    svi_run (en_key (engine_of c)) (c_optimizer c) (c_steps c) m0 = Ok (losses, params) /\
    forall ob2 y2 X2 fh f2 out u, forecast_samples c ob2 f y2 X2 fh = (f2, Ok out) -> f_levels y2 = 0 -> factor c f u ->
    exists m ts, predict_model c ob2 f y2 X2 fh = Ok m /\ fh_to_index y2 fh = Ok ts /\
      samples_of out ts (fun k => guide_draw params (en_key (engine_of c)) k m) (Z.to_nat 1000) u.
Proof.
  intros H Hc M. apply fit_forecaster_inv in H. destruct H as (s & ys & p & m0 & post & _ & E2 & E3 & E4 & ->). cbn [ft_scale ft_prepared ft_posterior].
  destruct (map_draws c m0 post m0 E4 M) as (losses & params & N & _). exists ys, m0, losses, params. do 3 (split; [assumption|]). intros ob2 y2 X2 fh f2 out u HF L U.
  destruct (univariate_rows _ _ _ _ _ _ _ _ u Hc L HF U) as (m & ts & PM & FT & R). exists m, ts. split; [exact PM|]. split; [exact FT|]. cbn [ft_posterior] in R.
  destruct (map_draws c m0 post m E4 M) as (losses' & params' & N' & D). rewrite N in N'. injection N' as <- <-. rewrite D in R. intros row. rewrite R. split; intros (j & Hj & ->); exists j; (split; [exact Hj|]); now rewrite map_map.
Qed.
End Any.
