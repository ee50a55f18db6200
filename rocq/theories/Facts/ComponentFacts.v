(** The columns of [predict_all_sites] and the location of the observations. *)
From Coq Require Import Reals Lra String Bool ZArith List Permutation Lia.
From Verif.Model Require Import Base Num XFloat Frame Arr Expand Aggregate Scale Prog Likelihood Effect Trend TrendProg Engine Predict Forecaster.
From Verif.Spec Require Import FrameSpec ScaleSpec ProgSpec PredictSpec EffectSpec ForecasterSpec AlignSpec ShapeSpec SiteSpec ComponentSpec.
From Verif.Facts Require Import BaseFacts NumFacts OrderFacts FrameFacts FrameProps ArrFacts ProgFacts MeanFacts LikelihoodFacts EffectPredict PredictFacts ForecasterFacts ForecasterInv
  ForecasterProps ModelProps EngineFacts AlignFacts TrendFacts CompleteFacts ShapeFacts SiteFacts.
Import ListNotations.
Local Open Scope string_scope.

(** * Stacked draws *)
Lemma nth_concat_uniform {A} (ls : list (list A)) n s q d : (forall l, In l ls -> List.length l = n) -> s < List.length ls -> q < n ->
  nth (s * n + q) (concat ls) d = nth q (nth s ls []) d.
Proof.
  revert s. induction ls as [|l ls IH]; intros s H Hs Hq; simpl in Hs; [lia|]. assert (L : List.length l = n) by (apply H; simpl; auto).
  cbn [concat]. destruct s as [|s]; simpl.
  - apply app_nth1. lia.
  - rewrite app_nth2 by lia. replace (n + s * n + q - List.length l) with (s * n + q) by lia. apply IH; [|lia|exact Hq].
    intros x Hx. apply H. simpl. auto.
Qed.

Lemma mapM_keys (ds : list (dict arr)) d0 out : mapM (stack_site ds) d0 = Ok out -> forall k a0, dict_get d0 k = Some a0 ->
  exists a, dict_get out k = Some a /\ stack_site ds (k, a0) = Ok (k, a).
Proof.
  intros H. apply BaseFacts.mapM_ok in H. induction H as [|[k1 a1] [k2 a2] l r E F IH]; intros k a0 G; [discriminate|].
  assert (K : k2 = k1). { unfold stack_site in E. inv_bind E. destruct (forallb _ _); [|discriminate]. cbn [fst] in E. congruence. }
  subst k2. cbn [dict_get] in *. destruct (String.eqb_spec k k1) as [->|N]; [|apply IH; exact G]. injection G as ->. eauto.
Qed.

Lemma stack_get ds out k vs : stack ds = Ok out -> Forall2 (fun d v => dict_get d k = Some v) ds vs ->
  exists a sh, dict_get out k = Some a /\ a_shape a = List.length ds :: sh /\ a_flat a = concat (map a_flat vs) /\
    forall v, In v vs -> a_shape v = sh.
Proof.
  unfold stack. destruct ds as [|d ds]; [discriminate|]. intros H F. inversion F as [|? v ? vs' G F' E1 E2]. subst.
  destruct (mapM_keys _ _ _ H k v G) as (a & Ga & S). exists a, (a_shape v). split; [exact Ga|].
  unfold stack_site in S. cbn [fst snd] in S. inv_bind S.
  assert (x = v :: vs').
  { apply BaseFacts.mapM_ok in E. clear -E F. revert x E. induction F as [|d0 v0 l r G F IH]; intros x E; inversion E; subst; [reflexivity|].
    unfold dict_item in H1. rewrite G in H1. injection H1 as <-. f_equal. now apply IH. }
  subst x. destruct (forallb _ _) eqn:Fb; [|discriminate]. injection S as <-. split; [reflexivity|]. split; [reflexivity|].
  rewrite forallb_forall in Fb. intros w Hw. specialize (Fb w Hw). destruct (list_eq_dec _ _ _); [assumption|discriminate].
Qed.

Lemma site_mean_stacked a n sh vs q : a_shape a = n :: sh -> a_flat a = concat (map a_flat vs) -> List.length vs = n ->
  (forall v, In v vs -> a_shape v = sh /\ arr_wf v) -> q < prod_shape sh ->
  site_mean a q = Rmean (map (fun v => entry v q) vs).
Proof.
  intros S F L W Hq. unfold site_mean. rewrite S, F. cbn [hd tl]. f_equal. rewrite <- L.
  rewrite (map_nth_seq (fun v => entry v q) vs (mkArr [] [])). apply map_ext_in. intros s Hs. apply in_seq in Hs.
  rewrite (nth_concat_uniform _ (prod_shape sh)).
  - unfold entry. replace (nth s (map a_flat vs) []) with (a_flat (nth s vs (mkArr [] []))); [reflexivity|].
    symmetry. apply (map_nth a_flat vs (mkArr [] [])).
  - intros l Hl. apply in_map_iff in Hl as (v & <- & Hv). destruct (W v Hv) as [Sv Wv]. unfold arr_wf in Wv. now rewrite Sv in Wv.
  - rewrite map_length. lia.
  - exact Hq.
Qed.

(** * Reading off the frame *)
Lemma all_sites_inv lb times ds out : predict_all_sites lb times ds = Ok out ->
  (lb_levels lb <> 0 -> lb_index lb <> []) /\
  (forall kv, In kv ds -> a_shape (snd kv) <> [] /\ prod_shape (tl (a_shape (snd kv))) = List.length (index_series lb) * List.length times).
Proof.
  unfold predict_all_sites. intros H. inv_bind H. inv_bind H. destruct (forallb _ _) eqn:Fb; [|discriminate].
  assert (NE : lb_levels lb <> 0 -> lb_index lb <> []).
  { intros L. unfold periodindex_to_multiindex in E0. destruct (lb_levels lb); [congruence|]. destruct (lb_index lb); [discriminate|congruence]. }
  split; [exact NE|]. rewrite multiindex_blocks in E0 by exact NE. injection E0 as <-.
  rewrite (flat_map_length_uniform _ (List.length times)) in Fb by (intros; now rewrite map_length, seq_length). rewrite seq_length in Fb.
  apply BaseFacts.mapM_ok in E. apply Forall2_In_both in E. destruct E as [E _]. rewrite forallb_forall in Fb.
  intros kv Hkv. destruct (E kv Hkv) as (s & Hs & Em). inv_bind Em. injection Em as <-. unfold mean0 in E0.
  destruct (a_shape (snd kv)) as [|n sh]; [discriminate|]. injection E0 as <-. split; [discriminate|].
  specialize (Fb _ Hs). apply Nat.eqb_eq in Fb. cbn [snd] in Fb. unfold flatten in Fb. cbn [a_flat] in Fb. rewrite map_length, seq_length in Fb. exact Fb.
Qed.

Lemma dict_get_map {V W} (g : V -> W) (d : dict V) n : dict_get (map (fun kv => (fst kv, g (snd kv))) d) n = option_map g (dict_get d n).
Proof. induction d as [|[k v] d IH]; simpl; [reflexivity|]. destruct (String.eqb n k); auto. Qed.

Lemma Rmean_Rplus {A} (f g : A -> R) l : Rmean (map (fun x => f x + g x)%R l) = (Rmean (map f l) + Rmean (map g l))%R.
Proof.
  unfold Rmean. rewrite !map_length. assert (E : Rsum (map (fun x => f x + g x)%R l) = (Rsum (map f l) + Rsum (map g l))%R).
  { induction l as [|x l IH]; simpl; [lra|]. rewrite IH. lra. }
  rewrite E. unfold Rdiv. lra.
Qed.

Lemma Rmean_zero {A} (l : list A) : Rmean (map (fun _ => 0%R) l) = 0%R.
Proof. unfold Rmean. assert (E : Rsum (map (fun _ => 0%R) l) = 0%R) by (induction l; simpl; lra). rewrite E. unfold Rdiv. lra. Qed.

Lemma Rmean_Rsum {A B} (f : A -> B -> R) (la : list A) (lb : list B) :
  Rsum (map (fun a => Rmean (map (f a) lb)) la) = Rmean (map (fun b => Rsum (map (fun a => f a b) la)) lb).
Proof.
  induction la as [|a la IH]; simpl; [now rewrite Rmean_zero|]. rewrite IH. now rewrite <- Rmean_Rplus.
Qed.

Lemma predictive_det lat (tr : trace) n v : dict_get tr n = Some (SDet v) -> NoDup (map fst tr) -> dict_get (predictive_values lat tr) n = Some v.
Proof.
  unfold predictive_values. induction tr as [|[k s] tr IH]; [discriminate|]. cbn [dict_get flat_map fst snd map]. intros G N.
  inversion N as [|? ? N1 N2]. subst. destruct (String.eqb_spec n k) as [->|NE].
  - injection G as ->. cbn [app dict_get]. now rewrite String.eqb_refl.
  - destruct s as [d x b|x|sz].
    + destruct (str_in k lat); cbn [app dict_get]; [auto|]. destruct (String.eqb_spec n k); [congruence|auto].
    + cbn [app dict_get]. destruct (String.eqb_spec n k); [congruence|auto].
    + cbn [app]. auto.
Qed.

(** * One run of the model *)
Lemma components_mean {D B} e (trend : prog arr) (data : dict D) effs (f : arr -> prog B) o tr :
  run e [] (pbind (compute_mean trend (Some data) (Some effs)) f) = Ok (o, tr) ->
  NoDup (actions e (pbind (compute_mean trend (Some data) (Some effs)) f)) ->
  NoDup (map fst effs) -> ~ In "trend" (map fst effs) ->
  exists t vs m, yields e (compute_mean trend (Some data) (Some effs)) m /\ additive_mean e trend data effs t vs m /\ dict_get tr "trend" = Some (SDet t) /\
    forall i name eff v, nth_error effs i = Some (name, eff) -> nth_error vs i = Some v -> dict_get tr name = Some (SDet v).
Proof.
  intros H N ND NT. destruct (run_nodup_trace _ _ _ _ H N) as (l & E & -> & NL).
  rewrite eval_bind in E. destruct (eval e (compute_mean trend (Some data) (Some effs))) as [[m lm]|] eqn:Em; [|discriminate]. cbn [bind] in E.
  destruct (eval e (f m)) as [[b' lf]|] eqn:Ef; [|discriminate]. cbn [bind] in E. injection E as -> <-.
  pose proof Em as Em2. apply eval_compute_mean in Em. destruct Em as (t & lt & vs & gs & E1 & C & El & F).
  exists t, vs, m. split; [apply eval_yields; eauto|]. split.
  { destruct (chain_values _ _ _ _ _ _ C ND) as [L V].
    { intros n Hn. simpl. intros [<-|[]]. contradiction. }
    destruct (sum_entries _ _ _ F) as (S1 & S2 & S3 & S4 & S5). rewrite Forall_forall in S2.
    split; [apply eval_yields; eauto|]. split; [assumption|]. split; [exact V|]. auto. }
  subst lm. split.
  - apply dict_get_nodup; [assumption|]. rewrite !in_app_iff. simpl. auto.
  - intros i name eff v Hi Hv. apply dict_get_nodup; [assumption|]. rewrite !in_app_iff. simpl. left. right. right. eapply chain_sites; eassumption.
Qed.

Section Run.
Context (e : env) (trend : prog arr) (data : dict edata) (p : list (string * effect)) (k : arr -> prog arr).
Let effs := effect_fns p.
Let model := pbind (compute_mean trend (Some data) (Some effs)) k.
Hypothesis ND : NoDup (map fst p).
Hypothesis NT : ~ In "trend" (map fst p).
Hypothesis WT : forall t, yields e trend t -> arr_wf t.

Lemma effs_keys : map fst effs = map fst p.
Proof. unfold effs, effect_fns. now rewrite map_map. Qed.

(** trend and effects are recorded, and they add up to the location *)
Lemma run_components lat o tr : run e [] model = Ok (o, tr) -> NoDup (actions e model) ->
  exists t vs m, yields e (compute_mean trend (Some data) (Some effs)) m /\ arr_wf m /\
    Forall2 (fun n v => dict_get (predictive_values lat tr) n = Some v /\ a_shape v = a_shape m /\ arr_wf v) ("trend" :: map fst p) (t :: vs) /\
    forall q, q < prod_shape (a_shape m) -> Rsum (map (fun v => entry v q) (t :: vs)) = entry m q.
Proof.
  intros H NA. destruct (run_nodup_trace _ _ _ _ H NA) as (l & _ & El & NL). subst l.
  destruct (components_mean e trend data effs k o tr H NA) as (t & vs & m & Y & A & Gt & Gv); [now rewrite effs_keys|now rewrite effs_keys|].
  pose proof A as (Yt & Lv & Vv & Sm & Sv & Wm & Em). assert (W : arr_wf t) by (now apply WT).
  assert (Wv : Forall arr_wf vs).
  { apply Forall_forall. intros v Hv. apply In_nth_error in Hv as (i & Hi).
    destruct (nth_error effs i) as [[name eff]|] eqn:Ei.
    2:{ apply nth_error_None in Ei. assert (i < List.length vs) by (apply nth_error_Some; congruence). lia. }
    destruct (Vv i name eff Ei) as (d & v' & _ & Ev & Yv). assert (v' = v) by congruence. subst v'.
    unfold effs, effect_fns in Ei. rewrite nth_error_map in Ei. destruct (nth_error p i) as [[n ef]|]; [|discriminate]. injection Ei as <- <-.
    cbn [snd] in Yv. eapply predict_wf; [exact W| |exact Yv]. reflexivity. }
  exists t, vs, m. split; [exact Y|]. split; [now apply Wm|]. split.
  - constructor.
    + split; [now apply predictive_det|]. split; [congruence|exact W].
    + assert (G : forall i n v, nth_error (map fst p) i = Some n -> nth_error vs i = Some v ->
        dict_get (predictive_values lat tr) n = Some v /\ a_shape v = a_shape m /\ arr_wf v).
      { intros i n v Hn Hv. assert (I : In v vs) by (eapply nth_error_In; exact Hv). split.
        - rewrite <- effs_keys in Hn. rewrite nth_error_map in Hn. destruct (nth_error effs i) as [[n' eff]|] eqn:Ei; [|discriminate]. injection Hn as <-.
          apply predictive_det; [|exact NL]. eapply Gv; eassumption.
        - split; [rewrite (Sv v I); congruence|]. rewrite Forall_forall in Wv. now apply Wv. }
      assert (L : List.length (map fst p) = List.length vs) by (rewrite <- effs_keys, map_length; congruence). clear -G L.
      revert vs G L. induction (map fst p) as [|n ns IH]; intros [|v vs] G L; simpl in L; try lia; constructor.
      * apply (G 0); reflexivity.
      * apply IH; [|lia]. intros i. apply (G (S i)).
  - intros q Hq. cbn [map Rsum]. assert (Lq : q < List.length (a_flat m)) by (specialize (Wm W Wv); unfold arr_wf in Wm; lia).
    rewrite (Em q Lq). reflexivity.
Qed.
End Run.

(** * All draws *)
Section Draws.
Context (trend : prog arr) (data : dict edata) (p : list (string * effect)) (k : arr -> prog arr).
Let mean := compute_mean trend (Some data) (Some (effect_fns p)).
Let model := pbind mean k.
Hypothesis ND : NoDup (map fst p).
Hypothesis NT : ~ In "trend" (map fst p).
Hypothesis WT : forall e t, yields e trend t -> arr_wf t.
Hypothesis NA : forall e o, yields e model o -> NoDup (actions e model).

Lemma components_total lat envs traces ds lb times out (u : path -> R) :
  mapM (fun e => run e [] model) envs = Ok traces ->
  stack (map (fun at_ => predictive_values lat (snd at_)) traces) = Ok ds ->
  predict_all_sites lb times ds = Ok out -> index_series lb <> [] ->
  (forall q, In q (index_series lb) -> unit_of (lb_discrete lb) (lb_scale lb) q (u q)) ->
  (lb_levels lb = 0 -> forall tab, lb_scale lb <> STable tab) ->
  exists means, Forall2 (fun e m => yields e mean m /\ arr_wf m /\ prod_shape (a_shape m) = List.length (index_series lb) * List.length times) envs means /\
    (forall r, In r (f_rows out) -> exists i j, nth_error (index_series lb) i = Some (r_path r) /\ nth_error times j = Some (r_time r) /\
      adds_up out r ("trend" :: map fst p) (u (r_path r) * Rmean (map (fun m => entry m (i * List.length times + j)) means))) /\
    (forall q t, In q (index_series lb) -> In t times -> exists r, In r (f_rows out) /\ r_path r = q /\ r_time r = t).
Proof.
  intros HR HS HO HN HU HT. destruct (all_sites_inv _ _ _ _ HO) as [NE HD].
  destruct (all_sites_rows lb times ds u NE HN HD HU HT) as (out' & HO' & _ & HC & _ & HRW). rewrite HO in HO'. injection HO' as <-.
  apply BaseFacts.mapM_ok in HR.
  (* components of every draw *)
  assert (C : exists L : list (arr * list arr), Forall2 (fun e c => yields e mean (fst c) /\ arr_wf (fst c)) envs L /\
     Forall2 (fun at_ c => Forall2 (fun n v => dict_get (predictive_values lat (snd at_)) n = Some v /\ a_shape v = a_shape (fst c) /\ arr_wf v) ("trend" :: map fst p) (snd c) /\
        forall q, q < prod_shape (a_shape (fst c)) -> Rsum (map (fun v => entry v q) (snd c)) = entry (fst c) q) traces L).
  { clear HS. induction HR as [|e [o tr] envs traces H F IH]; [exists []; split; constructor|]. destruct IH as (L & L1 & L2).
    assert (Y : yields e model o) by (apply run_eval in H as (l & E & _); apply eval_yields; eauto).
    destruct (run_components e trend data p k ND NT (WT e) lat o tr H (NA e o Y)) as (t & vs & m & Ym & Wm & FF & S).
    exists ((m, t :: vs) :: L). split; constructor; auto. }
  destruct C as (L & L1 & L2).
  assert (LT : List.length traces = List.length L) by (now apply Forall2_len in L2).
  (* the stacked array of the component with number x *)
  assert (ST : forall x n, nth_error ("trend" :: map fst p) x = Some n -> exists a sh,
     dict_get ds n = Some a /\ a_shape a = List.length L :: sh /\ prod_shape sh = List.length (index_series lb) * List.length times /\
     (forall c, In c L -> a_shape (fst c) = sh) /\
     forall q, q < prod_shape sh -> site_mean a q = Rmean (map (fun c => entry (nth x (snd c) (mkArr [] [])) q) L)).
  { intros x n Hx. set (vs := map (fun c : arr * list arr => nth x (snd c) (mkArr [] [])) L).
    assert (FV : Forall2 (fun d v => dict_get d n = Some v) (map (fun at_ : arr * trace => predictive_values lat (snd at_)) traces) vs /\
       (forall c, In c L -> a_shape (nth x (snd c) (mkArr [] [])) = a_shape (fst c) /\ arr_wf (nth x (snd c) (mkArr [] [])))).
    { unfold vs. clear -L2 Hx. induction L2 as [|at_ c traces L [FF _] F IH]; [split; [constructor|intros ? []]|]. destruct IH as [I1 I2].
      assert (Q : dict_get (predictive_values lat (snd at_)) n = Some (nth x (snd c) (mkArr [] [])) /\ a_shape (nth x (snd c) (mkArr [] [])) = a_shape (fst c) /\ arr_wf (nth x (snd c) (mkArr [] []))).
      { clear -FF Hx. revert x Hx. induction FF as [|n1 v1 ns vs Q F IH]; intros [|x] Hx; cbn [nth_error nth] in *; try discriminate; [injection Hx as <-; exact Q|now apply IH]. }
      split; [constructor; tauto|]. intros c' [<-|Hc']; [tauto|auto]. }
    destruct FV as [FV SV]. destruct (stack_get _ _ _ _ HS FV) as (a & sh & Ga & Sa & Fa & Sh). exists a, sh. rewrite map_length, LT in Sa.
    split; [exact Ga|]. split; [exact Sa|]. apply dict_get_In in Ga. destruct (HD _ Ga) as [_ Hp]. cbn [snd] in Hp. rewrite Sa in Hp. cbn [tl] in Hp.
    split; [exact Hp|]. split.
    - intros c Hc. destruct (SV c Hc) as [E _]. rewrite <- E. apply Sh. unfold vs. apply in_map_iff. eauto.
    - intros q Hq. rewrite (site_mean_stacked a (List.length L) sh vs q Sa Fa).
      + unfold vs. now rewrite map_map.
      + unfold vs. now rewrite map_length.
      + intros v Hv. split; [now apply Sh|]. unfold vs in Hv. apply in_map_iff in Hv as (c & <- & Hc). now apply SV.
      + exact Hq. }
  destruct (ST 0 "trend" eq_refl) as (_ & sh & _ & _ & Psh & Csh & _).
  exists (map fst L). split.
  { clear -L1 Csh Psh. induction L1 as [|e c envs L [H1 H2] F IH]; simpl; constructor; [|apply IH; intros; apply Csh; simpl; auto].
    split; [exact H1|]. split; [exact H2|]. rewrite Csh by (simpl; auto). exact Psh. }
  split.
  2:{ intros q t Hq Ht. apply (In_nth (A := path) _ _ []) in Hq as (i & Hi & Ei). apply (In_nth _ _ 0%Z) in Ht as (j & Hj & Ej).
      exists (mkRow q t (map (fun v => v * u q)%R (map (fun kv => site_mean (snd kv) (i * List.length times + j)) ds))). split; [|auto].
      rewrite HRW. apply key_sort_In. unfold draw_rows. apply in_flat_map. exists i. split; [apply in_seq; split; [lia|exact Hi]|].
      apply in_map_iff. exists j. split; [now rewrite Ei, Ej|apply in_seq; split; [lia|exact Hj]]. }
  intros r Hr. rewrite HRW in Hr. apply key_sort_In in Hr. unfold draw_rows in Hr. apply in_flat_map in Hr as (i & Hi & Hr).
  apply in_map_iff in Hr as (j & <- & Hj). apply in_seq in Hi, Hj. exists i, j. cbn [r_path r_time].
  split; [apply nth_error_nth'; lia|]. split; [apply nth_error_nth'; lia|].
  set (uu := u (nth i (index_series lb) [])). set (q := i * List.length times + j).
  assert (Hq : q < List.length (index_series lb) * List.length times) by (unfold q; nia).
  set (names := "trend" :: map fst p) in *.
  exists (map (fun x => Rmean (map (fun c => entry (nth x (snd c) (mkArr [] [])) q) L) * uu)%R (seq 0 (List.length names))). split.
  - assert (G : forall x n, nth_error names x = Some n -> cell out (mkRow (nth i (index_series lb) []) (nth j times 0%Z)
        (map (fun v => v * uu)%R (map (fun kv => site_mean (snd kv) q) ds))) n = Some (Rmean (map (fun c => entry (nth x (snd c) (mkArr [] [])) q) L) * uu)%R).
    { intros x n Hx. destruct (ST x n Hx) as (a & sh' & Ga & _ & Psh' & _ & SM). unfold cell. cbn [r_vals]. rewrite HC, map_map.
      rewrite combine_map_same. rewrite (dict_get_map (fun a => site_mean a q * uu)%R), Ga. simpl. rewrite SM by lia. reflexivity. }
    clear -G. revert G. generalize (cell out (mkRow (nth i (index_series lb) []) (nth j times 0%Z) (map (fun v => v * uu)%R (map (fun kv => site_mean (snd kv) q) ds)))). intros ce G.
    assert (K : forall ns s, (forall x n, nth_error ns x = Some n -> ce n = Some (Rmean (map (fun c => entry (nth (s + x) (snd c) (mkArr [] [])) q) L) * uu)%R) ->
      Forall2 (fun n v => ce n = Some v) ns (map (fun x => Rmean (map (fun c => entry (nth x (snd c) (mkArr [] [])) q) L) * uu)%R (seq s (List.length ns)))).
    { induction ns as [|n ns IH]; intros s Hs; simpl; constructor.
      - rewrite (Hs 0 n eq_refl). now rewrite Nat.add_0_r.
      - apply IH. intros x m Hx. rewrite (Hs (S x) m Hx). now rewrite <- Nat.add_succ_comm. }
    apply (K names 0). exact G.
  - rewrite (Rsum_ext _ (fun x => uu * Rmean (map (fun c => entry (nth x (snd c) (mkArr [] [])) q) L))%R) by (intros; lra).
    assert (SC : forall (g : nat -> R) l, Rsum (map (fun x => uu * g x)%R l) = (uu * Rsum (map g l))%R).
    { intros g l. induction l as [|x l IH]; simpl; [lra|]. rewrite IH. lra. }
    rewrite SC. f_equal. rewrite (Rmean_Rsum (fun x (c : arr * list arr) => entry (nth x (snd c) (mkArr [] [])) q)). rewrite map_map. f_equal. apply map_ext_in. intros c Hc.
    assert (LC : List.length names = List.length (snd c) /\ Rsum (map (fun v => entry v q) (snd c)) = entry (fst c) q).
    { apply Forall2_In_both in L2. destruct L2 as [_ L2]. destruct (L2 c Hc) as (at_ & _ & FF & S). split; [now apply Forall2_len in FF|].
      apply S. rewrite (Csh c Hc). lia. }
    destruct LC as [LC <-]. rewrite LC. f_equal. symmetry. apply (map_nth_seq (fun v => entry v q) (snd c) (mkArr [] [])).
Qed.
End Draws.

Lemma Forall2_weaken {A B} (Q Q' : A -> B -> Prop) la lb : Forall2 Q la lb -> (forall a b, In a la -> Q a b -> Q' a b) -> Forall2 Q' la lb.
Proof. induction 1 as [|a b la lb H F IH]; intros W; constructor; [apply W; simpl; auto|]. apply IH. intros; apply W; simpl; auto. Qed.

Lemma to_positive1_large x : (/ 100000 <= to_positive1 (/ 100000) (/ 10000000000) x)%R -> (/ 100000 <= x)%R.
Proof.
  intros H. destruct (Rle_lt_dec (/ 100000) x) as [L|L]; [exact L|]. exfalso. unfold to_positive1, clip_low in H. rewrite (proj2 (Rltb_true _ _) L) in H.
  assert (E : (exp (x - / 100000) < 1)%R) by (rewrite <- exp_0; apply exp_increasing; lra).
  unfold Rmax in H. destruct (Rle_dec _ _); lra.
Qed.

(** * The forecaster *)
Section Forecaster.
Variable ns_of : Z -> Z.
Variable order : list string -> list string.
Variable keep : path -> bool.
Context {TS : Type}.
Variable tr_fit_transform : TS -> frame R -> TS * res (frame R).
Variable tr_transform : TS -> frame R -> res (frame R).
Context {P : Type}.
Variable svi_run : Z -> nat -> nat -> prog arr -> res (list xr * P).
Variable nuts_run : Z -> nat -> nat -> nat -> prog arr -> res (nat -> nat -> env).
Variable latent_sites : prog arr -> list string.
Variable guide_draw : P -> Z -> nat -> prog arr -> env.
Variable complete_draw : env -> Z -> nat -> prog arr -> env.
Notation fit_forecaster := (fit_forecaster ns_of order keep tr_fit_transform svi_run nuts_run latent_sites).
Notation forecast_all_sites := (forecast_all_sites ns_of keep tr_transform guide_draw complete_draw).
Notation predict_model := (predict_model ns_of keep tr_transform).
Notation draws := (draws guide_draw complete_draw).

(** the names of the effects of a forecaster *)
Notation names f := ("trend" :: map fst (p_effects (ft_prepared f))).

Lemma forecast_sites_inv c ob (f : fitted (P := P)) y X fh f' out : forecast_all_sites c ob f y X fh = (f', Ok out) ->
  exists m times traces ds, predict_model c ob f y X fh = Ok m /\ fh_to_index y fh = Ok times /\
    mapM (fun e => run e [] m) (draws (engine_of c) (ft_posterior f) m) = Ok traces /\
    stack (map (fun at_ => predictive_values (latent_of (ft_posterior f)) (snd at_)) traces) = Ok ds /\
    predict_all_sites (labeller_of c f y) times ds = Ok out.
Proof.
  unfold Forecaster.forecast_all_sites, predictive_samples_dict, ForecasterSpec.predict_model. intros H.
  destruct (fh_to_index y fh) as [times|]; [|discriminate]. destruct (c_hier c).
  - destruct (hierarchical_predict_model _ _ _ _ _ _ _ _ _) as [[m ex]|]; [|discriminate]. injection H as _ H. inv_bind H.
    unfold engine_predict in E. inv_bind E. exists m, times, x0, x. auto.
  - injection H as _ H. inv_bind H. inv_bind E. unfold engine_predict in E. inv_bind E. exists x0, times, x1, x. auto.
Qed.

(** a fitted trend of the usual kinds gives well-formed values *)
Definition trend_ok (t : trend) : Prop :=
  forall X times td e v, trend_transform ns_of t X times = Ok td -> yields e (trend_predict t td) v -> arr_wf v.

Lemma flat_ok t : flat_trend t -> trend_ok t.
Proof.
  destruct t as [|ps b loc|]; intros []. intros X times td e v H Y. cbn [trend_transform] in H. inv_bind H. injection H as <-.
  destruct loc as [loc|]; [|inversion Y]. cbn [trend_predict] in Y. now apply flat_value in Y.
Qed.

Lemma piecewise_value t0 X y s t : trend_fit ns_of order t0 X y s = (t, None) -> scalar_piecewise t -> (f_levels y <> 0 -> f_rows y <> []) ->
  exists sq, forall X times td e v, trend_transform ns_of t X times = Ok td -> yields e (trend_predict t td) v ->
    arr_wf v /\ a_shape v = trend_shape (n_series_of y) (List.length (match f_levels y with 0 => times | _ => times_unique times end)) sq.
Proof.
  intros HF SP NE. destruct (CompleteFacts.fitted_trend ns_of order _ _ _ _ _ HF SP) as (pp & cap & b & f & iv & rg & E & PF & PI & PR). subst t.
  exists (pw_squeeze pp). intros X1 times td e v HT Y. cbn [trend_transform] in HT. inv_bind HT. cbn [attr bind] in HT. injection HT as <-. cbn [trend_predict] in Y.
  destruct (trend_value _ _ _ _ _ _ _ _ _ _ PF PI PR NE Y). auto.
Qed.

Lemma univariate_trend_ok c ob y X ob' f : fit_forecaster c ob y X = (ob', Ok f) -> c_hier c = false -> f_levels y = 0 ->
  scalar_piecewise (o_trend ob') \/ flat_trend (o_trend ob') -> trend_ok (o_trend ob').
Proof.
  intros H Hc L [SP|FT]; [|now apply flat_ok]. apply fit_forecaster_inv in H. destruct H as (s & ys & p & m & post & _ & HY & HF & _ & _).
  unfold fit_data in HF. rewrite Hc in HF. apply univariate_fit_inv in HF. destruct HF as (t0 & t & yt & X1 & Xe & td & data & _ & HD & HT & _ & _ & <- & _).
  assert (LY : f_levels yt = 0).
  { apply scale_y_index in HY. destruct (discrete c); [|injection HD as <-; now rewrite <- L].
    unfold divide_target in HD. destruct s; injection HD as <- || discriminate; cbn [map_vals f_levels]; now rewrite <- L. }
  destruct (piecewise_value _ _ _ _ _ HT SP ltac:(congruence)) as (sq & V). intros X2 times td2 e v H1 H2. eapply V; eassumption.
Qed.

Lemma hierarchical_trend_shape c ob y X ob' f : fit_forecaster c ob y X = (ob', Ok f) -> c_hier c = true ->
  f_levels y <> 0 -> frame_wf y -> (forall r, In r (f_rows y) -> ~ In "__total" (r_path r)) -> scalar_piecewise (o_trend ob') ->
  exists sq, forall X times td e v, trend_transform ns_of (o_trend ob') X times = Ok td -> yields e (trend_predict (o_trend ob') td) v ->
    arr_wf v /\ a_shape v = trend_shape (List.length (series_ids y)) (List.length (times_unique times)) sq.
Proof.
  intros H Hc L W NT SP. apply fit_forecaster_inv in H. destruct H as (s & ys & p & m & post & _ & HY & HF & _ & _).
  pose proof (CompleteFacts.scale_y_wf _ _ _ _ W HY) as WS. apply scale_y_index in HY. destruct HY as [IY LY].
  assert (RP : map r_path (f_rows ys) = map r_path (f_rows y)).
  { unfold index_of in IY. apply (f_equal (map fst)) in IY. rewrite !map_map in IY. exact IY. }
  assert (NTS : forall r, In r (f_rows ys) -> ~ In "__total" (r_path r)).
  { intros r Hr. assert (I : In (r_path r) (map r_path (f_rows y))) by (rewrite <- RP; now apply in_map). apply in_map_iff in I as (r' & <- & I). now apply NT. }
  destruct (hierarchical_setup _ _ _ _ _ _ _ _ _ _ _ _ HF Hc ltac:(congruence) WS NTS) as (tensor & X2 & t0 & td & data & _ & HT & _ & _ & RY & _).
  pose proof (sort_index_rows ys RY) as RS.
  destruct (piecewise_value _ _ _ _ _ HT SP (fun _ => RS)) as (sq & V). exists sq. intros X3 times td3 e v H1 H2. destruct (V _ _ _ _ _ H1 H2) as [V1 V2].
  split; [exact V1|]. rewrite V2. unfold n_series_of. change (f_levels (sort_index ys)) with (f_levels ys). rewrite LY.
  destruct (f_levels y) as [|k]; [congruence|]. rewrite sort_index_ids. unfold series_ids. now rewrite RP.
Qed.

Lemma hierarchical_index c ob y X ob' f : fit_forecaster c ob y X = (ob', Ok f) -> c_hier c = true ->
  f_levels y <> 0 -> frame_wf y -> (forall r, In r (f_rows y) -> ~ In "__total" (r_path r)) ->
  p_single (ft_prepared f) = Nat.eqb (List.length (series_ids y)) 1 /\ f_rows y <> [] /\
  forall y2, f_levels y2 = f_levels y -> List.length (index_series (labeller_of c f y2)) = List.length (series_ids y).
Proof.
  intros H Hc L W NT. apply fit_forecaster_inv in H. destruct H as (s & ys & p & m & post & _ & HY & HF & _ & ->).
  pose proof (CompleteFacts.scale_y_wf _ _ _ _ W HY) as WS. apply scale_y_index in HY. destruct HY as [IY LY].
  assert (RP : map r_path (f_rows ys) = map r_path (f_rows y)).
  { unfold index_of in IY. apply (f_equal (map fst)) in IY. rewrite !map_map in IY. exact IY. }
  assert (NTS : forall r, In r (f_rows ys) -> ~ In "__total" (r_path r)).
  { intros r Hr. assert (I : In (r_path r) (map r_path (f_rows y))) by (rewrite <- RP; now apply in_map). apply in_map_iff in I as (r' & <- & I). now apply NT. }
  assert (LS : f_levels ys <> 0) by congruence. assert (ES : series_ids ys = series_ids y) by (unfold series_ids; now rewrite RP).
  destruct (hierarchical_setup _ _ _ _ _ _ _ _ _ _ _ _ HF Hc LS WS NTS) as (tensor & X2 & t0 & td & data & _ & HT & _ & HS & RY & _).
  cbn [ft_prepared]. rewrite <- ES. split; [exact HS|]. split; [intros E; apply RY; apply map_eq_nil with (f := r_path); now rewrite RP, E|].
  intros y2 L2. rewrite <- (n_series_bottom keep ys WS LS RY NTS). unfold fit_data in HF. rewrite Hc in HF. apply hierarchical_fit_inv in HF.
  destruct HF as (yb & tens & X0 & X1 & X3 & ob1 & t1 & t & td2 & data2 & HF). destruct HF as (Hyb & _ & _ & _ & _ & _ & _ & _ & _ & _ & _ & _ & _ & HI & _).
  unfold index_series, labeller_of, n_series. cbn [lb_levels lb_index lb_hier ft_prepared]. rewrite HI, Hc, L2.
  assert (LA : f_levels (aggregate keep ys) = f_levels ys) by (unfold aggregate; destruct (f_levels ys) eqn:E1; [exact E1|reflexivity]). rewrite LA, LY. destruct (f_levels y); [congruence|reflexivity].
Qed.

Section Fitted.
Variables (c : config) (ob : objects (TS := TS)) (y : frame R) (X : option (frame R)) (ob' : objects (TS := TS)) (f : fitted (P := P)).
Hypothesis HF : fit_forecaster c ob y X = (ob', Ok f).
Hypothesis HC : clean_config c.
Hypothesis HT : trend_ok (o_trend ob').

(** components and the value of [_compute_mean_univariate] *)
Lemma c77_core y2 X2 fh f' out (u : path -> R) : forecast_all_sites c ob' f y2 X2 fh = (f', Ok out) ->
  index_series (labeller_of c f y2) <> [] ->
  (forall q, In q (index_series (labeller_of c f y2)) -> unit_of (discrete c) (ft_scale f) q (u q)) ->
  (f_levels y2 = 0 -> forall tab, ft_scale f <> STable tab) ->
  exists m Xe times' td data times, predict_model c ob' f y2 X2 fh = Ok m /\ fh_to_index y2 fh = Ok times /\
    trend_transform ns_of (o_trend ob') Xe times' = Ok td /\
    m = model_call c (ft_scale f) (ft_prepared f) (o_trend ob') td None (Some data) /\
    exists means, Forall2 (fun e mu =>
        (exists o tr tr1, run e [] m = Ok (o, tr) /\
           run e [] (compute_mean (trend_predict (o_trend ob') td) (Some data) (Some (effect_fns (p_effects (ft_prepared f))))) = Ok (mu, tr1)) /\
        arr_wf mu /\ prod_shape (a_shape mu) = List.length (index_series (labeller_of c f y2)) * List.length times)
      (draws (engine_of c) (ft_posterior f) m) means /\
    (forall r, In r (f_rows out) -> exists i j, nth_error (index_series (labeller_of c f y2)) i = Some (r_path r) /\ nth_error times j = Some (r_time r) /\
      adds_up out r (names f) (u (r_path r) * Rmean (map (fun mu => entry mu (i * List.length times + j)) means))) /\
    (forall q t, In q (index_series (labeller_of c f y2)) -> In t times -> exists r, In r (f_rows out) /\ r_path r = q /\ r_time r = t).
Proof.
  intros HO NE HU HS. destruct (forecaster_clean _ _ _ _ _ _ _ _ _ _ _ _ _ HF HC) as (C1 & C2 & HX).
  destruct (forecast_sites_inv _ _ _ _ _ _ _ _ HO) as (m & times & traces & ds & HM & HI & HR & HK & HA).
  destruct (predict_inv _ _ _ _ _ _ _ _ _ _ HM HX) as (Xe & td & times' & data & _ & HTr & Em).
  exists m, Xe, times', td, data, times. split; [exact HM|]. split; [exact HI|]. split; [exact HTr|]. split; [exact Em|].
  set (p := p_effects (ft_prepared f)) in *. set (trend := trend_predict (o_trend ob') td).
  assert (NT : ~ In "trend" (map fst p)).
  { intros I. apply in_map_iff in I as ([n ef] & En & I). destruct (C2 _ _ I) as [[_ FN] _]. apply FN. cbn [fst] in En. subst n. apply in_app_iff. left. unfold reserved. simpl. auto. }
  assert (MS : (exists k, m = pbind (compute_mean trend (Some data) (Some (effect_fns p))) k) \/ forall e, run e [] m = Err KeyError).
  { subst m. unfold model_call. destruct (c_hier c) eqn:Hc; [left; eexists; reflexivity|]. rewrite (HX eq_refl).
    destruct (String.eqb (c_likelihood c) "normal"); [left; eexists; reflexivity|]. destruct (String.eqb (c_likelihood c) "gamma"); [left; eexists; reflexivity|].
    destruct (String.eqb (c_likelihood c) "negbinomial"); [left; eexists; reflexivity|]. right. reflexivity. }
  assert (RUN : forall e, In e (draws (engine_of c) (ft_posterior f) m) -> exists o tr, run e [] m = Ok (o, tr)).
  { intros e He. apply BaseFacts.mapM_ok in HR. apply Forall2_In_both in HR. destruct HR as [HR _]. destruct (HR e He) as ([o tr] & _ & E). eauto. }
  destruct MS as [(k & Ek)|MS].
  2:{ exfalso. destruct (draws (engine_of c) (ft_posterior f) m) as [|e l].
      - cbn in HR. injection HR as <-. discriminate.
      - destruct (RUN e (or_introl eq_refl)) as (o & tr & E). rewrite MS in E. discriminate. }
  rewrite Ek in HR. 
  destruct (components_total trend data p k C1 NT (fun e t Y => HT _ _ _ e t HTr Y)) with (lat := latent_of (ft_posterior f)) (envs := draws (engine_of c) (ft_posterior f) m)
    (traces := traces) (ds := ds) (lb := labeller_of c f y2) (times := times) (out := out) (u := u) as (means & H1 & H2); auto.
  { intros e o Y. rewrite <- Ek in *. rewrite Em in *. eapply model_sites; eauto. }
  { rewrite <- Ek in HR |- *. exact HR. }
  exists means. split; [|exact H2]. clear H2. rewrite <- Ek in HR.
  assert (RUN2 : Forall (fun e => exists o tr, run e [] m = Ok (o, tr)) (draws (engine_of c) (ft_posterior f) m)) by (apply Forall_forall; exact RUN).
  clear RUN HR. induction H1 as [|e mu l1 l2 [Y W] F IH]; [constructor|]. inversion RUN2 as [|? ? R1 R2]. subst. constructor; [|now apply IH].
  split; [|exact W]. destruct R1 as (o & tr & R). exists o, tr. rewrite Ek in R. pose proof R as R0. rewrite run_bind in R.
  destruct (run e [] (compute_mean _ _ _)) as [[mu' tr1]|] eqn:E; [|discriminate].
  assert (mu' = mu). { apply run_eval in E as (l & E & _). eapply yields_det; [apply eval_yields; eauto|exact Y]. } subst mu'. exists tr1. rewrite Ek. auto.
Qed.

Lemma expected_of tr d k v : obs_distr tr d ->
  match d with DNormal loc _ => v = entry loc k | DGamma a r => v = gamma_mean (entry a k) (entry r k) | DNegBinomial2 a b => v = nb2_mean (entry a k) (entry b k) | _ => False end ->
  expected tr k v.
Proof. intros (x & b & H) E. exists d, x, b. auto. Qed.

(** the univariate forecaster, for a likelihood whose mean is [g] of the location *)
Lemma c77_univariate (g : R -> R) (u : R) (good : env -> Prop) : c_hier c = false ->
  unit_of (discrete c) (ft_scale f) [] u -> (forall tab, ft_scale f <> STable tab) ->
  (forall td data e mu o tr tr1, good e ->
     run e [] (model_call c (ft_scale f) (ft_prepared f) (o_trend ob') td None (Some data)) = Ok (o, tr) ->
     run e [] (compute_mean (trend_predict (o_trend ob') td) (Some data) (Some (effect_fns (p_effects (ft_prepared f))))) = Ok (mu, tr1) ->
     forall k, k < List.length (a_flat mu) -> expected tr k (g (entry mu k))) ->
  forall y2 X2 fh f' out, f_levels y2 = 0 -> forecast_all_sites c ob' f y2 X2 fh = (f', Ok out) ->
  (forall m e, predict_model c ob' f y2 X2 fh = Ok m -> In e (draws (engine_of c) (ft_posterior f) m) -> good e) ->
  exists m times locs, predict_model c ob' f y2 X2 fh = Ok m /\ fh_to_index y2 fh = Ok times /\
    Forall2 (fun e (loc : nat -> R) => exists o tr, run e [] m = Ok (o, tr) /\ forall k, k < List.length times -> expected tr k (g (loc k)))
      (draws (engine_of c) (ft_posterior f) m) locs /\
    (forall r, In r (f_rows out) -> exists j, nth_error times j = Some (r_time r) /\
      adds_up out r (names f) (u * Rmean (map (fun loc => loc j) locs))) /\
    (forall t, In t times -> exists r, In r (f_rows out) /\ r_time r = t).
Proof.
  intros Hc HU HS HG y2 X2 fh f' out L2 HO GOOD.
  assert (IS : index_series (labeller_of c f y2) = [[]]) by (unfold index_series, labeller_of; cbn [lb_levels]; now rewrite L2).
  destruct (c77_core y2 X2 fh f' out (fun _ => u) HO) as (m & Xe & times' & td & data & times & HM & HI & _ & Em & means & H1 & H2 & H3).
  { rewrite IS. discriminate. } { intros q. rewrite IS. intros [<-|[]]. exact HU. } { intros _. exact HS. }
  rewrite IS in *. exists m, times, (map (fun mu k => entry mu k) means). split; [exact HM|]. split; [exact HI|]. split; [|split].
  - specialize (GOOD m). assert (GD : Forall good (draws (engine_of c) (ft_posterior f) m)) by (apply Forall_forall; intros; now apply GOOD). clear -H1 GD HG Em.
    induction H1 as [|e mu l1 l2 [(o & tr & tr1 & R1 & R2) [W S]] F IH]; simpl; [constructor|]. inversion GD. subst. constructor; [|auto].
    exists o, tr. split; [exact R1|]. intros k Hk. eapply HG; eauto. unfold arr_wf in W. rewrite W, S. simpl. lia.
  - intros r Hr. destruct (H2 r Hr) as (i & j & Ei & Ej & A). destruct i as [|[|i]]; try discriminate. exists j. split; [exact Ej|].
    rewrite map_map. exact A.
  - intros t Ht. destruct (H3 [] t (or_introl eq_refl) Ht) as (r & Hr & _ & Et). eauto.
Qed.

(** the hierarchical forecaster with several series and a piecewise trend *)
Lemma c77_hierarchical (u : path -> R) : c_hier c = true -> f_levels y <> 0 -> frame_wf y ->
  (forall r, In r (f_rows y) -> ~ In "__total" (r_path r)) -> scalar_piecewise (o_trend ob') -> List.length (series_ids y) <> 1 ->
  forall y2 X2 fh f' out, f_levels y2 = f_levels y -> forecast_all_sites c ob' f y2 X2 fh = (f', Ok out) ->
  (forall q, In q (index_series (labeller_of c f y2)) -> scale_of (ft_scale f) q = Some (u q)) ->
  exists m times (locs : list (nat -> nat -> R)), predict_model c ob' f y2 X2 fh = Ok m /\ fh_to_index y2 fh = Ok times /\
    Forall2 (fun e loc => exists o tr, run e [] m = Ok (o, tr) /\
        forall i j, i < List.length (index_series (labeller_of c f y2)) -> j < List.length times -> expected_at tr i j (loc i j))
      (draws (engine_of c) (ft_posterior f) m) locs /\
    (forall r, In r (f_rows out) -> exists i j, nth_error (index_series (labeller_of c f y2)) i = Some (r_path r) /\ nth_error times j = Some (r_time r) /\
      adds_up out r (names f) (u (r_path r) * Rmean (map (fun loc => loc i j) locs))) /\
    (forall q t, In q (index_series (labeller_of c f y2)) -> In t times -> exists r, In r (f_rows out) /\ r_path r = q /\ r_time r = t).
Proof.
  intros Hc L W NT SP N1 y2 X2 fh f' out L2 HO HU.
  destruct (hierarchical_index _ _ _ _ _ _ HF Hc L W NT) as (HS & RY & HN). specialize (HN y2 L2).
  assert (NP : List.length (series_ids y) <> 0).
  { destruct (f_rows y) as [|r l] eqn:Ey; [congruence|]. assert (I : In (r_path r) (series_ids y)) by (unfold series_ids; rewrite paths_unique_In, Ey; simpl; auto).
    destruct (series_ids y); [contradiction|simpl; lia]. }
  destruct (hierarchical_trend_shape _ _ _ _ _ _ HF Hc L W NT SP) as (sq & HV).
  assert (HD : discrete c = false) by (unfold discrete; now rewrite Hc).
  destruct (c77_core y2 X2 fh f' out u HO) as (m & Xe & times' & td & data & times & HM & HI & HTr & Em & means & H1 & H2 & H3).
  { intros E. rewrite E in HN. simpl in HN. congruence. } { intros q Hq. rewrite HD. now apply HU. } { congruence. }
  exists m, times, (map (fun mu i j => entry mu (i * List.length times + j)) means). split; [exact HM|]. split; [exact HI|]. split; [|split; [|exact H3]].
  - clear H2 H3. rewrite HN in *. set (n := List.length (series_ids y)) in *.
    induction H1 as [|e mu l1 l2 [(o & tr & tr1 & R1 & R2) [WM S]] F IH]; simpl; [constructor|]. constructor; [|exact IH].
    exists o, tr. split; [exact R1|]. intros i j Hi Hj.
    assert (SM : a_shape mu = [n; List.length times; 1]).
    { destruct (mean_shape _ _ _ _ _ _ _ R2) as (t & Yt & Sh). destruct (HV _ _ _ _ _ HTr Yt) as [Wt St]. destruct (Sh Wt) as [Sm _].
      rewrite St in Sm. unfold trend_shape in Sm. replace (Nat.eqb n 1) with false in Sm by (symmetry; now apply Nat.eqb_neq). cbn [andb] in Sm.
      rewrite Sm in S |- *. unfold prod_shape in S. simpl in S. do 2 f_equal. nia. }
    rewrite Em in R1. unfold model_call in R1. rewrite Hc, HS in R1. replace (Nat.eqb n 1) with false in R1 by (symmetry; now apply Nat.eqb_neq).
    destruct (multi_obs _ _ _ _ _ _ _ _ _ _ R1) as (mu' & tr1' & R2' & O). rewrite R2 in R2'. injection R2' as <- _.
    destruct (O n (List.length times) SM) as (loc & tril & (x & b & G) & _ & EL & _). exists loc, tril, x, b. split; [exact G|].
    rewrite (EL i j Hi Hj). unfold aget. rewrite SM. unfold entry. f_equal. simpl. lia.
  - intros r Hr. destruct (H2 r Hr) as (i & j & Ei & Ej & A). exists i, j. split; [exact Ei|]. split; [exact Ej|]. rewrite map_map. exact A.
Qed.

(** the hierarchical forecaster with one series *)
Lemma c77_single (u : R) q0 : c_hier c = true -> p_single (ft_prepared f) = true ->
  forall y2 X2 fh f' out, index_series (labeller_of c f y2) = [q0] -> (f_levels y2 = 0 -> forall tab, ft_scale f <> STable tab) ->
  forecast_all_sites c ob' f y2 X2 fh = (f', Ok out) -> scale_of (ft_scale f) q0 = Some u ->
  exists m times (locs : list (nat -> R)), predict_model c ob' f y2 X2 fh = Ok m /\ fh_to_index y2 fh = Ok times /\
    Forall2 (fun e (loc : nat -> R) => exists o tr, run e [] m = Ok (o, tr) /\ forall k, k < List.length times -> expected tr k (loc k))
      (draws (engine_of c) (ft_posterior f) m) locs /\
    (forall r, In r (f_rows out) -> exists j, nth_error times j = Some (r_time r) /\
      adds_up out r (names f) (u * Rmean (map (fun loc => loc j) locs))) /\
    (forall t, In t times -> exists r, In r (f_rows out) /\ r_time r = t).
Proof.
  intros Hc HS y2 X2 fh f' out IS HST HO HU. assert (HD : discrete c = false) by (unfold discrete; now rewrite Hc).
  destruct (c77_core y2 X2 fh f' out (fun _ => u) HO) as (m & Xe & times' & td & data & times & HM & HI & _ & Em & means & H1 & H2 & H3).
  { rewrite IS. discriminate. } { intros q. rewrite IS, HD. intros [<-|[]]. exact HU. } { exact HST. }
  rewrite IS in *. exists m, times, (map (fun mu k => entry mu k) means). split; [exact HM|]. split; [exact HI|]. split; [|split].
  - clear H2 H3. induction H1 as [|e mu l1 l2 [(o & tr & tr1 & R1 & R2) [W S]] F IH]; simpl; [constructor|]. constructor; [|exact IH].
    exists o, tr. split; [exact R1|]. intros k Hk. rewrite Em in R1. unfold model_call in R1. rewrite Hc, HS in R1.
    unfold multivariate_model in R1. rewrite run_bind, R2 in R1. cbn [bind pbind] in R1.
    unfold sample, plate, observe in R1. cbn [pbind run] in R1.
    destruct (record tr1 "std_observation" _) as [t3|]; cbn [bind] in R1; [|discriminate].
    destruct (record t3 "time" _) as [t4|]; cbn [bind] in R1; [|discriminate].
    destruct (record t4 "obs" _) as [t5|] eqn:E5; cbn [bind] in R1; [|discriminate]. injection R1 as _ <-.
    apply record_get in E5. eapply expected_of; [eexists _, _; exact E5|]. reflexivity.
  - intros r Hr. destruct (H2 r Hr) as (i & j & Ei & Ej & A). destruct i as [|[|i]]; try discriminate. exists j. split; [exact Ej|].
    rewrite map_map. exact A.
  - intros t Ht. destruct (H3 q0 t (or_introl eq_refl) Ht) as (r & Hr & _ & Et). eauto.
Qed.
End Fitted.

(** * The three likelihoods *)
Section Likelihoods.
Variables (c : config) (ob : objects (TS := TS)) (y : frame R) (X : option (frame R)) (ob' : objects (TS := TS)) (f : fitted (P := P)) (u : R).
Hypothesis HF : fit_forecaster c ob y X = (ob', Ok f).
Hypothesis HC : clean_config c.
Hypothesis Hc : c_hier c = false.
Hypothesis HL : f_levels y = 0.
Hypothesis HT : scalar_piecewise (o_trend ob') \/ flat_trend (o_trend ob').

Lemma has_exogenous_uni : p_has_exogenous (ft_prepared f) = true.
Proof. destruct (forecaster_clean _ _ _ _ _ _ _ _ _ _ _ _ _ HF HC) as (_ & _ & HX). auto. Qed.

Lemma c77_normal : c_likelihood c = "normal" -> ft_scale f = SFloat u ->
  forall y2 X2 fh f' out, f_levels y2 = 0 -> forecast_all_sites c ob' f y2 X2 fh = (f', Ok out) ->
  exists m times locs, predict_model c ob' f y2 X2 fh = Ok m /\ fh_to_index y2 fh = Ok times /\
    Forall2 (fun e (loc : nat -> R) => exists o tr, run e [] m = Ok (o, tr) /\ forall k, k < List.length times -> expected tr k (loc k))
      (draws (engine_of c) (ft_posterior f) m) locs /\
    (forall r, In r (f_rows out) -> exists j, nth_error times j = Some (r_time r) /\
      adds_up out r (names f) (u * Rmean (map (fun loc => loc j) locs))) /\
    (forall t, In t times -> exists r, In r (f_rows out) /\ r_time r = t).
Proof.
  intros HK HS y2 X2 fh f' out L2 HO.
  assert (HD : discrete c = false) by (unfold discrete; now rewrite Hc, HK).
  eapply (c77_univariate c ob y X ob' f HF HC (univariate_trend_ok _ _ _ _ _ _ HF Hc HL HT) (fun x => x) u (fun _ => True)); eauto.
  - rewrite HD, HS. reflexivity.
  - rewrite HS. discriminate.
  - intros td data e mu o tr tr1 _ R1 R2 k Hk. unfold model_call in R1. rewrite Hc, HK, has_exogenous_uni in R1. cbn [String.eqb] in R1.
    apply normal_obs in R1. destruct R1 as (mu' & tr1' & R2' & O). rewrite R2 in R2'. injection R2' as <- _.
    eapply expected_of; [exact O|]. reflexivity.
Qed.

Lemma c77_gamma : c_likelihood c = "gamma" -> ft_scale f = SFloat u ->
  forall y2 X2 fh f' out, f_levels y2 = 0 -> forecast_all_sites c ob' f y2 X2 fh = (f', Ok out) ->
  (forall m e, predict_model c ob' f y2 X2 fh = Ok m -> In e (draws (engine_of c) (ft_posterior f) m) -> (0 < e "noise_scale" 0%nat)%R) ->
  exists m times locs, predict_model c ob' f y2 X2 fh = Ok m /\ fh_to_index y2 fh = Ok times /\
    Forall2 (fun e (loc : nat -> R) => exists o tr, run e [] m = Ok (o, tr) /\
        forall k, k < List.length times -> expected tr k (to_positive1 (/ 100000) (/ 10000000000) (loc k)))
      (draws (engine_of c) (ft_posterior f) m) locs /\
    (forall r, In r (f_rows out) -> exists j, nth_error times j = Some (r_time r) /\
      adds_up out r (names f) (u * Rmean (map (fun loc => loc j) locs))) /\
    (forall t, In t times -> exists r, In r (f_rows out) /\ r_time r = t).
Proof.
  intros HK HS y2 X2 fh f' out L2 HO GOOD.
  assert (HD : discrete c = false) by (unfold discrete; now rewrite Hc, HK).
  eapply (c77_univariate c ob y X ob' f HF HC (univariate_trend_ok _ _ _ _ _ _ HF Hc HL HT) (to_positive1 (/ 100000) (/ 10000000000)) u (fun e => (0 < e "noise_scale" 0%nat)%R)); eauto.
  - rewrite HD, HS. reflexivity.
  - rewrite HS. discriminate.
  - intros td data e mu o tr tr1 G R1 R2 k Hk. unfold model_call in R1. rewrite Hc, HK, has_exogenous_uni in R1. cbn [String.eqb] in R1.
    apply gamma_obs in R1. destruct R1 as (mu' & tr1' & R2' & O). rewrite R2 in R2'. injection R2' as <- _.
    eapply expected_of; [exact O|]. unfold gamma_reparametrized. cbn iota beta.
    rewrite !entry_map by (simpl; now rewrite map_length).
    replace (entry (reshape_col (to_positive mu)) k) with (to_positive1 (/ 100000) (/ 10000000000) (entry mu k)) by (symmetry; exact (entry_map _ mu k Hk)).
    pose proof (to_positive1_bound (entry mu k)). symmetry. apply gamma_moments; [|assumption]. assert (0 < / 10000000000)%R by lra. lra.
Qed.

Lemma c77_negbinomial : c_likelihood c = "negbinomial" -> ft_scale f = SFloat u ->
  forall y2 X2 fh f' out, f_levels y2 = 0 -> forecast_all_sites c ob' f y2 X2 fh = (f', Ok out) ->
  exists m times locs, predict_model c ob' f y2 X2 fh = Ok m /\ fh_to_index y2 fh = Ok times /\
    Forall2 (fun e (loc : nat -> R) => exists o tr, run e [] m = Ok (o, tr) /\
        forall k, k < List.length times -> expected tr k (u * to_positive1 (/ 100000) (/ 10000000000) (loc k)))
      (draws (engine_of c) (ft_posterior f) m) locs /\
    (forall r, In r (f_rows out) -> exists j, nth_error times j = Some (r_time r) /\
      adds_up out r (names f) (Rmean (map (fun loc => loc j) locs))) /\
    (forall t, In t times -> exists r, In r (f_rows out) /\ r_time r = t).
Proof.
  intros HK HS y2 X2 fh f' out L2 HO.
  assert (HD : discrete c = true) by (unfold discrete; now rewrite Hc, HK).
  destruct (c77_univariate c ob y X ob' f HF HC (univariate_trend_ok _ _ _ _ _ _ HF Hc HL HT) (fun x => u * to_positive1 (/ 100000) (/ 10000000000) x)%R 1 (fun e => True)) 
    with (y2 := y2) (X2 := X2) (fh := fh) (f' := f') (out := out) as (m & times & locs & H1 & H2 & H3 & H4 & H5); auto.
  - rewrite HD. reflexivity.
  - rewrite HS. discriminate.
  - intros td data e mu o tr tr1 G R1 R2 k Hk. unfold model_call in R1. rewrite Hc, HK, has_exogenous_uni, HS in R1. cbn [String.eqb scale_number] in R1.
    apply negbinomial_obs in R1. destruct R1 as (mu' & tr1' & R2' & O). rewrite R2 in R2'. injection R2' as <- _.
    eapply expected_of; [exact O|]. unfold nb2_mean.
    change (entry (reshape_col (arr_map (fun x => (x * u)%R) (to_positive mu))) k) with (entry (arr_map (fun x => (x * u)%R) (to_positive mu)) k).
    rewrite entry_map by (simpl; now rewrite map_length). unfold to_positive. rewrite entry_map by assumption. ring.
  - exists m, times, locs. repeat (split; auto). intros r Hr. destruct (H4 r Hr) as (j & Ej & A). exists j. split; [exact Ej|]. now rewrite Rmult_1_l in A.
Qed.

(** in terms of expected observations, when these are not tiny *)
Lemma c77_gamma_expected : c_likelihood c = "gamma" -> ft_scale f = SFloat u ->
  forall y2 X2 fh f' out, f_levels y2 = 0 -> forecast_all_sites c ob' f y2 X2 fh = (f', Ok out) ->
  (forall m times e o tr, predict_model c ob' f y2 X2 fh = Ok m -> fh_to_index y2 fh = Ok times ->
     In e (draws (engine_of c) (ft_posterior f) m) -> run e [] m = Ok (o, tr) ->
     (0 < e "noise_scale" 0%nat)%R /\ forall k v, k < List.length times -> expected tr k v -> (/ 100000 <= v)%R) ->
  exists m times exps, predict_model c ob' f y2 X2 fh = Ok m /\ fh_to_index y2 fh = Ok times /\
    Forall2 (fun e (ex : nat -> R) => exists o tr, run e [] m = Ok (o, tr) /\ forall k, k < List.length times -> expected tr k (ex k))
      (draws (engine_of c) (ft_posterior f) m) exps /\
    (forall r, In r (f_rows out) -> exists j, nth_error times j = Some (r_time r) /\
      adds_up out r (names f) (u * Rmean (map (fun ex => ex j) exps))) /\
    (forall t, In t times -> exists r, In r (f_rows out) /\ r_time r = t).
Proof.
  intros HK HS y2 X2 fh f' out L2 HO POS.
  destruct (c77_gamma HK HS y2 X2 fh f' out L2 HO) as (m & times & locs & H1 & H2 & H3 & H4 & H5).
  { intros m e HM He. destruct (forecast_sites_inv _ _ _ _ _ _ _ _ HO) as (m' & times & traces & ds & HM' & HI' & HR & _). rewrite HM in HM'. injection HM' as <-.
    apply BaseFacts.mapM_ok in HR. apply Forall2_In_both in HR. destruct HR as [HR _]. destruct (HR e He) as ([o tr] & _ & E). apply (POS m times e o tr HM HI' He E). }
  exists m, times, locs. split; [exact H1|]. split; [exact H2|]. split; [|auto].
  refine (Forall2_weaken _ _ _ _ H3 _). intros e loc He (o & tr & R & EX). exists o, tr. split; [exact R|]. intros k Hk. specialize (EX k Hk).
  destruct (POS m times e o tr H1 H2 He R) as [_ Q]. specialize (Q _ _ Hk EX). rewrite to_positive1_id in EX; [exact EX|]. now apply to_positive1_large.
Qed.

Lemma c77_counts_expected : c_likelihood c = "negbinomial" -> ft_scale f = SFloat u -> (0 < u)%R ->
  forall y2 X2 fh f' out, f_levels y2 = 0 -> forecast_all_sites c ob' f y2 X2 fh = (f', Ok out) ->
  (forall m times e o tr, predict_model c ob' f y2 X2 fh = Ok m -> fh_to_index y2 fh = Ok times ->
     In e (draws (engine_of c) (ft_posterior f) m) -> run e [] m = Ok (o, tr) ->
     forall k v, k < List.length times -> expected tr k v -> (u / 100000 <= v)%R) ->
  exists m times exps, predict_model c ob' f y2 X2 fh = Ok m /\ fh_to_index y2 fh = Ok times /\ exps <> [] /\
    Forall2 (fun e (ex : nat -> R) => exists o tr, run e [] m = Ok (o, tr) /\ forall k, k < List.length times -> expected tr k (ex k) /\ (0 < ex k)%R)
      (draws (engine_of c) (ft_posterior f) m) exps /\
    (forall r, In r (f_rows out) -> exists j, nth_error times j = Some (r_time r) /\
      adds_up out r (names f) (Rmean (map (fun ex => ex j) exps) / u)) /\
    (forall t, In t times -> exists r, In r (f_rows out) /\ r_time r = t).
Proof.
  intros HK HS U y2 X2 fh f' out L2 HO POS.
  destruct (c77_negbinomial HK HS y2 X2 fh f' out L2 HO) as (m & times & locs & H1 & H2 & H3 & H4 & H5).
  exists m, times, (map (fun loc k => u * loc k)%R locs). split; [exact H1|]. split; [exact H2|]. split.
  { destruct (forecast_sites_inv _ _ _ _ _ _ _ _ HO) as (m' & times2 & traces & ds & HM' & _ & HR & HK2 & _). rewrite H1 in HM'. injection HM' as <-.
    apply mapM_length in HR. apply Forall2_len in H3. destruct locs; [|discriminate]. destruct traces; [discriminate|]. simpl in *. congruence. }
  split.
  { assert (F := Forall2_weaken _ (fun e loc => exists o tr, run e [] m = Ok (o, tr) /\ forall k, k < List.length times -> expected tr k (u * loc k) /\ (0 < u * loc k)%R) _ _ H3).
    match type of F with ?A -> _ => assert (G : A) end.
    - intros e loc He (o & tr & R & EX). exists o, tr. split; [exact R|]. intros k Hk. specialize (EX k Hk).
      pose proof (POS m times e o tr H1 H2 He R _ _ Hk EX) as Q. assert (Q2 : (/ 100000 <= to_positive1 (/ 100000) (/ 10000000000) (loc k))%R).
      { apply (Rmult_le_reg_l u); [exact U|]. unfold Rdiv in Q. exact Q. }
      rewrite to_positive1_id in EX by now apply to_positive1_large. split; [exact EX|].
      apply to_positive1_large in Q2. apply Rmult_lt_0_compat; lra.
    - specialize (F G). clear -F. induction F; simpl; constructor; auto. }
  split; [|exact H5]. intros r Hr. destruct (H4 r Hr) as (j & Ej & A). exists j. split; [exact Ej|].
  rewrite map_map. assert (E : (Rmean (map (fun x : nat -> R => u * x j) locs) / u)%R = Rmean (map (fun loc => loc j) locs)).
  { unfold Rmean. rewrite !map_length. assert (E : Rsum (map (fun x : nat -> R => u * x j)%R locs) = (u * Rsum (map (fun loc => loc j) locs))%R).
    { clear. induction locs as [|x l IH]; simpl; [lra|]. rewrite IH. lra. }
    rewrite E. unfold Rdiv. rewrite (Rmult_comm _ (/ u)), <- !Rmult_assoc, Rinv_l by lra. lra. }
  rewrite E. exact A.
Qed.

Lemma Rmean_pos l : l <> [] -> (forall x, In x l -> 0 < x)%R -> (0 < Rmean l)%R.
Proof.
  intros N H. unfold Rmean. assert (G : forall l : list R, (forall x, In x l -> 0 < x)%R -> (0 <= Rsum l)%R).
  { clear. induction l as [|x l IH]; intros H; simpl; [lra|]. pose proof (H x (or_introl eq_refl)). assert (0 <= Rsum l)%R by (apply IH; intros; apply H; simpl; auto). lra. }
  destruct l as [|x l]; [congruence|]. apply Rdiv_lt_0_compat.
  - simpl. pose proof (H x (or_introl eq_refl)). assert (0 <= Rsum l)%R by (apply G; intros; apply H; simpl; auto). lra.
  - apply lt_0_INR. simpl. lia.
Qed.

Lemma adds_up_det out r ns a b : adds_up out r ns a -> adds_up out r ns b -> a = b.
Proof.
  intros (va & Fa & <-) (vb & Fb & <-). f_equal. revert vb Fb. induction Fa as [|n v ns va E Fa IH]; intros vb Fb; inversion Fb; subst; [reflexivity|].
  f_equal; [congruence|now apply IH].
Qed.

Lemma expected_det tr k a b : expected tr k a -> expected tr k b -> a = b.
Proof. intros (d & x & bb & G & E) (d' & x' & b' & G' & E'). rewrite G in G'. injection G' as <- <- <-. destruct d; try contradiction; congruence. Qed.

(** the columns of a count forecast are not in the units of the observations *)
Lemma c77_counts_refuted : c_likelihood c = "negbinomial" -> ft_scale f = SFloat u -> (0 < u)%R -> u <> 1%R ->
  forall y2 X2 fh f' out, f_levels y2 = 0 -> forecast_all_sites c ob' f y2 X2 fh = (f', Ok out) ->
  (forall m times e o tr, predict_model c ob' f y2 X2 fh = Ok m -> fh_to_index y2 fh = Ok times ->
     In e (draws (engine_of c) (ft_posterior f) m) -> run e [] m = Ok (o, tr) ->
     forall k v, k < List.length times -> expected tr k v -> (u / 100000 <= v)%R) ->
  forall m times exps, predict_model c ob' f y2 X2 fh = Ok m -> fh_to_index y2 fh = Ok times -> NoDup times ->
    Forall2 (fun e (ex : nat -> R) => exists o tr, run e [] m = Ok (o, tr) /\ forall k, k < List.length times -> expected tr k (ex k))
      (draws (engine_of c) (ft_posterior f) m) exps ->
    forall r j, In r (f_rows out) -> nth_error times j = Some (r_time r) -> ~ adds_up out r (names f) (Rmean (map (fun ex => ex j) exps)).
Proof.
  intros HK HS U U1 y2 X2 fh f' out L2 HO POS m times exps HM HI NT FE r j Hr Hj A.
  destruct (c77_counts_expected HK HS U y2 X2 fh f' out L2 HO POS) as (m' & times' & exps' & HM' & HI' & NE & FE' & H4 & _).
  rewrite HM in HM'. injection HM' as <-. rewrite HI in HI'. injection HI' as <-. destruct (H4 r Hr) as (j' & Ej' & A').
  assert (j' = j). { apply (proj1 (NoDup_nth_error times) NT); [apply nth_error_Some; congruence|congruence]. } subst j'.
  assert (Lj : j < List.length times) by (apply nth_error_Some; congruence).
  assert (E : map (fun ex => ex j) exps = map (fun ex => ex j) exps' /\ forall x, In x (map (fun ex => ex j) exps') -> (0 < x)%R).
  { clear -FE FE' Lj. revert exps FE. induction FE' as [|e ex' es exps' (o & tr & R & EX) F IH]; intros exps FE; inversion FE as [|? ex ? exps0 (o2 & tr2 & R2 & EX2) F2]; subst; simpl; [split; [reflexivity|intros ? []]|].
    rewrite R in R2. injection R2 as <- <-. destruct (IH _ F2) as [I1 I2]. rewrite I1. destruct (EX j Lj) as [EXj Pj]. split.
    - f_equal. eapply expected_det; [exact (EX2 j Lj)|exact EXj].
    - intros x [<-|Hx]; auto. }
  destruct E as [E PP]. rewrite E in A. pose proof (adds_up_det _ _ _ _ _ A A') as Q.
  assert (P0 : (0 < Rmean (map (fun ex => ex j) exps'))%R) by (apply Rmean_pos; [destruct exps'; [congruence|discriminate]|exact PP]).
  apply U1. apply (Rmult_eq_reg_l (Rmean (map (fun ex => ex j) exps'))); [|lra]. rewrite Rmult_1_r. rewrite Q at 1. field. lra.
Qed.
End Likelihoods.

(** * The hierarchical forecaster *)
Lemma hierarchical_trend_ok c ob y X ob' f : fit_forecaster c ob y X = (ob', Ok f) -> c_hier c = true ->
  f_levels y <> 0 -> frame_wf y -> (forall r, In r (f_rows y) -> ~ In "__total" (r_path r)) ->
  scalar_piecewise (o_trend ob') \/ flat_trend (o_trend ob') -> trend_ok (o_trend ob').
Proof.
  intros HF Hc L W NT [SP|FT]; [|now apply flat_ok]. destruct (hierarchical_trend_shape _ _ _ _ _ _ HF Hc L W NT SP) as (sq & HV).
  intros X2 times td e v H1 H2. eapply HV; eassumption.
Qed.

Lemma c77_panel c ob y X ob' f (u : path -> R) : fit_forecaster c ob y X = (ob', Ok f) -> clean_config c -> c_hier c = true ->
  f_levels y <> 0 -> frame_wf y -> (forall r, In r (f_rows y) -> ~ In "__total" (r_path r)) -> scalar_piecewise (o_trend ob') -> List.length (series_ids y) <> 1 ->
  forall y2 X2 fh f' out, f_levels y2 = f_levels y -> forecast_all_sites c ob' f y2 X2 fh = (f', Ok out) ->
  (forall q, In q (index_series (labeller_of c f y2)) -> scale_of (ft_scale f) q = Some (u q)) ->
  exists m times (locs : list (nat -> nat -> R)), predict_model c ob' f y2 X2 fh = Ok m /\ fh_to_index y2 fh = Ok times /\
    Forall2 (fun e loc => exists o tr, run e [] m = Ok (o, tr) /\
        forall i j, i < List.length (index_series (labeller_of c f y2)) -> j < List.length times -> expected_at tr i j (loc i j))
      (draws (engine_of c) (ft_posterior f) m) locs /\
    (forall r, In r (f_rows out) -> exists i j, nth_error (index_series (labeller_of c f y2)) i = Some (r_path r) /\ nth_error times j = Some (r_time r) /\
      adds_up out r (names f) (u (r_path r) * Rmean (map (fun loc => loc i j) locs))) /\
    (forall q t, In q (index_series (labeller_of c f y2)) -> In t times -> exists r, In r (f_rows out) /\ r_path r = q /\ r_time r = t).
Proof.
  intros HF HC Hc L W NT SP N1. apply (c77_hierarchical c ob y X ob' f HF HC (hierarchical_trend_ok _ _ _ _ _ _ HF Hc L W NT (or_introl SP)) u Hc L W NT SP N1).
Qed.

Lemma c77_one_series c ob y X ob' f u : fit_forecaster c ob y X = (ob', Ok f) -> clean_config c -> c_hier c = true ->
  f_levels y <> 0 -> frame_wf y -> (forall r, In r (f_rows y) -> ~ In "__total" (r_path r)) ->
  scalar_piecewise (o_trend ob') \/ flat_trend (o_trend ob') -> List.length (series_ids y) = 1 ->
  forall y2 X2 fh f' out, f_levels y2 = f_levels y -> forecast_all_sites c ob' f y2 X2 fh = (f', Ok out) ->
  (forall q, In q (index_series (labeller_of c f y2)) -> scale_of (ft_scale f) q = Some u) ->
  exists m times (locs : list (nat -> R)), predict_model c ob' f y2 X2 fh = Ok m /\ fh_to_index y2 fh = Ok times /\
    Forall2 (fun e (loc : nat -> R) => exists o tr, run e [] m = Ok (o, tr) /\ forall k, k < List.length times -> expected tr k (loc k))
      (draws (engine_of c) (ft_posterior f) m) locs /\
    (forall r, In r (f_rows out) -> exists j, nth_error times j = Some (r_time r) /\
      adds_up out r (names f) (u * Rmean (map (fun loc => loc j) locs))) /\
    (forall t, In t times -> exists r, In r (f_rows out) /\ r_time r = t).
Proof.
  intros HF HC Hc L W NT TR N1 y2 X2 fh f' out L2 HO HU. destruct (hierarchical_index _ _ _ _ _ _ HF Hc L W NT) as (HS & RY & HN). specialize (HN y2 L2).
  rewrite N1 in *. destruct (index_series (labeller_of c f y2)) as [|q0 [|q1 l]] eqn:IS; try discriminate.
  eapply (c77_single c ob y X ob' f HF HC (hierarchical_trend_ok _ _ _ _ _ _ HF Hc L W NT TR) u q0 Hc HS y2 X2 fh f' out IS); auto.
  - congruence.
  - apply HU. simpl. auto.
Qed.
End Forecaster.
