(** Shapes of the components of user-written effects and of the mean (C97). *)
From Coq Require Import Reals String Bool ZArith List Lia Arith.
From Verif.Model Require Import Base Num Regex Frame Arr Expand Prog Likelihood Effect Trend TrendProg Forecaster Custom.
From Verif.Spec Require Import ProgSpec CustomSpec.
From Verif.Facts Require Import BaseFacts ArrFacts ProgFacts LikelihoodFacts.
Import ListNotations.
Local Open Scope string_scope.

(** * broadcasting of equal shapes *)
Lemma broadcast_rev_same l : broadcast_rev l l = Ok l.
Proof. induction l as [|n l IH]; [reflexivity|]. cbn [broadcast_rev]. rewrite IH. cbn [bind]. now rewrite Nat.eqb_refl. Qed.
Lemma broadcast_same l : broadcast_shape l l = Ok l.
Proof. unfold broadcast_shape. rewrite broadcast_rev_same. cbn [bind]. now rewrite rev_involutive. Qed.

Lemma all_idx_bounds sh : forall idx, In idx (all_idx sh) -> Forall2 lt idx sh.
Proof.
  induction sh as [|n sh IH]; intros idx H; cbn [all_idx] in H.
  - destruct H as [<-|[]]. constructor.
  - apply in_flat_map in H. destruct H as (i & Hi & H). apply in_map_iff in H. destruct H as (idx' & <- & H). apply in_seq in Hi. constructor; [lia|auto].
Qed.
Lemma source_same sh idx : Forall2 lt idx sh -> source_index sh idx = idx.
Proof.
  intros H. unfold source_index. rewrite (Forall2_len _ _ _ H), Nat.sub_diag. cbn [skipn].
  induction H as [|i n idx sh L H IH]; [reflexivity|]. cbn [combine map fst snd]. rewrite IH. destruct (Nat.eqb_spec n 1); [|reflexivity]. f_equal. lia.
Qed.
Lemma ravel_all sh : map (ravel sh) (all_idx sh) = seq 0 (prod_shape sh).
Proof.
  induction sh as [|n sh IH]; [reflexivity|]. cbn [all_idx]. rewrite map_flat_map. change (prod_shape (n :: sh)) with (n * prod_shape sh).
  transitivity (flat_map (fun i => seq (i * prod_shape sh) (prod_shape sh)) (seq 0 n)).
  - apply flat_map_ext_in. intros i _. rewrite map_map. cbn [ravel]. rewrite <- (map_map (ravel sh) (fun j => i * prod_shape sh + j)), IH.
    clear. generalize (prod_shape sh) at 2 4 as m. intros m. generalize (i * prod_shape sh) as k. intros k.
    assert (G : forall s, map (fun j => k + j) (seq s m) = seq (k + s) m). { induction m as [|m IH]; intros s; [reflexivity|]. cbn [seq map]. f_equal. rewrite IH. f_equal. lia. }
    rewrite G. f_equal. lia.
  - clear. generalize (prod_shape sh) as m. intros m. assert (G : forall s, flat_map (fun i => seq (i * m) m) (seq s n) = seq (s * m) (n * m)).
    { induction n as [|n IH]; intros s; [reflexivity|]. cbn [seq flat_map]. rewrite IH. cbn [Nat.mul]. rewrite seq_app. f_equal. f_equal. lia. }
    rewrite G. reflexivity.
Qed.
Lemma nth_seq_all (l : list R) : map (fun k => nth k l 0%R) (seq 0 (List.length l)) = l.
Proof.
  induction l as [|x l IH]; [reflexivity|]. cbn [List.length seq map nth]. f_equal. rewrite <- seq_shift, map_map. exact IH.
Qed.
Lemma zip_nth (f : R -> R -> R) (a b : list R) n : List.length a = n -> List.length b = n ->
  map (fun k => f (nth k a 0%R) (nth k b 0%R)) (seq 0 n) = map (fun xy => f (fst xy) (snd xy)) (combine a b).
Proof.
  revert a b. induction n as [|n IH]; intros a b La Lb; destruct a as [|x a], b as [|y b]; try discriminate; [reflexivity|].
  cbn [seq map combine nth fst snd]. f_equal. rewrite <- seq_shift, map_map. cbn [nth]. apply IH; [now injection La|now injection Lb].
Qed.

Lemma broadcast_zip_same f a b : arr_wf a -> arr_wf b -> a_shape a = a_shape b -> broadcast_zip f a b = arr_zip f a b.
Proof.
  intros Wa Wb E. unfold broadcast_zip, arr_zip. destruct (list_eq_dec _ _ _) as [_|N]; [|contradiction]. rewrite <- E, broadcast_same. cbn [bind]. f_equal. unfold tabulate. f_equal.
  rewrite <- (zip_nth f _ _ (prod_shape (a_shape a)) Wa); [|rewrite E; exact Wb]. rewrite <- ravel_all, map_map. apply map_ext_in. intros idx I.
  apply all_idx_bounds in I. rewrite (source_same _ _ I). unfold aget. now rewrite <- E.
Qed.
Lemma arr_zip_same f a b : arr_wf a -> arr_wf b -> a_shape a = a_shape b -> exists c, arr_zip f a b = Ok c /\ arr_wf c /\ a_shape c = a_shape a.
Proof.
  intros Wa Wb E. unfold arr_zip. destruct (list_eq_dec _ _ _) as [_|N]; [|contradiction]. eexists. split; [reflexivity|]. split; [|reflexivity].
  unfold arr_wf in *. cbn [a_flat a_shape]. rewrite map_length, combine_length, Wa, Wb, E. apply Nat.min_id.
Qed.

(** * effects with a mode *)
Lemma predict_mode_shape m raw pe e t v : dict_get pe "trend" = Some t -> arr_wf t -> yields e (predict_mode m raw pe) v ->
  exists x, yields e raw x /\ List.length (a_flat x) = List.length (a_flat t) /\
    a_shape v = (if Nat.eqb (ndim t) 1 then [List.length (a_flat t); 1] else a_shape t) /\ arr_wf v /\
    forall k, k < List.length (a_flat t) -> entry v k = match m with Additive => entry x k | Multiplicative => (entry t k * entry x k)%R end.
Proof.
  intros T W Y. apply eval_yields in Y. destruct Y as (l & Y). unfold predict_mode in Y. rewrite eval_bind, eval_lift in Y. unfold dict_item in Y. rewrite T in Y. cbn [bind] in Y.
  set (t' := if Nat.eqb (ndim t) 1 then reshape_col t else t) in Y.
  assert (W' : arr_wf t'). { unfold t'. destruct (Nat.eqb (ndim t) 1); [|exact W]. unfold arr_wf. cbn [reshape_col a_flat a_shape prod_shape fold_right]. lia. }
  assert (Sh : a_shape t' = if Nat.eqb (ndim t) 1 then [List.length (a_flat t); 1] else a_shape t) by (unfold t'; now destruct (Nat.eqb (ndim t) 1)).
  assert (F : a_flat t' = a_flat t) by (unfold t'; now destruct (Nat.eqb (ndim t) 1)). clearbody t'.
  rewrite eval_bind in Y. destruct (eval e raw) as [[x lx]|] eqn:EX; [|discriminate Y]. cbn [bind] in Y.
  rewrite eval_bind, eval_lift in Y. unfold reshape in Y. destruct (Nat.eqb_spec (List.length (a_flat x)) (prod_shape (a_shape t'))) as [L|]; [|discriminate Y]. cbn [bind] in Y.
  exists x. split; [apply eval_yields; eauto|]. split; [rewrite L; rewrite <- F; symmetry; exact W'|]. rewrite <- Sh.
  destruct m; cbn [eval bind app] in Y.
  - injection Y as <- _. split; [reflexivity|]. split; [exact L|]. reflexivity.
  - rewrite eval_lift in Y. destruct (arr_zip_same Rmult t' (mkArr (a_shape t') (a_flat x)) W' L eq_refl) as (c & C & WC & SC). rewrite C in Y. cbn [bind] in Y. injection Y as <- _.
    split; [exact SC|]. split; [exact WC|]. intros k K. unfold arr_zip in C. destruct (list_eq_dec _ _ _) as [_|N]; [|discriminate C]. injection C as <-. unfold entry. cbn [a_flat]. rewrite F.
    rewrite <- (zip_nth Rmult (a_flat t) (a_flat x) (List.length (a_flat t)) eq_refl); [|rewrite L; rewrite <- F; symmetry; exact W'].
    rewrite (nth_indep _ 0%R (Rmult (nth 0 (a_flat t) 0%R) (nth 0 (a_flat x) 0%R))) by (now rewrite map_length, seq_length).
    rewrite (map_nth (fun k => Rmult (nth k (a_flat t) 0%R) (nth k (a_flat x) 0%R))), seq_nth by exact K. reflexivity.
Qed.

Lemma mode_keeps_shape m (raw : forall pe : dict arr, prog arr) e pe t v : dict_get pe "trend" = Some t -> regular t -> yields e (predict_mode m (raw pe) pe) v -> arr_wf v /\ a_shape v = a_shape t.
Proof.
  intros T (W & N) Y. destruct (predict_mode_shape _ _ _ _ _ _ T W Y) as (x & _ & _ & Sh & Wv & _). split; [exact Wv|]. rewrite Sh. destruct (Nat.eqb_spec (ndim t) 1); [contradiction|reflexivity].
Qed.

Section User.
Context {S D : Type}.
Notation ueffect := (user_effect S D).

Lemma user_predict_mode (u : ueffect) m d pe e t v : u_mode (ue_class u) = Some m -> dict_get pe "trend" = Some t -> arr_wf t -> yields e (user_predict u d pe) v ->
  exists cols x, b_cols (ue_base u) = Some cols /\ yields e (u_predict (ue_class u) cols (ue_state u) d pe) x /\ List.length (a_flat x) = List.length (a_flat t) /\
    a_shape v = (if Nat.eqb (ndim t) 1 then [List.length (a_flat t); 1] else a_shape t) /\ arr_wf v /\
    forall k, k < List.length (a_flat t) -> entry v k = match m with Additive => entry x k | Multiplicative => (entry t k * entry x k)%R end.
Proof.
  intros M T W Y. unfold user_predict in Y. rewrite M in Y. destruct (b_cols (ue_base u)) as [cols|]; cbn [attr lift_res pbind] in Y; [|inversion Y].
  destruct (predict_mode_shape _ _ _ _ _ _ T W Y) as (x & H). exists cols, x. split; [reflexivity|exact H].
Qed.

Lemma user_fns_keep (us : dict ueffect) : (forall n u, In (n, u) us -> u_mode (ue_class u) <> None) -> forall n f, In (n, f) (user_fns us) -> keeps_shape f.
Proof.
  intros M n f I. unfold user_fns in I. apply in_map_iff in I. destruct I as ([n' u] & E & I). injection E as <- <-. intros e d pe t v T Rg Y. cbn [snd] in Y.
  destruct d as [d|]; [|inversion Y]. specialize (M n' u I). destruct (u_mode (ue_class u)) as [m|] eqn:Em; [|contradiction].
  destruct (user_predict_mode u m d pe e t v Em T (proj1 Rg) Y) as (cols & x & _ & _ & _ & Sh & Wv & _). split; [exact Wv|]. rewrite Sh. destruct (Nat.eqb_spec (ndim t) 1); [destruct Rg; contradiction|reflexivity].
Qed.
End User.

Lemma builtin_keeps e : keeps_shape (predict e).
Proof.
  induction e as [m p b|m p q b|m p q r b|inner IH tst ps b l|sp tl ps m b ep ex l]; intros en d pe t v T Rg Y; cbn [predict] in Y.
  - exact (mode_keeps_shape m (fun _ => linear_raw p d) en pe t v T Rg Y).
  - exact (mode_keeps_shape m (fun _ => log_raw p q d) en pe t v T Rg Y).
  - exact (mode_keeps_shape m (fun _ => hill_raw p q r d) en pe t v T Rg Y).
  - destruct d as [|a|d0 lift]; try (inversion Y; fail). apply eval_yields in Y. destruct Y as (l0 & Y). rewrite eval_bind in Y.
    destruct (eval en (predict inner d0 pe)) as [[x lx]|] eqn:E; [|discriminate Y]. cbn [bind observe pbind eval] in Y. injection Y as <- _.
    apply (IH en d0 pe t x T Rg). apply eval_yields. eauto.
  - destruct l as [[m' b']|]; [|inversion Y]. exact (mode_keeps_shape m' (fun _ => linear_raw _ d) en pe t v T Rg Y).
Qed.
Lemma effect_fns_keep es n f : In (n, f) (effect_fns es) -> keeps_shape f.
Proof. intros I. unfold effect_fns in I. apply in_map_iff in I. destruct I as ([n' e] & E & _). injection E as <- <-. apply builtin_keeps. Qed.

(** * the mean *)
Lemma run_lift {A} e tr (m : res A) : run e tr (lift_res m) = (a <- m ;; Ok (a, tr)).
Proof. now destruct m. Qed.
Lemma run_scope_yields {A} e tr name (p : prog A) v tr' : run e tr (scope name p) = Ok (v, tr') -> yields (own_env e name) p v.
Proof.
  intros H. apply run_eval in H. destruct H as (l & H & _). rewrite eval_scope in H. destruct (eval (own_env e name) p) as [[a l']|] eqn:E; [|discriminate H]. cbn [bind] in H. injection H as <- _. apply eval_yields. eauto.
Qed.

Section Mean.
Context {D : Type}.

Lemma apply_effects_same (data : dict D) effs : (forall n f, In (n, f) effs -> keeps_shape f) -> forall e tr mean pe t,
  dict_get pe "trend" = Some t -> regular t -> arr_wf mean -> a_shape mean = a_shape t ->
  run e tr (apply_effects_b data (mean, pe) effs) = run e tr (apply_effects data (mean, pe) effs) /\
  forall r tr', run e tr (apply_effects_b data (mean, pe) effs) = Ok (r, tr') -> arr_wf (fst r) /\ a_shape (fst r) = a_shape t.
Proof.
  induction effs as [|[name f] effs IH]; intros K e tr mean pe t T Rg W Sh; cbn [apply_effects_b apply_effects].
  - split; [reflexivity|]. cbn [run]. intros r tr' E. injection E as <- _. cbn [fst]. auto.
  - rewrite !run_bind. unfold apply_effect_b, apply_effect. rewrite !run_bind, !run_lift. destruct (dict_item data name) as [d|]; cbn [bind]; [|split; [reflexivity|discriminate]].
    rewrite !run_bind. destruct (run e tr (scope name (f d pe))) as [[v tr1]|] eqn:RV; cbn [bind]; [|split; [reflexivity|discriminate]].
    apply run_scope_yields in RV. destruct (K name f (or_introl eq_refl) _ _ _ _ _ T Rg RV) as [Wv Sv].
    rewrite !run_bind. destruct (run e tr1 (deterministic name v)) as [[v' tr2]|] eqn:RD; cbn [bind]; [|split; [reflexivity|discriminate]].
    assert (v' = v) by (unfold deterministic in RD; cbn [run] in RD; destruct (record _ _ _); [|discriminate RD]; now injection RD as <- _). subst v'.
    rewrite !run_bind, !run_lift. assert (SS : a_shape mean = a_shape v) by congruence. rewrite (broadcast_zip_same Rplus mean v W Wv SS).
    destruct (arr_zip_same Rplus mean v W Wv SS) as (c & -> & Wc & Sc). cbn [bind run].
    assert (T' : exists t', dict_get (dict_set pe name v) "trend" = Some t' /\ regular t' /\ a_shape t' = a_shape t).
    { rewrite dict_get_set. destruct (String.eqb_spec "trend" name).
      - exists v. split; [reflexivity|]. split; [|exact Sv]. split; [exact Wv|]. unfold ndim. rewrite Sv. exact (proj2 Rg).
      - exists t. auto. }
    destruct T' as (t' & T' & Rg' & Sh'). destruct (IH (fun n g I => K n g (or_intror I)) e tr2 c (dict_set pe name v) t' T' Rg' Wc) as [A B]; [congruence|].
    split; [exact A|]. intros r tr' E. destruct (B r tr' E) as [B1 B2]. split; [exact B1|congruence].
Qed.

Lemma compute_mean_same (trend : prog arr) (data : option (dict D)) effs : (forall e v, yields e trend v -> regular v) ->
  (forall l n f, effs = Some l -> In (n, f) l -> keeps_shape f) ->
  forall e tr, run e tr (compute_mean_b trend data effs) = run e tr (compute_mean trend data effs) /\
    forall m tr', run e tr (compute_mean_b trend data effs) = Ok (m, tr') -> exists t, yields e trend t /\ arr_wf m /\ a_shape m = a_shape t.
Proof.
  intros HT HE e tr. unfold compute_mean_b, compute_mean. rewrite !run_bind. destruct (run e tr trend) as [[t tr1]|] eqn:RT; cbn [bind]; [|split; [reflexivity|discriminate]].
  assert (Y : yields e trend t) by (apply run_eval in RT; destruct RT as (l & RT & _); apply eval_yields; eauto). pose proof (HT e t Y) as Rg.
  rewrite !run_bind. destruct (run e tr1 (deterministic "trend" t)) as [[t0 tr2]|] eqn:RD; cbn [bind]; [|split; [reflexivity|discriminate]].
  destruct effs as [[|nf effs]|].
  - split; [reflexivity|]. cbn [run]. intros m tr' E. injection E as <- _. exists t. split; [exact Y|]. split; [apply Rg|reflexivity].
  - destruct data as [data|]; [|split; [reflexivity|discriminate]]. cbv beta iota. rewrite !run_bind.
    destruct (apply_effects_same data (nf :: effs) (fun n f I => HE _ n f eq_refl I) e tr2 t [("trend", t)] t eq_refl Rg (proj1 Rg) eq_refl) as [A B].
    match goal with |- bind ?x _ = bind ?y _ /\ _ => change (x = y) in A; rewrite A; destruct y as [[mp tr3]|] end; cbn [bind run]; [|split; [reflexivity|discriminate]].
    split; [reflexivity|]. intros m tr' E. injection E as <- _. destruct (B mp tr3 A) as [B1 B2]. exists t. auto.
  - split; [reflexivity|]. cbn [run]. intros m tr' E. injection E as <- _. exists t. split; [exact Y|]. split; [apply Rg|reflexivity].
Qed.
End Mean.

(** * trends of the library *)
Definition rectangular (m : data3 (V := R)) : Prop :=
  match m with D2 _ => True | D3 series => exists T, Forall (fun s : list (list R) => List.length s = T) series end.

Lemma matrix_rectangular squeeze cps ts : rectangular (get_changepoint_matrix squeeze cps ts).
Proof.
  assert (H : Forall (fun s : list (list R) => List.length s = List.length ts) (multi_changepoint_matrix cps ts)).
  { apply Forall_forall. intros s I. unfold multi_changepoint_matrix in I. apply in_map_iff in I. destruct I as (i & <- & _). now rewrite map_length. }
  unfold get_changepoint_matrix. destruct (multi_changepoint_matrix cps ts) as [|m [|m' ms]]; [exists (List.length ts); exact H| |exists (List.length ts); exact H].
  destruct squeeze; [exact I|exists (List.length ts); exact H].
Qed.

Lemma broadcast2_len {A B} (a : list A) (b : list B) c : broadcast2 a b = Ok c -> forall x, In x c -> In (fst x) a.
Proof.
  unfold broadcast2. intros H x I. destruct (_ =? _)%nat.
  - injection H as <-. destruct x as [x y]. exact (in_combine_l _ _ _ _ I).
  - destruct a as [|x0 [|x1 a]].
    + destruct b as [|y0 [|y1 b]]; try discriminate H. injection H as <-. destruct I.
    + injection H as <-. apply in_map_iff in I. destruct I as (z & <- & _). now left.
    + destruct b as [|y0 [|y1 b]]; try discriminate H. injection H as <-. change (In x (map (fun x => (x, y0)) (x0 :: x1 :: a))) in I. apply in_map_iff in I. destruct I as (z & <- & I). exact I.
Qed.

Lemma concat_len {A B} (f : A -> list B) k l : (forall x, In x l -> List.length (f x) = k) -> List.length (concat (map f l)) = (List.length l * k)%nat.
Proof.
  induction l as [|x l IH]; intros H; [reflexivity|]. cbn [map concat List.length]. rewrite app_length, IH, (H x); [reflexivity|now left|]. intros y I. apply H. now right.
Qed.

Lemma piecewise_regular squeeze n m offset coefs a : rectangular m -> piecewise_predict squeeze n m offset coefs = Ok a -> regular a /\ last (a_shape a) 1 = 1.
Proof.
  intros Q H. unfold piecewise_predict in H. destruct m as [rows|series].
  - destruct (forallb _ rows); [|discriminate H]. destruct (broadcast2 _ _) as [lo|]; [|discriminate H]. cbn [bind] in H. injection H as <-. split; [|reflexivity]. split; [|discriminate].
    unfold arr_wf. cbn [a_flat a_shape prod_shape fold_right]. rewrite map_length. lia.
  - destruct (forallb _ series); [|discriminate H]. destruct (broadcast2 series offset) as [so|] eqn:B; [|discriminate H]. cbn [bind] in H. destruct Q as (T & Q). rewrite Forall_forall in Q.
    destruct (_ && _); injection H as <-; (split; [|reflexivity]); (split; [|discriminate]); unfold arr_wf; cbn [a_flat a_shape prod_shape fold_right].
    + lia.
    + rewrite (concat_len _ T). 2:{ intros x I. rewrite map_length. apply Q. exact (broadcast2_len _ _ _ B x I). }
      destruct so as [|x so]; [reflexivity|]. pose proof (broadcast2_len _ _ _ B x (or_introl eq_refl)) as I. destruct series as [|s0 series]; [destruct I|]. rewrite (Q s0 (or_introl eq_refl)). lia.
Qed.

Lemma chunk_len {A} k n (l : list A) c : List.length l = (n * k)%nat -> In c (chunks k n l) -> List.length c = k.
Proof.
  intros L I. unfold chunks in I. apply in_map_iff in I. destruct I as (i & <- & I). apply in_seq in I. rewrite firstn_length, skipn_length, L. nia.
Qed.

Lemma logistic_regular squeeze n m cap offset coefs a : rectangular m -> logistic_predict squeeze n m cap offset coefs = Ok a -> regular a.
Proof.
  intros Q H. unfold logistic_predict in H. destruct (piecewise_predict squeeze n m offset coefs) as [t|] eqn:P; [|discriminate H]. cbn [bind] in H. apply (piecewise_regular _ _ _ _ _ _ Q) in P. destruct P as [[W N] LS].
  assert (G : match (match a_shape t with | [N; T; _] => Some (T, chunks T N (a_flat t)) | [T; _] => Some (T, [a_flat t]) | _ => None end) with
      | None => Err TypeError
      | Some (T, bs) => bc <- broadcast2 bs cap ;; Ok (mkArr [List.length bc; T; 1%nat] (concat (map (fun x => map (logistic (snd x)) (fst x)) bc))) end = Ok a -> regular a).
  { intros E. unfold arr_wf in W. destruct (a_shape t) as [|d1 [|d2 [|d3 [|d4 sh]]]]; try discriminate E; cbn [last] in LS; subst.
    - destruct (broadcast2 _ _) as [bc|] eqn:B; [|discriminate E]. cbn [bind] in E. injection E as <-. split; [|discriminate]. unfold arr_wf. cbn [a_flat a_shape prod_shape fold_right].
      rewrite (concat_len _ d1); [lia|]. intros x I. rewrite map_length. apply (broadcast2_len _ _ _ B) in I. destruct I as [<-|[]]. rewrite W. cbn [prod_shape fold_right]. lia.
    - destruct (broadcast2 _ _) as [bc|] eqn:B; [|discriminate E]. cbn [bind] in E. injection E as <-. split; [|discriminate]. unfold arr_wf. cbn [a_flat a_shape prod_shape fold_right].
      rewrite (concat_len _ d2); [lia|]. intros x I. rewrite map_length. apply (broadcast2_len _ _ _ B) in I. apply (chunk_len d2 d1 (a_flat t)); [|exact I]. rewrite W. cbn [prod_shape fold_right]. lia. }
  destruct n as [|[|n]]; [exact (G H)| |exact (G H)].
  destruct cap as [|c [|c' cap]]; [exact (G H)| |exact (G H)]. injection H as <-. split; [|exact N]. unfold arr_wf in *. cbn [arr_map a_flat a_shape]. now rewrite map_length.
Qed.

Lemma yields_bind {A B} e (p : prog A) (f : A -> prog B) v : yields e (pbind p f) v -> exists a, yields e p a /\ yields e (f a) v.
Proof.
  intros Y. apply eval_yields in Y. destruct Y as (l & Y). rewrite eval_bind in Y. destruct (eval e p) as [[a la]|] eqn:E; [|discriminate Y]. cbn [bind] in Y.
  destruct (eval e (f a)) as [[b lb]|] eqn:F; [|discriminate Y]. cbn [bind] in Y. injection Y as <- _. exists a. split; apply eval_yields; eauto.
Qed.
Lemma yields_lift {A} e (m : res A) v : yields e (lift_res m) v -> m = Ok v.
Proof. destruct m; intros Y; inversion Y; subst; reflexivity. Qed.

Lemma no_trend_no_value eff : forall e d v, ~ yields e (predict eff d []) v.
Proof.
  assert (M : forall e m raw v, ~ yields e (predict_mode m raw []) v).
  { intros e m raw v Y. unfold predict_mode in Y. apply yields_bind in Y. destruct Y as (a & Y & _). apply yields_lift in Y. discriminate Y. }
  induction eff as [m p b|m p q b|m p q r b|inner IH tst ps b l|sp tl ps m b ep ex l]; intros e d v Y; cbn [predict] in Y; try (exact (M _ _ _ _ Y)).
  - destruct d as [|a|d0 lift]; try (inversion Y; fail). apply yields_bind in Y. destruct Y as (a & Y & _). exact (IH _ _ _ Y).
  - destruct l as [[m' b']|]; [|inversion Y]. exact (M _ _ _ _ Y).
Qed.

Lemma piecewise_prog_regular c f m e v : rectangular m -> yields e (piecewise_prog c f m) v -> regular v.
Proof.
  intros Q Y. unfold piecewise_prog in Y. destruct (pw_logistic (pf_params f)).
  - apply yields_bind in Y. destruct Y as (x1 & _ & Y). apply yields_bind in Y. destruct Y as (cap & _ & Y). apply yields_bind in Y. destruct Y as (x2 & _ & Y).
    apply yields_bind in Y. destruct Y as (x3 & _ & Y). apply yields_bind in Y. destruct Y as (x4 & _ & Y). apply yields_bind in Y. destruct Y as (x5 & _ & Y). apply yields_lift in Y. exact (logistic_regular _ _ _ _ _ _ _ Q Y).
  - apply yields_bind in Y. destruct Y as (x2 & _ & Y). apply yields_bind in Y. destruct Y as (x3 & _ & Y). apply yields_bind in Y. destruct Y as (x4 & _ & Y). apply yields_bind in Y. destruct Y as (x5 & _ & Y). apply yields_lift in Y. exact (proj1 (piecewise_regular _ _ _ _ _ _ Q Y)).
Qed.

Lemma trend_regular ns_of t X fh td : trend_transform ns_of t X fh = Ok td -> forall e v, yields e (trend_predict t td) v -> regular v.
Proof.
  intros H e v Y. unfold trend_transform in H. destruct t as [p c b f|s b loc|eff].
  - destruct (trend_rows b X fh); [|discriminate H]. cbn [bind] in H. destruct f as [f|]; [|discriminate H]. cbn [attr bind] in H. injection H as <-. cbn [trend_predict] in Y.
    exact (piecewise_prog_regular _ _ _ _ _ (matrix_rectangular _ _ _) Y).
  - destruct (trend_rows b X fh) as [X'|]; [|discriminate H]. cbn [bind] in H. injection H as <-. destruct loc as [loc|]; [|inversion Y]. cbn [trend_predict] in Y. unfold flat_prog in Y.
    destruct (flat_prior loc s) as [conc rate]. apply yields_bind in Y. destruct Y as (cc & _ & Y). inversion Y; subst. split; [|discriminate].
    unfold arr_wf, flat_predict, flat_transform. cbn [arr_map a_flat a_shape prod_shape fold_right]. rewrite map_length, repeat_length. lia.
  - destruct (transform eff (Some X) fh) as [d|]; [|discriminate H]. cbn [bind] in H. injection H as <-. cbn [trend_predict] in Y. destruct (no_trend_no_value _ _ _ _ Y).
Qed.

Lemma builtin_mean_same ns_of t X fh td data es : trend_transform ns_of t X fh = Ok td -> forall e tr,
  run e tr (compute_mean_b (trend_predict t td) data (Some (effect_fns es))) = run e tr (compute_mean (trend_predict t td) data (Some (effect_fns es))) /\
  forall m tr', run e tr (compute_mean_b (trend_predict t td) data (Some (effect_fns es))) = Ok (m, tr') -> exists t', yields e (trend_predict t td) t' /\ arr_wf m /\ a_shape m = a_shape t'.
Proof.
  intros H. apply compute_mean_same; [exact (trend_regular _ _ _ _ _ H)|]. intros l n f E I. injection E as <-. exact (effect_fns_keep _ _ _ I).
Qed.
