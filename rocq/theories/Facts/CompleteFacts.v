(** The number of entries of a piecewise trend, and of the rows of exogenous data. *)
From Coq Require Import Reals String Bool ZArith List Sorted Permutation Lia.
From Verif.Model Require Import Base Num XFloat Frame Arr Expand Aggregate Scale Prog Likelihood Effect Trend TrendProg Engine Predict Forecaster.
From Verif.Spec Require Import FrameSpec ScaleSpec ProgSpec EffectSpec ForecasterSpec AlignSpec.
From Verif.Facts Require Import BaseFacts OrderFacts FrameFacts FrameProps ExpandFacts EffectFacts EffectFourier EffectPredict AlignFacts TrendFacts
  PredictFacts ForecasterFacts ForecasterInv ForecasterProps AlignForecaster.
Import ListNotations.
Local Open Scope string_scope.

(** every row appears once in the stacked array *)
Lemma filter_split {A} (q : A -> bool) l : Permutation (filter q l ++ filter (fun x => negb (q x)) l)%list l.
Proof.
  induction l as [|x l IH]; simpl; [constructor|]. destruct (q x); simpl; [now constructor|].
  transitivity (x :: (filter q l ++ filter (fun x => negb (q x)) l))%list; [symmetry; apply Permutation_middle|now constructor].
Qed.

Lemma grouped_perm {V} : forall n (l : list (row V)), List.length l <= n ->
  Permutation (flat_map (fun p => filter (fun r => path_eqb (r_path r) p) l) (paths_unique (map r_path l))) l.
Proof.
  induction n as [|n IH]; intros l Hn; [destruct l; [constructor|simpl in Hn; lia]|].
  destruct l as [|r l]; [constructor|]. cbn [map]. unfold paths_unique. rewrite unique_cons by apply path_eqb_eq.
  rewrite filter_map_comm. fold (paths_unique (map r_path (filter (fun a => negb (path_eqb (r_path a) (r_path r))) l))).
  cbn [flat_map].
  set (l2 := filter (fun a => negb (path_eqb (r_path a) (r_path r))) l).
  assert (PR : path_eqb (r_path r) (r_path r) = true) by now apply path_eqb_eq.
  assert (E : Permutation (flat_map (fun p => filter (fun r0 => path_eqb (r_path r0) p) (r :: l)) (paths_unique (map r_path l2))) l2).
  { etransitivity; [|apply (IH l2)].
    - erewrite flat_map_ext_in; [reflexivity|]. intros p Hp. apply (proj1 (paths_unique_In _ _)) in Hp. apply in_map_iff in Hp as (x & <- & Hx).
      unfold l2 in *. apply filter_In in Hx as [Hx Nx]. rewrite filter_filter. simpl.
      destruct (path_eqb (r_path r) (r_path x)) eqn:Ex.
      { apply path_eqb_eq in Ex. rewrite <- Ex, PR in Nx. discriminate. }
      apply filter_ext. intros y. destruct (path_eqb (r_path y) (r_path x)) eqn:Ey; [|now rewrite andb_false_r].
      rewrite andb_true_r. symmetry. destruct (path_eqb (r_path y) (r_path r)) eqn:Er; [|reflexivity].
      apply path_eqb_eq in Ey, Er. rewrite <- Er, Ey in Ex. assert (path_eqb (r_path x) (r_path x) = true) by now apply path_eqb_eq. congruence.
    - unfold l2. simpl in Hn. pose proof (filter_len_le (fun a => negb (path_eqb (r_path a) (r_path r))) l). lia. }
  unfold paths_unique in E. unfold path in *. fold l2. rewrite E. simpl. rewrite PR. simpl. constructor.
  apply (filter_split (fun a => path_eqb (r_path a) (r_path r))).
Qed.

Lemma ordered_perm {V} (f : frame V) : Permutation (ordered_rows f) (f_rows f).
Proof.
  unfold ordered_rows. destruct (f_levels f); [reflexivity|]. unfold rows_of, series_ids. now apply (grouped_perm (List.length (f_rows f))).
Qed.

(** * Size of the trend *)
Lemma broadcast_length {A B} (a : list A) (b : list B) c : broadcast2 a b = Ok c -> List.length a = List.length b -> List.length c = List.length a.
Proof. intros H E. rewrite broadcast2_same in H by assumption. injection H as <-. rewrite combine_length. lia. Qed.

Lemma setup_length t_max a b n cps : setup_changepoints t_max (Scalar a) (Scalar b) n = Ok cps -> List.length cps = n.
Proof. unfold setup_changepoints. intros H. apply mapM_length in H. rewrite H, combine_length. simpl. rewrite !repeat_length. lia. Qed.

Lemma NoDup_same_length {A} (l l' : list A) : NoDup l -> NoDup l' -> (forall x, In x l <-> In x l') -> List.length l = List.length l'.
Proof. intros N N' H. apply Nat.le_antisymm; apply NoDup_incl_length; try assumption; intros x Hx; now apply H. Qed.

Lemma detrend_series (y : frame R) : List.length (series_ids (detrend_frame y)) = List.length (series_ids y).
Proof.
  apply NoDup_same_length; [apply paths_unique_NoDup|apply paths_unique_NoDup|]. intros p. unfold series_ids. rewrite !paths_unique_In. unfold detrend_frame. cbn [f_rows].
  split; intros H.
  - apply in_map_iff in H as (r & <- & H). apply in_flat_map in H as ([q l] & H1 & H2). apply in_map_iff in H2 as ([r0 v] & <- & H2). cbn [r_path fst snd] in *.
    apply in_combine_l in H2. unfold iterate_all_series in H1. apply in_map_iff in H1 as (q' & [= <- <-] & _). unfold rows_of in H2. apply filter_In in H2.
    apply in_map. tauto.
  - assert (Hs : In p (series_ids y)) by (unfold series_ids; now rewrite paths_unique_In).
    apply in_map_iff in H as (r & E & Hr).
    assert (In r (rows_of y p)) by (unfold rows_of; apply filter_In; split; [exact Hr|rewrite E; now apply path_eqb_eq]).
    set (l := rows_of y p) in *. destruct l as [|r1 l'] eqn:El; [contradiction|].
    assert (P1 : r_path r1 = p). { assert (I : In r1 l) by (rewrite El; simpl; auto). unfold l, rows_of in I. apply filter_In in I. now apply path_eqb_eq. }
    apply in_map_iff. eexists (mkRow (r_path r1) (r_time r1) [_]). split; [exact P1|]. apply in_flat_map. exists (p, l). split.
    + unfold iterate_all_series. apply in_map_iff. exists p. split; [reflexivity|exact Hs].
    + cbn [snd]. rewrite El. unfold ols_line. simpl map. simpl combine. simpl. left. reflexivity.
Qed.

Lemma suggest_lengths p (y : frame R) ts rates offs : f_levels y <> 0 -> suggest p y ts = Ok (rates, offs) ->
  List.length rates = n_series_of y /\ List.length offs = n_series_of y.
Proof.
  intros L H. unfold suggest in H. set (y' := if pw_detrend p then detrend_frame y else y) in H.
  assert (L' : f_levels y' <> 0) by (unfold y'; destruct (pw_detrend p); exact L).
  assert (N : List.length (series_ids y') = n_series_of y).
  { unfold n_series_of. destruct (f_levels y); [congruence|]. unfold y'. destruct (pw_detrend p); [apply detrend_series|reflexivity]. }
  inv_bind H. unfold target_matrix in E. inv_bind E. injection E as <-. destruct (tensor_ok_iff _ _ L' E0) as (k & _ & ->).
  inv_bind H. unfold endpoints in E. apply mapM_length in E. rewrite !map_length, N in E.
  destruct (pw_logistic p) as [c|].
  - inv_bind H. inv_bind H. injection H as <- <-. unfold suggest_logistic in E2.
    match type of E2 with (if ?b then _ else _) = _ => destruct b; [discriminate|] end. injection E2 as <-. rewrite !map_length. auto.
  - injection H as <- <-. rewrite !map_length. auto.
Qed.

Definition trend_shape (n T : nat) (squeeze : bool) : list nat := if Nat.eqb n 1 && squeeze then [T; 1] else [n; T; 1].

Lemma piecewise_shape sq n cps ts offs coefs a : List.length cps = n -> List.length offs = n -> n <> 0 ->
  piecewise_predict sq n (get_changepoint_matrix sq cps ts) offs coefs = Ok a ->
  a_shape a = trend_shape n (List.length ts) sq /\ arr_wf a.
Proof.
  intros Lc Lo Hn H. unfold get_changepoint_matrix in H. rewrite multi_matrix_rows in H. rewrite Lc in H.
  assert (D3c : piecewise_predict sq n (D3 (map (fun i => map (masked_row cps i) ts) (seq 0 n))) offs coefs = Ok a -> Nat.eqb n 1 && sq = false ->
     a_shape a = trend_shape n (List.length ts) sq /\ arr_wf a).
  { intros K Q. unfold piecewise_predict in K. destruct (forallb _ _); [|discriminate]. inv_bind K. rewrite Q in K. injection K as <-.
    pose proof (broadcast_length _ _ _ E) as LB. rewrite map_length, seq_length in LB. specialize (LB (eq_sym Lo)).
    unfold trend_shape. rewrite Q. cbn [a_shape].
    assert (HT : match map (fun i => map (masked_row cps i) ts) (seq 0 n) with [] => 0 | s :: _ => List.length s end = List.length ts).
    { destruct n; [congruence|]. simpl. now rewrite map_length. }
    rewrite HT. rewrite LB. split; [reflexivity|]. unfold arr_wf. cbn [a_flat a_shape]. 
    rewrite (concat_uniform_length _ (List.length ts)).
    - rewrite map_length, LB. unfold prod_shape. simpl. lia.
    - intros l Hl. apply in_map_iff in Hl as ([s o] & <- & Hs). rewrite map_length. cbn [fst].
      rewrite broadcast2_same in E by (rewrite map_length, seq_length; congruence). injection E as <-. apply in_combine_l in Hs.
      apply in_map_iff in Hs as (i & <- & _). now rewrite map_length. }
  destruct n as [|[|n]]; [congruence| |].
  - destruct sq; cbn [seq map] in *.
    + unfold piecewise_predict in H. destruct (forallb _ _); [|discriminate]. inv_bind H. injection H as <-.
      assert (LX : List.length x = List.length ts).
      { destruct offs as [|o [|]]; try discriminate. unfold broadcast2 in E. rewrite !map_length in E. simpl List.length in E.
        destruct (Nat.eqb_spec (List.length ts) 1) as [E1|N1].
        - injection E as <-. rewrite combine_length, !map_length. simpl. lia.
        - destruct ts as [|t1 [|t2 ts]]; simpl in E; try (simpl in N1; congruence); injection E as <-; simpl; rewrite ?map_length; reflexivity. }
      cbn [a_shape]. unfold trend_shape. simpl. rewrite LX. split; [reflexivity|]. unfold arr_wf. simpl. rewrite map_length, LX. unfold prod_shape. simpl. lia.
    + apply D3c; [exact H|reflexivity].
  - apply D3c; [|reflexivity]. cbn [seq map] in H |- *. exact H.
Qed.

Lemma logistic_shape sq n cps ts caps offs coefs a : List.length cps = n -> List.length offs = n -> List.length caps = n -> n <> 0 ->
  logistic_predict sq n (get_changepoint_matrix sq cps ts) caps offs coefs = Ok a ->
  a_shape a = trend_shape n (List.length ts) sq.
Proof.
  intros Lc Lo La Hn H. unfold logistic_predict in H. inv_bind H. destruct (piecewise_shape _ _ _ _ _ _ _ Lc Lo Hn E) as [Sh W].
  destruct n as [|[|n]]; [congruence| |].
  - destruct caps as [|c [|]]; try discriminate. injection H as <-. exact Sh.
  - rewrite Sh in H. cbn [trend_shape Nat.eqb andb] in H. unfold trend_shape in H. simpl (Nat.eqb _ _ && _) in H. cbv beta iota in H.
    inv_bind H. injection H as <-. apply broadcast_length in E0; [|unfold chunks; rewrite map_length, seq_length; congruence].
    cbn [a_shape]. rewrite E0. unfold chunks. rewrite map_length, seq_length. reflexivity.
Qed.

Lemma trend_value_shape ns_of p (y : frame R) f capacity fh env a iv rg :
  piecewise_fit ns_of p y = Ok f -> pw_interval p = Scalar iv -> pw_range p = Scalar rg -> f_levels y <> 0 -> f_rows y <> [] ->
  yields env (piecewise_prog capacity f (piecewise_transform ns_of f fh)) a ->
  a_shape a = trend_shape (n_series_of y) (List.length (times_unique fh)) (pw_squeeze p).
Proof.
  intros H Hi Hr L NE Y. destruct (piecewise_fit_inv _ _ _ _ H) as (ts & _ & _ & Hn & Hp & Hc & Hs & _ & Hse).
  rewrite Hi, Hr in Hc. apply setup_length in Hc. destruct (suggest_lengths _ _ _ _ _ L Hs) as [_ Lo].
  assert (N0 : n_series_of y <> 0).
  { unfold n_series_of. destruct (f_levels y); [congruence|]. intros E. apply length_zero_iff_nil in E. destruct (f_rows y) as [|r l] eqn:ER; [congruence|].
    assert (I : In (r_path r) (series_ids y)) by (unfold series_ids; rewrite paths_unique_In, ER; simpl; auto). rewrite E in I. contradiction. }
  unfold piecewise_transform in Y. rewrite Hse in Y. destruct (f_levels y) eqn:EL; [congruence|]. rewrite Hp in Y.
  set (tl := map _ (times_unique fh)) in Y. replace (List.length (times_unique fh)) with (List.length tl) by (unfold tl; now rewrite map_length).
  unfold piecewise_prog in Y. rewrite Hp, Hn in Y. destruct (pw_logistic p) as [c|].
  - apply yields_bind in Y as ([] & _ & Y). apply yields_bind in Y as (cap & Hcap & Y). apply yields_sample in Hcap. subst cap.
    apply yields_bind in Y as (locs & Hl & Y). apply yields_lift in Hl. apply mapM_length in Hl. apply yields_bind in Y as (o & Ho & Y). apply yields_sample in Ho. subst o.
    apply yields_bind in Y as ([] & _ & Y). apply yields_bind in Y as (cc & Hcc & Y). apply yields_lift in Y. eapply logistic_shape; [..|exact Y]; auto.
    + cbn [a_flat]. rewrite map_length, seq_length. unfold prod_shape. simpl. lia.
    + cbn [a_flat]. rewrite map_length, seq_length. unfold prod_shape. simpl. lia.
  - apply yields_bind in Y as (locs & Hl & Y). apply yields_lift in Hl. apply mapM_length in Hl. apply yields_bind in Y as (o & Ho & Y). apply yields_sample in Ho. subst o.
    apply yields_bind in Y as ([] & _ & Y). apply yields_bind in Y as (cc & Hcc & Y). apply yields_lift in Y. eapply piecewise_shape; [..|exact Y]; auto.
    cbn [a_flat]. rewrite map_length, seq_length. unfold prod_shape. simpl. lia.
Qed.

(** * Complete data *)
Lemma ascending_perm_cover {A B} (L : list (A * B)) (ps : list A) (ts : list B) : NoDup L -> (forall p t, In (p, t) L -> In p ps /\ In t ts) ->
  List.length L = List.length ps * List.length ts -> forall p t, In p ps -> In t ts -> In (p, t) L.
Proof.
  intros N I E p t Hp Ht.
  assert (J : incl (list_prod ps ts) L).
  { apply NoDup_length_incl; [exact N|rewrite prod_length; lia|]. intros [q u] H. apply in_prod_iff. now apply I. }
  apply J. apply in_prod; assumption.
Qed.

(** a linear effect on a piecewise trend gets one row for each series and date *)
Lemma linear_rows order m prior b X0 s e' fh (X : frame R) d env tr pe v : fit order (Linear m prior b) X0 s = (e', None) -> frame_wf X ->
  columns_seen X0 <> [] -> transform e' (Some X) fh = Ok d -> yields env (predict e' d pe) v -> dict_get pe "trend" = Some tr ->
  List.length (a_shape tr) <> 1 -> List.length (f_rows (filter_fh fh X)) = prod_shape (a_shape tr).
Proof.
  intros Ft W NE HT Y G ND.
  destruct (plain_data order (Linear m prior b) X0 s e' fh X d eq_refl Ft W NE HT) as (a & F & g & -> & EA & EC & ELv & ER & GG).
  assert (exists b', e' = Linear m prior b') as [b' ->].
  { simpl in Ft. unfold base_fit in Ft. simpl in Ft. injection Ft as <-. eauto. }
  cbn [predict] in Y. apply mode_yields in Y as (t & x & Gt & Yx & Lx & _). rewrite G in Gt. injection Gt as <-.
  destruct (frame_array_rows F a EA) as (rest & E1 & E2 & E3).
  assert (RW : forall r, In r (ordered_rows F) -> List.length (r_vals r) = List.length (columns_seen X0)).
  { intros r Hr. apply (Permutation_in r (ordered_perm F)) in Hr. rewrite ER in Hr. apply in_map_iff in Hr as (r0 & <- & H0). apply GG. exact H0. }
  assert (WA : arr_wf a).
  { unfold arr_wf. rewrite E1, E3. rewrite (concat_length_uniform (List.length (columns_seen X0))).
    - rewrite map_length, <- E2, EC. clear. induction rest as [|n rest IH]; simpl; unfold prod_shape in *; simpl in *; [lia|]. rewrite <- IH. lia.
    - intros l Hl. apply in_map_iff in Hl as (r & <- & Hr). now apply RW. }
  apply (linear_raw_yields env prior a _ rest x E1 WA) in Yx. destruct Yx as (_ & _ & Lx' & _).
  assert (TC : trend_column tr = tr). { unfold trend_column, ndim. destruct (Nat.eqb_spec (List.length (a_shape tr)) 1); congruence. }
  rewrite TC in Lx. rewrite <- Lx, Lx', E2, (Permutation_length (ordered_perm F)), ER, map_length. reflexivity.
Qed.

Lemma scale_y_wf d s y ys : frame_wf y -> scale_y d s y = Ok ys -> frame_wf ys.
Proof.
  intros W. unfold scale_y, apply_scale. destruct d; [now intros [= <-]|]. destruct s as [c|z|tab|tab].
  - intros [= <-] r Hr. unfold map_vals in *. cbn in *. apply in_map_iff in Hr as (x & <- & Hx). cbn. rewrite map_length. now apply W.
  - discriminate.
  - intros H. inv_bind H. injection H as <-. intros r Hr. unfold by_row in *. cbn in *. apply in_map_iff in Hr as ([r0 v] & <- & Hx). apply in_combine_l in Hx.
    cbn. rewrite map_length. now apply W.
  - intros H. inv_bind H. unfold by_column in H. destruct (Nat.eqb_spec (List.length x) (List.length (f_cols y))); [|discriminate]. injection H as <-.
    intros r Hr. unfold map_vals in *. cbn in *. apply in_map_iff in Hr as (r0 & <- & Hx). destruct (W r0 Hx). cbn. rewrite map_length, combine_length. split; [lia|assumption].
Qed.

Section Forecaster.
Variable ns_of : Z -> Z.
Variable order : list string -> list string.
Variable keep : path -> bool.
Context {TS : Type}.
Variable tr_fit_transform : TS -> frame R -> TS * res (frame R).
Variable tr_transform : TS -> frame R -> res (frame R).
Context {P : Type}.
Variable svi_run : Z -> nat -> nat -> prog arr -> res (list xr * P).
Variable nuts_run : Z -> nat -> nat -> nat -> prog arr -> res (nat -> nat -> env).
Variable latent_sites : prog arr -> list string.
Variable guide_draw : P -> Z -> nat -> prog arr -> env.
Variable complete_draw : env -> Z -> nat -> prog arr -> env.
Notation fit_forecaster := (fit_forecaster ns_of order keep tr_fit_transform svi_run nuts_run latent_sites).
Notation predictive_samples_dict := (predictive_samples_dict ns_of keep tr_transform guide_draw complete_draw).

(** fitting keeps the parameters of the trend *)
Lemma fitted_trend t0 X yb s t : trend_fit ns_of order t0 X yb s = (t, None) -> scalar_piecewise t ->
  exists p cap b f iv rg, t = TPiecewise p cap b (Some f) /\ piecewise_fit ns_of p yb = Ok f /\ pw_interval p = Scalar iv /\ pw_range p = Scalar rg.
Proof.
  unfold trend_fit. destruct t0 as [p c b f0|s0 b l|e].
  - destruct (piecewise_fit ns_of p yb) as [f|] eqn:F; [|discriminate]. intros [= <-] [[iv I] [rg G]]. do 6 eexists. eauto.
  - intros [= <-] [].
  - destruct (fit order e X s) as [e' [er|]]; [discriminate|]. intros [= <-] [].
Qed.

Lemma c72 c ob y X ob1 f y2 X2 fh f' d cutoff Xb n m prior b :
  c_hier c = true -> fit_forecaster c ob y X = (ob1, Ok f) ->
  f_levels y <> 0 -> frame_wf y -> (forall r, In r (f_rows y) -> ~ In "__total" (r_path r)) ->
  scalar_piecewise (o_trend ob1) -> o_transformer ob1 = None -> p_has_exogenous (ft_prepared f) = true ->
  dict_get (p_effects (ft_prepared f)) n = Some (Linear m prior b) -> ~ In "trend" (dict_keys (p_effects (ft_prepared f))) ->
  predictive_samples_dict c ob1 f y2 (Some X2) fh = (f', Ok d) ->
  max_time (map snd (p_index (ft_prepared f))) = Ok cutoff ->
  frame_wf X2 -> f_cols X2 <> [] -> loc_bottom_series X2 = Ok Xb -> NoDup (labels Xb) ->
  (forall q t, In (q, t) (labels Xb) -> In t (to_absolute cutoff fh) -> In q (map r_path (f_rows y))) ->
  forall q t, In q (map r_path (f_rows y)) -> In t (to_absolute cutoff fh) -> In (q, t) (labels Xb).
Proof.
  intros Hc HF Ly WY TY ST NT HE HG NTr HP HM WX CX HXb NX HI.
  pose proof (fit_prepared _ _ _ _ _ _ _ _ _ _ _ _ _ HF) as [HN _].
  apply fit_forecaster_inv in HF. destruct HF as (s & ys & p & m0 & post & HS & HY & HD & _ & ->). cbn [ft_prepared ft_scale] in *.
  unfold fit_data in HD. rewrite Hc in HD. apply hierarchical_fit_inv in HD.
  destruct HD as (yb & tensor & X0 & X1 & X2' & ob0 & t0 & t & td0 & data0 & HD).
  destruct HD as (Hyb & Ht & HX0 & HQ & Hex & HX2 & HG0 & HTF & -> & H1 & H2 & H3 & H4 & _ & _ & _). cbn [o_trend o_transformer] in *.
  pose proof (scale_y_wf _ _ _ _ WY HY) as WS. pose proof (scale_y_index _ _ _ _ HY) as [IY LY].
  assert (RP : map r_path (f_rows ys) = map r_path (f_rows y)).
  { unfold index_of in IY. apply (f_equal (map fst)) in IY. rewrite !map_map in IY. exact IY. }
  assert (RY : f_rows ys <> []).
  { intros E. unfold aggregate, loc_bottom_series, get_bottom_series_idx, series_ids in Hyb. rewrite LY in Hyb.
    destruct (f_levels y) as [|[|k]] eqn:EL; [congruence| |]; rewrite E in Hyb; simpl in Hyb; rewrite ?LY, ?EL in Hyb; discriminate. }
  assert (TYS : forall r, In r (f_rows ys) -> ~ In "__total" (r_path r)).
  { intros r Hr. assert (I : In (r_path r) (map r_path (f_rows y))) by (rewrite <- RP; now apply in_map). apply in_map_iff in I as (r' & <- & Hr'). now apply TY. }
  rewrite bottom_of_aggregate_all in Hyb; [|assumption|congruence|assumption|assumption]. injection Hyb as <-.
  destruct (fitted_trend _ _ _ _ _ HTF ST) as (pp & cap & bb & pf & iv & rg & -> & PF & PI & PR).
  unfold Forecaster.predictive_samples_dict in HP. rewrite Hc in HP.
  destruct (hierarchical_predict_model _ _ _ _ _ _ _ _ _) as [[mm ex']|] eqn:E in HP; [|discriminate]. injection HP as _ HP. cbn [ft_posterior] in HP.
  unfold hierarchical_predict_model in E.
  cbn [ft_prepared ft_scale o_trend] in E. rewrite HM in E. cbn [bind] in E.
  assert (NC : no_columns X2 = false) by (unfold no_columns; destruct (f_cols X2); [congruence|reflexivity]). rewrite NC, HXb in E.
  cbn [bind] in E. rewrite HE in E. inv_bind E. destruct x as [Xe ex2].
  set (times := to_absolute cutoff fh) in *.
  destruct (forallb _ times) eqn:FA in E0; [|discriminate]. unfold run_transform in E0. cbn [o_transformer] in E0. rewrite NT in E0. cbn [bind] in E0.
  destruct (p_expander p) as [ex|] eqn:EX; [|discriminate]. cbn [attr bind] in E0. inv_bind E0. destruct x as [Xe' ex3]. injection E0 as <- <-.
  inv_bind E. rename x into td. inv_bind E. rename x into data. injection E as <- _.
  pose proof (expand_transform_labels _ _ _ _ _ _ E1) as [EL ELv].
  assert (WE : frame_wf Xe') by (eapply expand_transform_wf; [|exact E1]; exact (loc_bottom_wf _ _ WX HXb)).
  (* one run *)
  unfold engine_predict in HP. inv_bind HP. rename x into traces.
  assert (exists e o tr, run e [] (model_call c s p (TPiecewise pp cap bb (Some pf)) td None (Some data)) = Ok (o, tr)) as (e & o & tr & R).
  { destruct traces as [|[o tr] traces]; [discriminate|]. destruct (draws _ _ _ _ _) as [|e ds]; [discriminate|]. simpl in E.
    destruct (run e [] _) as [[o' tr']|] eqn:RR in E; [|discriminate]. eauto. }
  clear HP E.
  destruct (model_location c s p (TPiecewise pp cap bb (Some pf)) td None data) with (e := e) (o := o) (tr := tr) as (k & tv & vs & mean & _ & AM);
    [congruence|eapply non_skipped_nodup; exact HN|exact NTr|exact R|].
  destruct AM as (Y0 & LV & AE & _).
  cbn [trend_transform] in E0. inv_bind E0. cbn [attr bind] in E0. injection E0 as <-. cbn [trend_predict] in Y0.
  assert (LS : f_levels (sort_index ys) <> 0) by (simpl; congruence).
  assert (RS : f_rows (sort_index ys) <> []).
  { intros E9. destruct (f_rows ys) as [|r0 l0] eqn:E8; [congruence|]. assert (I0 : In r0 (f_rows (sort_index ys))).
    - eapply Permutation_in; [apply (key_sort_perm label (f_rows ys))|]. rewrite E8. simpl. auto.
    - rewrite E9 in I0. contradiction. }
  pose proof (trend_value_shape _ _ _ _ _ _ _ _ _ _ PF PI PR LS RS Y0) as Sh.
  (* the effect *)
  pose proof (effects_data_agree _ _ _ _ _ E2 HN) as AG.
  destruct (agree_get _ _ _ _ _ _ _ AG HG) as (dd & ff & XC & K1 & K2 & K3 & K4 & K5 & K6).
  destruct (fit_effects_each _ _ _ _ _ _ _ H2 K2) as (e0 & XC0 & S1 & S2). rewrite K4 in S2.
  pose proof (non_skipped_get _ _ _ _ HN HG) as NS. rewrite (should_skip_fitted _ _ _ _ _ S2) in NS.
  assert (Pe0 : plain e0 = true) by (eapply fit_plain; [exact S2|reflexivity]).
  assert (CN : columns_seen (Some XC0) <> []).
  { intros E9. rewrite E9 in NS. destruct e0; try discriminate; apply NS; reflexivity. }
  assert (exists m1 p1 b1, e0 = Linear m1 p1 b1) as (m1 & p1 & b1 & ->).
  { destruct e0; try discriminate; [eauto| |]; simpl in S2; unfold base_fit in S2; simpl in S2;
      destruct (f_levels XC0 =? 0)%nat; discriminate. }
  assert (exists i, nth_error (effect_fns (p_effects p)) i = Some (n, predict (Linear m prior b))) as (i & Hi).
  { assert (I : In (n, Linear m prior b) (p_effects p)) by now apply dict_get_In.
    apply In_nth_error. unfold effect_fns. apply in_map_iff. exists (n, Linear m prior b). auto. }
  destruct (AE i n _ Hi) as (dd' & v & G' & _ & Yv). rewrite K1 in G'. injection G' as <-.
  assert (WC : frame_wf XC) by (eapply select_wf; eauto).
  assert (LR := linear_rows order m1 p1 b1 (Some XC0) (scale_number s) _ times XC dd _ tv _ v S2 WC CN K6 Yv eq_refl).
  rewrite Sh in LR. 
  set (N := n_series_of (sort_index ys)) in *. set (T := List.length (times_unique times)) in *.
  assert (PS : prod_shape (trend_shape N T (pw_squeeze pp)) = N * T /\ List.length (trend_shape N T (pw_squeeze pp)) <> 1).
  { unfold trend_shape. destruct (Nat.eqb N 1 && pw_squeeze pp) eqn:Q.
    - apply andb_true_iff in Q as [Q _]. apply Nat.eqb_eq in Q. rewrite Q. unfold prod_shape. simpl. lia.
    - unfold prod_shape. simpl. lia. }
  destruct PS as [PS1 PS2]. rewrite PS1 in LR. specialize (LR PS2).
  (* labels *)
  set (L := labels (filter_fh times Xb)).
  assert (LL : List.length L = N * T).
  { rewrite <- LR. unfold L. transitivity (List.length (labels (filter_fh times XC))); [|unfold labels; now rewrite map_length].
    assert (labels XC = labels Xb) by (rewrite (select_labels _ _ _ K5); exact EL).
    assert (HH : forall V (Z : frame V), labels (filter_fh times Z) = filter (fun l => if in_dec Z.eq_dec (snd l) times then true else false) (labels Z)).
    { intros V Z. unfold labels. rewrite filter_fh_rows. unfold horizon_rows. rewrite filter_map_comm. f_equal. }
    rewrite !HH. congruence. }
  assert (NSe : N = List.length (series_ids y)).
  { unfold N, n_series_of. destruct (f_levels (sort_index ys)) eqn:E9; [congruence|]. apply NoDup_same_length; try apply paths_unique_NoDup.
    intros q. unfold series_ids. rewrite !paths_unique_In. rewrite <- RP. unfold sort_index. simpl. split; apply Permutation_in; apply Permutation_map; [symmetry|]; apply key_sort_perm. }
  assert (Cov : forall q t, In q (series_ids y) -> In t (times_unique times) -> In (q, t) L).
  { apply ascending_perm_cover.
    - unfold L. now apply NoDup_labels_filter.
    - intros q t I. unfold L in I. apply horizon_labels in I. destruct I as [I1 I2]. cbn [snd] in I2. unfold series_ids. rewrite paths_unique_In, times_unique_In. split; [eapply HI; eauto|exact I2].
    - rewrite LL, NSe. reflexivity. }
  intros q t Hq Ht'. assert (I : In (q, t) L) by (apply Cov; [unfold series_ids; now rewrite paths_unique_In|now rewrite times_unique_In]).
  unfold L in I. apply horizon_labels in I. tauto.
Qed.
End Forecaster.
