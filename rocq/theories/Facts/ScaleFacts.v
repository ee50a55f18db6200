(** Facts about target scaling. *)
From Coq Require Import Reals Lra String Bool ZArith Lia List Permutation Sorted.
From Verif.Model Require Import Base Num Frame Aggregate Scale.
From Verif.Spec Require Import FrameSpec ScaleSpec.
From Verif.Facts Require Import BaseFacts NumFacts OrderFacts FrameFacts.
Import ListNotations.
Local Open Scope R_scope.

Lemma mapM_combine_map {A B C} (f : A -> res B) (g : A * B -> C) (h : A -> B) l :
  (forall x, In x l -> f x = Ok (h x)) ->
  exists bs, mapM f l = Ok bs /\ map g (combine l bs) = map (fun x => g (x, h x)) l /\ bs = map h l.
Proof.
  intros H. exists (map h l). split; [now apply mapM_map|]. split; [|reflexivity].
  clear H. induction l as [|x l IH]; simpl; [reflexivity|]. now rewrite IH.
Qed.

(** the frame with every value of series p combined with [c p] *)
Definition scale_rows (op : R -> R -> R) (c : path -> R) (y : frame R) : frame R :=
  mkFrame (f_levels y) (f_cols y)
    (map (fun r => mkRow (r_path r) (r_time r) (map (fun v => op v (c (r_path r))) (r_vals r))) (f_rows y)).

Lemma apply_scale_rows op s y (c : path -> R) :
  (forall r, In r (f_rows y) -> scale_of s (r_path r) = Some (c (r_path r))) ->
  (forall tab, s = STable tab -> f_levels y <> 0%nat) ->
  (exists c0, s = SFloat c0) \/ (exists tab, s = STable tab) ->
  apply_scale op false s y = Ok (scale_rows op c y).
Proof.
  intros H HL [[c0 ->]|[tab ->]].
  - simpl. f_equal. unfold map_vals, scale_rows. f_equal. apply map_ext_in. intros r Hr.
    specialize (H r Hr). simpl in H. injection H as H. now rewrite H.
  - simpl. unfold scale_for_each_obs. specialize (HL tab eq_refl). destruct (f_levels y) eqn:E; [congruence|].
    destruct (mapM_combine_map (fun r : row R => match tab_get tab (r_path r) with Some c => Ok c | None => Err KeyError end)
      (fun rc => mkRow (r_path (fst rc)) (r_time (fst rc)) (map (fun v => op v (snd rc)) (r_vals (fst rc))))
      (fun r => c (r_path r)) (f_rows y)) as (bs & E1 & E2 & _).
    { intros r Hr. specialize (H r Hr). simpl in H. now rewrite H. }
    rewrite E1. simpl. unfold by_row, scale_rows. rewrite E2, E. reflexivity.
Qed.

Lemma apply_scale_ok_inv op s y ys : apply_scale op false s y = Ok ys ->
  (exists c, s = SFloat c) \/ (exists tab, s = STable tab /\ f_levels y <> 0%nat /\
      forall r, In r (f_rows y) -> tab_get tab (r_path r) <> None) \/ (exists tab, s = SSeries tab).
Proof.
  destruct s as [c|z|tab|tab]; simpl; try discriminate; [eauto| |eauto].
  unfold scale_for_each_obs. destruct (f_levels y) eqn:E; [discriminate|].
  destruct (mapM _ _) as [cs|e] eqn:Em; [|discriminate]. intros _. right. left. exists tab.
  repeat split; [congruence|]. intros r Hr Hn. apply mapM_ok in Em.
  clear -Em Hr Hn. induction Em as [|a b l1 l2 H1 H2 IH]; [contradiction|]. destruct Hr as [->|Hr]; [|auto].
  rewrite Hn in H1. discriminate.
Qed.

(** the replaced scale has no zero *)
Definition nonzero_scale (s : scale) : Prop :=
  match s with
  | SFloat c => c <> 0
  | SInt z => z <> 0%Z
  | STable tab | SSeries tab => forall p c, In (p, c) tab -> c <> 0
  end.

Lemma replace01_nz c : replace01 c <> 0.
Proof. unfold replace01. destruct (Reqb c 0) eqn:E; [lra|]. now apply Reqb_false. Qed.

Lemma set_y_scales_nz user y s : set_y_scales user y = Ok s -> nonzero_scale s.
Proof.
  unfold set_y_scales. destruct (match user with Some s0 => _ | None => _ end) as [s0|e]; simpl; [|discriminate].
  destruct s0 as [c|z|tab|tab]; intros [= <-].
  - destruct (Reqb c 0) eqn:E; simpl; [lia|now apply Reqb_false].
  - destruct (Z.eqb_spec z 0); simpl; lia.
  - simpl. intros p c H. apply in_map_iff in H. destruct H as ([q d] & [= <- <-] & _). apply replace01_nz.
  - simpl. intros p c H. apply in_map_iff in H. destruct H as ([q d] & [= <- <-] & _). apply replace01_nz.
Qed.

Lemma tab_get_In tab p c : tab_get tab p = Some c -> In (p, c) tab.
Proof.
  induction tab as [|[q d] tab IH]; simpl; [discriminate|]. destruct (path_eqb_spec p q) as [->|N].
  - intros [= ->]. auto.
  - auto.
Qed.

Lemma map_div_mul c l : c <> 0 -> map (fun v => v * c) (map (fun v => v / c) l) = l.
Proof.
  intros H. rewrite map_map. rewrite <- (map_id l) at 2. apply map_ext. intros v. field. assumption.
Qed.

Lemma map_rows_id (g : row R -> row R) (l : list (row R)) : (forall r, In r l -> g r = r) -> map g l = l.
Proof. intros H. rewrite <- (map_id l) at 2. apply map_ext_in. exact H. Qed.

Lemma combine_div_mul vs cs : (forall c, In c cs -> c <> 0) -> length vs = length cs ->
  map (fun vc => fst vc * snd vc) (combine (map (fun vc => fst vc / snd vc) (combine vs cs)) cs) = vs.
Proof.
  revert cs. induction vs as [|v vs IH]; intros [|c cs] H L; try discriminate; [reflexivity|].
  simpl. rewrite IH; [|intros; apply H; simpl; auto|simpl in L; lia]. f_equal. field. apply H; simpl; auto.
Qed.

Lemma scale_round_trip s discrete y ys : frame_wf y -> nonzero_scale s ->
  scale_y discrete s y = Ok ys -> inv_scale_y discrete s ys = Ok y.
Proof.
  intros W NZ H. unfold scale_y, inv_scale_y in *. destruct discrete; [simpl in *; congruence|].
  destruct y as [lv cols rows].
  destruct (apply_scale_ok_inv _ _ _ _ H) as [[c ->]|[(tab & -> & HL & HT)|[tab ->]]].
  - simpl in *. injection H as <-. unfold map_vals. simpl. repeat f_equal. rewrite map_map. simpl.
    apply map_rows_id. intros [p t v] _. simpl. now rewrite map_div_mul.
  - set (c := fun p => match tab_get tab p with Some c => c | None => 1 end).
    assert (HS : forall r, In r rows -> scale_of (STable tab) (r_path r) = Some (c (r_path r))).
    { intros r Hr. simpl. unfold c. specialize (HT r Hr). destruct (tab_get tab (r_path r)); congruence. }
    rewrite (apply_scale_rows _ _ _ c) in H; [|exact HS|intros; exact HL|eauto].
    injection H as <-.
    rewrite (apply_scale_rows _ _ _ c).
    + unfold scale_rows. simpl. do 2 f_equal. rewrite map_map. simpl. apply map_rows_id. intros [p t v] Hr. simpl.
      rewrite map_div_mul; [reflexivity|]. specialize (HS _ Hr). simpl in HS. apply tab_get_In in HS.
      exact (NZ _ _ HS).
    + intros r Hr. simpl in Hr. apply in_map_iff in Hr. destruct Hr as (r' & <- & Hr'). exact (HS r' Hr').
    + intros; exact HL.
    + eauto.
  - simpl in *. unfold scale_for_each_obs in *. simpl in *. destruct lv as [|n]; [discriminate|].
    destruct (mapM _ rows) as [cs|e] eqn:Em; [|discriminate]. simpl in H.
    unfold by_column in H. simpl in H. destruct (Nat.eqb_spec (length cs) (length cols)) as [L|L]; [|discriminate].
    injection H as <-. unfold map_vals. simpl.
    assert (Em' : mapM (fun r : row R => match tab_get tab (r_path r) with Some c => Ok c | None => Err KeyError end)
       (map (fun r => mkRow (r_path r) (r_time r) (map (fun vc => fst vc / snd vc) (combine (r_vals r) cs))) rows) = Ok cs).
    { apply mapM_ok. apply mapM_ok in Em. clear -Em. generalize cs at 1. intros cs'. induction Em; simpl; constructor; auto. }
    rewrite Em'. simpl. unfold by_column. simpl. rewrite L, Nat.eqb_refl. unfold map_vals. simpl. do 2 f_equal.
    rewrite map_map. simpl. apply map_rows_id. intros [p t v] Hr. simpl. f_equal.
    apply combine_div_mul.
    + intros c Hc. apply mapM_ok in Em. clear -Em NZ Hc.
      induction Em as [|a b l1 l2 H1 H2 IH]; [contradiction|]. destruct Hc as [->|Hc]; [|auto].
      destruct (tab_get tab (r_path a)) eqn:E; [|discriminate]. injection H1 as ->. apply tab_get_In in E. exact (NZ _ _ E).
    + destruct (W _ Hr) as [Hl _]. simpl in Hl. congruence.
Qed.

(** ** automatic scale *)
Lemma abs_max_spec l m : abs_max l = Some m <-> is_abs_max l m.
Proof.
  unfold abs_max. destruct l as [|x l]; simpl.
  - split; [discriminate|]. intros [(y & [] & _) _].
  - split.
    + intros [= <-]. split.
      * pose proof (Rmax_list_In (Rabs x) (map Rabs l)) as H. change (Rabs x :: map Rabs l) with (map Rabs (x :: l)) in H.
        apply in_map_iff in H. destruct H as (y & E & H). eauto.
      * intros y Hy. apply Rmax_list_ge. change (Rabs x :: map Rabs l) with (map Rabs (x :: l)). now apply in_map.
    + intros [(y & Hy & Ey) H]. f_equal. apply Rle_antisym.
      * pose proof (Rmax_list_In (Rabs x) (map Rabs l)) as I. change (Rabs x :: map Rabs l) with (map Rabs (x :: l)) in I.
        apply in_map_iff in I. destruct I as (z & E & I). rewrite <- E. now apply H.
      * rewrite <- Ey. apply Rmax_list_ge. change (Rabs x :: map Rabs l) with (map Rabs (x :: l)). now apply in_map.
Qed.

Lemma abs_max_nonempty l : l <> [] -> exists m, abs_max l = Some m.
Proof. unfold abs_max. destruct l; [congruence|]. simpl. eauto. Qed.

Lemma tab_get_map (g : R -> R) tab p : tab_get (map (fun pc => (fst pc, g (snd pc))) tab) p = option_map g (tab_get tab p).
Proof.
  induction tab as [|[q d] tab IH]; simpl; [reflexivity|]. destruct (path_eqb p q); [reflexivity|apply IH].
Qed.

Lemma rows_of_In {V} (f : frame V) p r : In r (rows_of f p) <-> In r (f_rows f) /\ r_path r = p.
Proof. unfold rows_of. rewrite filter_In, path_eqb_eq. reflexivity. Qed.

Lemma values_flat y p v : In v (flat_map r_vals (rows_of y p)) <-> values_of y p v.
Proof.
  rewrite in_flat_map. unfold values_of. split.
  - intros (r & Hr & Hv). apply rows_of_In in Hr. exists r. tauto.
  - intros (r & H1 & H2 & H3). exists r. rewrite rows_of_In. auto.
Qed.

Lemma mapM_tab (g : path -> res (path * R)) (h : path -> R) ps :
  (forall p, In p ps -> g p = Ok (p, h p)) -> mapM g ps = Ok (map (fun p => (p, h p)) ps).
Proof. intros H. apply mapM_map. exact H. Qed.

Lemma tab_get_graph (h : path -> R) ps p : In p ps -> tab_get (map (fun p => (p, h p)) ps) p = Some (h p).
Proof.
  induction ps as [|q ps IH]; [contradiction|]. intros Hp. simpl.
  destruct (path_eqb_spec p q) as [->|N]; [reflexivity|]. destruct Hp as [->|Hp]; [congruence|auto].
Qed.

Lemma one_column_vals y p r : one_column y -> In r (f_rows y) -> r_path r = p -> exists v, r_vals r = [v] /\ values_of y p v.
Proof.
  intros [W L] Hr E. destruct (W r Hr) as [Lr _]. rewrite L in Lr.
  destruct (r_vals r) as [|v [|]] eqn:Ev; try discriminate. exists v. split; [reflexivity|].
  exists r. rewrite Ev. simpl. auto.
Qed.

Lemma auto_scale_panel y : one_column y -> f_levels y <> 0%nat ->
  exists c, set_y_scales None y = Ok (STable (map (fun p => (p, c p)) (series_ids y))) /\
    forall p, In p (series_ids y) -> exists m, is_abs_max (flat_map r_vals (rows_of y p)) m /\ c p = replace01 m.
Proof.
  intros OC L.
  set (h := fun p => match abs_max (flat_map r_vals (rows_of y p)) with Some m => m | None => 0 end).
  assert (NE : forall p, In p (series_ids y) -> exists m, abs_max (flat_map r_vals (rows_of y p)) = Some m).
  { intros p Hp. apply abs_max_nonempty. apply series_ids_In in Hp. destruct Hp as (r & Hr & E).
    destruct (one_column_vals y p r OC Hr E) as (v & _ & Hv). apply values_flat in Hv. intros X. rewrite X in Hv. contradiction. }
  exists (fun p => replace01 (h p)). split.
  - unfold set_y_scales. destruct (f_levels y) eqn:El; [congruence|].
    rewrite (mapM_tab _ h).
    + simpl. now rewrite map_map.
    + intros p Hp. destruct (NE p Hp) as (m & E). unfold h. now rewrite E.
  - intros p Hp. destruct (NE p Hp) as (m & E). exists m. split; [now apply abs_max_spec|]. unfold h. now rewrite E.
Qed.

Lemma all_rows_path0 (y : frame R) (r : row R) : frame_wf y -> f_levels y = 0%nat -> In r (f_rows y) -> r_path r = [].
Proof. intros W L Hr. destruct (W r Hr) as [_ H]. rewrite L in H. now destruct (r_path r). Qed.

Lemma auto_scale_single y m : frame_wf y -> f_levels y = 0%nat -> is_abs_max (flat_map r_vals (f_rows y)) m ->
  set_y_scales None y = Ok (if Reqb m 0 then SInt 1 else SFloat m).
Proof.
  intros W L H. unfold set_y_scales. rewrite L. apply abs_max_spec in H. rewrite H. reflexivity.
Qed.

Lemma scale_rows_values op c y p v : values_of (scale_rows op c y) p v <-> exists v0, values_of y p v0 /\ v = op v0 (c p).
Proof.
  unfold values_of. simpl. split.
  - intros (r & Hr & E & Hv). apply in_map_iff in Hr. destruct Hr as (r0 & <- & Hr0). simpl in *. subst p.
    apply in_map_iff in Hv. destruct Hv as (v0 & <- & Hv0). exists v0. split; [|reflexivity]. exists r0. auto.
  - intros (v0 & (r0 & Hr0 & E & Hv0) & ->).
    exists (mkRow (r_path r0) (r_time r0) (map (fun v => op v (c (r_path r0))) (r_vals r0))). split.
    + apply in_map_iff. eauto.
    + simpl. split; [assumption|]. rewrite E. apply in_map_iff. exists v0. auto.
Qed.

(** normalisation, as a statement about the factor of every series *)
Lemma scaled_by y ys s : one_column y -> set_y_scales None y = Ok s -> scale_y false s y = Ok ys ->
  exists c, ys = scale_rows Rdiv c y /\
  forall p, In p (series_ids y) -> exists m, is_abs_max (flat_map r_vals (rows_of y p)) m /\
     ((m <> 0 /\ c p = m) \/ (m = 0 /\ c p = 1 /\ f_levels y <> 0%nat)).
Proof.
  intros OC Hs Hy. destruct (Nat.eq_dec (f_levels y) 0) as [L|L].
  - destruct (f_rows y) as [|r0 rs] eqn:Er.
    + exfalso. unfold set_y_scales in Hs. rewrite L, Er in Hs. simpl in Hs. discriminate.
    + assert (W : frame_wf y) by apply OC.
      assert (NE : flat_map r_vals (f_rows y) <> []).
      { destruct (one_column_vals y (r_path r0) r0 OC) as (v & E & _); [rewrite Er; simpl; auto|reflexivity|].
        rewrite Er. simpl. rewrite E. discriminate. }
      destruct (abs_max_nonempty _ NE) as (m & Em). apply abs_max_spec in Em.
      rewrite (auto_scale_single y m W L Em) in Hs. destruct (Reqb m 0) eqn:E0; injection Hs as <-; [discriminate|].
      apply Reqb_false in E0. unfold scale_y in Hy. rewrite (apply_scale_rows _ _ _ (fun _ => m)) in Hy.
      * injection Hy as <-. exists (fun _ => m). split; [reflexivity|]. intros p Hp. exists m. split; [|auto].
        assert (E : rows_of y p = f_rows y).
        { apply filter_all. intros r Hr. apply path_eqb_eq. apply series_ids_In in Hp. destruct Hp as (r1 & Hr1 & <-).
          rewrite (all_rows_path0 y r W L Hr), (all_rows_path0 y r1 W L Hr1). reflexivity. }
        rewrite E. exact Em.
      * reflexivity.
      * discriminate.
      * eauto.
  - destruct (auto_scale_panel y OC L) as (c & E & Hc). rewrite E in Hs. injection Hs as <-.
    unfold scale_y in Hy. rewrite (apply_scale_rows _ _ _ c) in Hy.
    + injection Hy as <-. exists c. split; [reflexivity|]. intros p Hp. destruct (Hc p Hp) as (m & Hm & ->).
      exists m. split; [assumption|]. unfold replace01. destruct (Reqb m 0) eqn:E0.
      * apply Reqb_true in E0. right. auto.
      * apply Reqb_false in E0. left. auto.
    + intros r Hr. simpl. apply tab_get_graph. apply series_ids_In. eauto.
    + intros; assumption.
    + eauto.
Qed.

Lemma auto_scale_bound y ys s p v : one_column y -> set_y_scales None y = Ok s -> scale_y false s y = Ok ys ->
  values_of ys p v -> -1 <= v <= 1.
Proof.
  intros OC Hs Hy Hv. destruct (scaled_by y ys s OC Hs Hy) as (c & -> & Hc).
  apply scale_rows_values in Hv. destruct Hv as (v0 & Hv0 & ->).
  assert (Hp : In p (series_ids y)) by (apply series_ids_In; destruct Hv0 as (r & ? & ? & _); eauto).
  destruct (Hc p Hp) as (m & [(x & Hx & Ex) Hb] & D). specialize (Hb v0 (proj2 (values_flat y p v0) Hv0)).
  assert (HB : forall a, 0 < a -> Rabs v0 <= a -> -1 <= v0 / a <= 1).
  { intros a Ha Hle. assert (- a <= v0 <= a) by (unfold Rabs in Hle; destruct (Rcase_abs v0); lra). assert (0 < / a) by now apply Rinv_0_lt_compat. split.
    - apply (Rmult_le_reg_r a); [assumption|]. unfold Rdiv. rewrite Rmult_assoc, Rinv_l by lra. lra.
    - apply (Rmult_le_reg_r a); [assumption|]. unfold Rdiv. rewrite Rmult_assoc, Rinv_l by lra. lra. }
  destruct D as [[D ->]|[D [-> _]]].
  - apply HB; [|assumption]. pose proof (Rabs_pos x). rewrite Ex in *. lra.
  - rewrite D in Hb. apply HB; lra.
Qed.

Lemma auto_scale_attained y ys s p v : one_column y -> set_y_scales None y = Ok s -> scale_y false s y = Ok ys ->
  values_of y p v -> v <> 0 -> exists w, values_of ys p w /\ Rabs w = 1.
Proof.
  intros OC Hs Hy Hv Hn. destruct (scaled_by y ys s OC Hs Hy) as (c & -> & Hc).
  assert (Hp : In p (series_ids y)) by (apply series_ids_In; destruct Hv as (r & ? & ? & _); eauto).
  destruct (Hc p Hp) as (m & [(x & Hx & Ex) Hb] & D). specialize (Hb v (proj2 (values_flat y p v) Hv)).
  pose proof (Rabs_pos_lt v Hn). assert (m <> 0) by lra. destruct D as [[_ D]|[D _]]; [|contradiction].
  exists (x / m). split.
  - apply scale_rows_values. exists x. rewrite D. split; [now apply values_flat|reflexivity].
  - unfold Rdiv. rewrite Rabs_mult, Ex, Rabs_inv. rewrite (Rabs_right m) by lra. now field.
Qed.

Lemma auto_scale_zero_series y ys s p : one_column y -> set_y_scales None y = Ok s -> scale_y false s y = Ok ys ->
  (forall v, values_of y p v -> v = 0) -> rows_of ys p = rows_of y p.
Proof.
  intros OC Hs Hy Hz. destruct (scaled_by y ys s OC Hs Hy) as (c & -> & Hc).
  unfold rows_of, scale_rows. simpl. 
  assert (G : forall l, (forall r, In r l -> In r (f_rows y)) ->
     filter (fun r => path_eqb (r_path r) p) (map (fun r => mkRow (r_path r) (r_time r) (map (fun v => v / c (r_path r)) (r_vals r))) l)
     = filter (fun r => path_eqb (r_path r) p) l).
  { induction l as [|r l IH]; intros Hl; simpl; [reflexivity|].
    rewrite IH by (intros; apply Hl; simpl; auto).
    destruct (path_eqb_spec (r_path r) p) as [E|N]; [|reflexivity]. f_equal.
    destruct r as [rp rt rv]. simpl in *. f_equal.
    assert (HV : forall v, In v rv -> v = 0).
    { intros v Hv. apply Hz. exists (mkRow rp rt rv). simpl. repeat split; auto. }
    clear -HV. induction rv as [|v rv IH]; simpl; [reflexivity|]. rewrite IH by (intros; apply HV; simpl; auto).
    rewrite (HV v) by (simpl; auto). f_equal. unfold Rdiv. lra. }
  now apply G.
Qed.
