(** Dates of the forecasts of a panel: every series counts from its own last date. *)
From Coq Require Import Reals String Bool ZArith Arith List Lia Permutation.
From Verif.Model Require Import Base Num XFloat Regex Frame Arr Expand Aggregate Scale Predict Prog Likelihood Trend Effect
  TrendProg Engine Forecaster Vectorized.
From Verif.Spec Require Import VectorizedSpec.
From Verif.Facts Require Import BaseFacts FrameFacts OrderFacts ScaleFacts PredictProps VectorizedFacts VectorizedProps.
Import ListNotations.

Lemma apply_scale_times op d s (y ys : frame R) : apply_scale op d s y = Ok ys -> map r_time (f_rows ys) = map r_time (f_rows y).
Proof.
  unfold apply_scale. destruct d; [intros [= <-]; reflexivity|]. destruct s as [c|z|tab|tab]; try discriminate.
  - intros [= <-]. unfold map_vals. cbn [f_rows]. rewrite map_map. reflexivity.
  - unfold scale_for_each_obs. destruct (f_levels y); [discriminate|]. destruct (mapM _ _) as [cs|] eqn:E; [|discriminate]. cbn [bind]. intros [= <-].
    unfold by_row. cbn [f_rows]. rewrite map_map. apply mapM_length in E. revert cs E. generalize (f_rows y). clear.
    induction l as [|r l IH]; intros cs L; [reflexivity|]. destruct cs; [discriminate|]. cbn. f_equal. apply IH. cbn in L. lia.
  - unfold scale_for_each_obs. destruct (f_levels y); [discriminate|]. destruct (mapM _ _) as [cs|] eqn:E; [|discriminate]. cbn [bind].
    unfold by_column. destruct (Nat.eqb _ _); [|discriminate]. intros [= <-]. unfold map_vals. cbn [f_rows]. rewrite map_map. reflexivity.
Qed.

Lemma frame_of_times levels cols index data f : frame_of levels cols index data = Ok f -> map r_time (f_rows f) = map snd index.
Proof.
  unfold frame_of. destruct (Nat.eqb_spec (List.length index) (List.length data)) as [L|]; [|discriminate]. intros [= <-]. cbn [f_rows]. rewrite map_map. cbn.
  revert data L. induction index as [|i index IH]; intros data L; [reflexivity|]. destruct data as [|d data]; [discriminate|]. cbn. f_equal. apply IH. cbn in L. lia.
Qed.

Section Any.
Variable ns_of : Z -> Z.
Variable keep : path -> bool.
Context {TS : Type}.
Variable tr_transform : TS -> frame R -> res (frame R).
Context {P : Type}.
Variable guide_draw : P -> Z -> nat -> prog arr -> env.
Variable complete_draw : env -> Z -> nat -> prog arr -> env.
Notation forecast_samples := (forecast_samples ns_of keep tr_transform guide_draw complete_draw).
Notation forecast_point := (forecast_point ns_of keep tr_transform guide_draw complete_draw).

Lemma samples_times c ob f y X fh o : c_hier c = false -> f_levels y = 0 -> snd (forecast_samples c ob f y X fh) = Ok o ->
  exists last, max_time (map r_time (f_rows y)) = Ok last /\ Permutation (map r_time (f_rows o)) (to_absolute last fh).
Proof.
  intros Hc L. unfold Forecaster.forecast_samples, fh_to_index. destruct (max_time _) as [last|] eqn:M; [|discriminate]. cbn [bind].
  destruct (predictive_samples_dict _ _ _ _ _ _ _ _ _ _ _) as [f' [ds|]]; cbn [snd bind]; [|discriminate].
  unfold predict_samples, labeller_of. cbn [lb_hier]. rewrite Hc.
  destruct (predict_samples_base _ _ _) as [s|] eqn:S; [|discriminate]. cbn [bind]. intros [= <-]. exists last. split; [reflexivity|].
  unfold predict_samples_base in S. destruct (dict_item ds "obs"%string) as [obs|]; [|discriminate]. cbn [bind] in S.
  destruct (a_shape obs) as [|n sh]; [discriminate|]. destruct (rows_of_width _ _) as [data|]; [|discriminate]. cbn [bind] in S.
  unfold periodindex_to_multiindex in S. cbn [lb_levels] in S. rewrite L in S. cbn [bind] in S.
  destruct (frame_of _ _ _ data) as [preds|] eqn:F; [|discriminate]. cbn [bind] in S.
  apply apply_scale_times in S. rewrite S. unfold sort_index. cbn [f_rows].
  apply frame_of_times in F. rewrite map_map in F. cbn [snd] in F. rewrite map_id in F. rewrite <- F.
  apply Permutation_map, Permutation_sym, key_sort_perm.
Qed.

Lemma point_times c ob f y X fh o : c_hier c = false -> f_levels y = 0 -> snd (forecast_point c ob f y X fh) = Ok o ->
  exists last, max_time (map r_time (f_rows y)) = Ok last /\ Permutation (map r_time (f_rows o)) (to_absolute last fh).
Proof.
  intros Hc L. unfold Forecaster.forecast_point. pose proof (samples_times c ob f y X fh) as H.
  destruct (forecast_samples c ob f y X fh) as [f' [s|]]; cbn [snd bind] in *; [|discriminate]. intros [= <-].
  destruct (H s Hc L eq_refl) as (last & M & Pm). exists last. split; [exact M|]. unfold point_forecast. cbn [f_rows]. rewrite map_map. exact Pm.
Qed.

Lemma c99_times c target levels (ms : list (path * member TS P)) X fh out p m : c_hier c = false -> NoDup (map fst ms) -> In (p, m) ms -> f_levels (m_y m) = 0 ->
  panel_point ns_of keep tr_transform guide_draw complete_draw c target levels ms X fh = Ok out ->
  exists last, max_time (map r_time (f_rows (m_y m))) = Ok last /\
    Permutation (map r_time (filter (fun r => if list_eq_dec string_dec (r_path r) p then true else false) (f_rows out))) (to_absolute last fh).
Proof.
  intros Hc ND I L H.
  assert (SX : single_X X p (option_map (fun X => series_frame X p) X)) by (destruct X; [apply single_frame|exact Logic.I]).
  destruct (c99_point ns_of keep tr_transform guide_draw complete_draw c target levels ms X fh out p m _ ND I SX H) as (o & Q & E).
  destruct (point_times _ _ _ _ _ _ _ Hc L Q) as (last & M & Pm). exists last. split; [exact M|]. rewrite E. unfold labelled. rewrite map_map. cbn [r_time]. exact Pm.
Qed.
End Any.

Lemma max_time_spec ts t : max_time ts = Ok t <-> In t ts /\ forall u, In u ts -> (u <= t)%Z.
Proof.
  destruct ts as [|x ts]; cbn [max_time]; [split; [discriminate|intros [[] _]]|].
  assert (G : forall l a, (forall u, In u (a :: l) -> (u <= fold_left Z.max l a)%Z) /\ In (fold_left Z.max l a) (a :: l)).
  { induction l as [|b l IH]; intros a; cbn [fold_left]; [split; [intros u [<-|[]]; lia|left; reflexivity]|].
    destruct (IH (Z.max a b)) as [H1 H2]. split.
    - intros u [<-|[<-|I]]; [| |apply H1; right; exact I]; (specialize (H1 _ (or_introl eq_refl)); lia).
    - destruct H2 as [H2|H2]; [|right; right; exact H2]. rewrite <- H2. destruct (Z.max_spec a b) as [[_ ->]|[_ ->]]; [right; left|left]; reflexivity. }
  destruct (G ts x) as [H1 H2]. split.
  - intros [= <-]. split; [exact H2|exact H1].
  - intros [I U]. f_equal. apply Z.le_antisymm; [apply U; exact H2|apply H1; exact I].
Qed.
