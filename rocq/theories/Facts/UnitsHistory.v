(** A change of units of the target: sequences of calls. *)
From Coq Require Import Reals String Bool ZArith List Lia Lra.
From Verif.Model Require Import Base Num XFloat Frame Arr Expand Aggregate Scale Predict Prog Likelihood Trend Effect TrendProg Engine Forecaster History.
From Verif.Spec Require Import FrameSpec ScaleSpec ForecasterSpec HistorySpec UnitsSpec.
From Verif.Facts Require Import BaseFacts NumFacts FrameFacts UnitsFacts UnitsForecaster HistoryFacts.
Import ListNotations.
Local Open Scope R_scope.

Section Units.
Variable ns_of : Z -> Z.
Variable order : list string -> list string.
Variable keep : path -> bool.
Context {TS : Type}.
Variable tr_fit_transform : TS -> frame R -> TS * res (frame R).
Variable tr_transform : TS -> frame R -> res (frame R).
Context {P : Type}.
Variable svi_run : Z -> nat -> nat -> prog arr -> res (list xr * P).
Variable nuts_run : Z -> nat -> nat -> nat -> prog arr -> res (nat -> nat -> env).
Variable latent_sites : prog arr -> list string.
Variable guide_draw : P -> Z -> nat -> prog arr -> env.
Variable complete_draw : env -> Z -> nat -> prog arr -> env.
Notation step := (step ns_of order keep tr_fit_transform tr_transform svi_run nuts_run latent_sites guide_draw complete_draw).
Notation calls := (calls ns_of order keep tr_fit_transform tr_transform svi_run nuts_run latent_sites guide_draw complete_draw).
Notation do_fit := (do_fit ns_of order keep tr_fit_transform svi_run nuts_run latent_sites).
Notation fitted := (fitted (P := P)).
Notation objects := (objects (TS := TS)).
Notation state := (state (TS := TS) (P := P)).

(** fitting keeps trend objects free of lift experiments *)
Lemma fit_lift_free e X s : lift_free e -> lift_free (fst (fit order e X s)).
Proof.
  intros H. assert (B : fit order e X s = base_fit order e X) by (destruct e; try reflexivity; destruct H). rewrite B. unfold base_fit.
  destruct (_ && _)%bool; [exact H|].
  assert (H1 : lift_free (set_cols e (columns_seen X))) by (destruct e; exact H).
  apply (inner_fit_lift_free order) with (X := X) in H1. destruct (inner_fit order _ X) as [e1 [x|]]; [exact H1|]. destruct e1; exact H1.
Qed.
Lemma trend_fit_keeps t X y s : lift_free_trend t -> lift_free_trend (fst (trend_fit ns_of order t X y s)).
Proof.
  destruct t as [p c b f| |e]; intros H; unfold trend_fit.
  - destruct (Trend.piecewise_fit ns_of p y); exact I.
  - exact I.
  - assert (F := fit_lift_free e X s H). destruct (fit order e X s). exact F.
Qed.

Definition free_object (c : config) (ob : objects) : Prop := c_hier c = true -> c_trend c = TrendObject -> lift_free_trend (o_trend ob).

Lemma free_model c ob t : free_object c ob -> c_hier c = true -> get_trend_model c ob = Ok t -> lift_free_trend t.
Proof.
  intros F H. specialize (F H). unfold get_trend_model. destruct (c_trend c) as [s|].
  - unfold named_trend. intros E. repeat match type of E with context [if ?b then _ else _] => destruct b end; inversion E; exact I.
  - intros [= <-]. auto.
Qed.

Lemma hierarchical_keeps c (ob : objects) s y X : c_hier c = true -> free_object c ob ->
  free_object c (fst (hierarchical_fit_data ns_of order keep tr_fit_transform c ob s y X)).
Proof.
  intros H F _ T. specialize (F H T). unfold hierarchical_fit_data. destruct (loc_bottom_series (aggregate keep y)) as [yb|]; [|exact F].
  destruct (series_to_tensor yb); [|exact F]. cbv zeta. destruct (loc_bottom_series (match X with None => _ | Some X => _ end)) as [Xb|]; [|exact F].
  destruct (run_fit_transform tr_fit_transform ob Xb) as [ob' [Xb'|e]] eqn:E; apply run_fit_transform_trend in E; [|simpl; rewrite E; exact F].
  set (ex := if negb (no_columns Xb') then _ else _). destruct ex as [[Xe ex]|]; [|simpl; rewrite E; exact F].
  assert (G : get_trend_model c ob' = Ok (o_trend ob)) by (unfold get_trend_model; rewrite T, E; reflexivity). rewrite G.
  assert (K := trend_fit_keeps (o_trend ob) (Some Xe) yb (scale_number s) F).
  destruct (trend_fit ns_of order (o_trend ob) (Some Xe) yb (scale_number s)) as [t' err]. exact K.
Qed.

Lemma fit_keeps c (ob : objects) y X : free_object c ob ->
  free_object c (fst (fit_forecaster ns_of order keep tr_fit_transform svi_run nuts_run latent_sites c ob y X)).
Proof.
  intros F H. assert (F' := F). revert F'. unfold fit_forecaster. destruct (s <- _ ;; _) as [[s ys]|]; [|intros F'; apply F'; assumption]. unfold fit_data. rewrite H.
  intros F'. assert (K := hierarchical_keeps c ob s ys X H F). destruct (hierarchical_fit_data _ _ _ _ c ob s ys X) as [ob' r]. exact (K H).
Qed.

Section Run.
Variable k : R.
Hypothesis kpos : 0 < k.
Notation rf := (rescale_frame k).
Variables c c' : config.
Hypothesis auto : c_scale c = None.
Hypothesis cont : discrete c = false.

Definition rel (s s' : state) : Prop :=
  st_objects s' = st_objects s /\ st_y s' = rf (st_y s) /\ st_X s' = st_X s /\ free_object c (st_objects s) /\
  match st_fitted s, st_fitted s' with
  | None, None => True
  | Some f, Some f' => rel_fitted k f f' /\ exists k0, c' = rescale_config k0 c
  | _, _ => False
  end.

Lemma do_fit_units s s' y X : rel s s' -> comparable k c c' y ->
  rel (fst (do_fit c s y X)) (fst (do_fit c' s' (rf y) X)) /\ snd (do_fit c' s' (rf y) X) = rescale_result k (snd (do_fit c s y X)).
Proof.
  intros (O & _ & _ & F & _) [Z ->]. unfold do_fit. rewrite O.
  assert (U := fit_units ns_of order keep tr_fit_transform svi_run nuts_run latent_sites k kpos c (st_objects s) y X auto cont Z (fun H t => free_model c _ t F H)).
  assert (K := fit_keeps c (st_objects s) y X F).
  destruct (fit_forecaster _ _ _ _ _ _ _ c (st_objects s) y X) as [ob r]. destruct (fit_forecaster _ _ _ _ _ _ _ (rescale_config _ c) (st_objects s) (rf y) X) as [ob' r'].
  cbn [fst snd] in *. destruct U as [-> U]. destruct r as [f|e], r' as [f'|e']; try contradiction.
  - cbn [fst snd]. split; [|reflexivity]. repeat (split; [first [reflexivity|exact K]|]). cbn [st_fitted]. split; [exact U|eauto].
  - subst e'. cbn [fst snd]. split; [|reflexivity]. repeat (split; [first [reflexivity|exact K]|]). exact I.
Qed.

Lemma step_units s s' cl : rel s s' -> (refits cl -> comparable k c c' (st_y (fst (step c s cl)))) ->
  rel (fst (step c s cl)) (fst (step c' s' (rescale_call k cl))) /\ snd (step c' s' (rescale_call k cl)) = rescale_result k (snd (step c s cl)).
Proof.
  intros H C. destruct cl as [y X|y X b|m X fh].
  - simpl rescale_call. cbn [History.step] in *. apply do_fit_units; [assumption|].
    specialize (C (or_introl (ex_intro _ y (ex_intro _ X eq_refl)))). revert C. unfold do_fit.
    destruct (fit_forecaster _ _ _ _ _ _ _ c (st_objects s) y X) as [ob [f|e]]; exact (fun x => x).
  - simpl rescale_call. cbn [History.step] in *. assert (H0 := H). destruct H0 as (O & Y & E & F & G). rewrite E, Y, combine_first_rf.
    destruct (st_fitted s) as [f|] eqn:Ef, (st_fitted s') as [f'|] eqn:Ef'; try contradiction; [|split; [exact H|reflexivity]].
    destruct (combine_first y (st_y s)) as [y2|e]; cbn [rmap]; [|split; [exact H|reflexivity]].
    destruct (match X with None => _ | Some X => _ end) as [X2|e]; [|split; [exact H|reflexivity]].
    destruct b.
    + apply do_fit_units; [assumption|].
      specialize (C (or_intror (ex_intro _ y (ex_intro _ X eq_refl)))). revert C. unfold do_fit.
      destruct (fit_forecaster _ _ _ _ _ _ _ c (st_objects s) y2 X2) as [ob [g|e]]; exact (fun x => x).
    + split; [|reflexivity]. cbn [fst]. repeat (split; [first [reflexivity|assumption]|]). exact G.
  - simpl rescale_call. cbn [History.step] in *. assert (H0 := H). destruct H0 as (O & Y & E & F & G).
    destruct (st_fitted s) as [f|] eqn:Ef, (st_fitted s') as [f'|] eqn:Ef'; try contradiction; [|split; [exact H|reflexivity]].
    destruct G as [G [k0 ->]]. rewrite O, Y.
    assert (M := method_units ns_of keep tr_transform guide_draw complete_draw k kpos k0 c (st_objects s) f f' (st_y s) m X fh cont G).
    destruct (call_method _ _ _ _ _ c (st_objects s) f (st_y s) m X fh) as [g r]. destruct (call_method _ _ _ _ _ (rescale_config k0 c) (st_objects s) f' (rf (st_y s)) m X fh) as [g' r'].
    cbn [fst snd] in *. destruct M as [M ->]. split; [|reflexivity]. split; [reflexivity|]. split; [reflexivity|]. split; [exact E|]. split; [exact F|]. split; [exact M|eauto].
Qed.

Lemma calls_units cs s s' : rel s s' ->
  (forall before a after, cs = before ++ a :: after -> refits a -> comparable k c c' (st_y (fst (step c (calls c s before) a)))) ->
  rel (calls c s cs) (calls c' s' (map (rescale_call k) cs)).
Proof.
  revert s s'. induction cs as [|a cs IH]; intros s s' H C; [exact H|]. cbn [History.calls fold_left map]. apply IH.
  - apply step_units; [assumption|]. intros Ra. apply (C [] a cs eq_refl Ra).
  - intros before b after -> Rb. apply (C (a :: before) b after eq_refl Rb).
Qed.

Lemma c05 ob cs cl : (c_hier c = true -> c_trend c = TrendObject -> lift_free_trend (o_trend ob)) ->
  (forall before a after, cs ++ [cl] = before ++ a :: after -> refits a -> comparable k c c' (st_y (fst (step c (calls c (new_state ob) before) a)))) ->
  snd (step c' (calls c' (new_state ob) (map (rescale_call k) cs)) (rescale_call k cl)) = rescale_result k (snd (step c (calls c (new_state ob) cs) cl)).
Proof.
  intros T C. apply step_units.
  - apply calls_units; [repeat split; exact T|]. intros before a after -> Ra. apply (C before a (after ++ [cl])); [|assumption]. rewrite <- app_assoc. reflexivity.
  - intros Rc. apply (C cs cl []); [reflexivity|assumption].
Qed.
End Run.

(** without lift experiments nothing needs to be rescaled *)
Lemma lift_free_config_id k c : lift_free_config c -> rescale_config k c = c.
Proof.
  intros [E D]. destruct c as [h t i r cs os cp cl e d n l sc sh co m ke st op sa w ch]. unfold rescale_config, effects_of in *. simpl in *. f_equal.
  - destruct e as [l0|]; [|reflexivity]. simpl. f_equal. induction l0 as [|[[a b] x] l0 IH]; [reflexivity|]. simpl. rewrite IH by (intros; apply E; right; assumption).
    rewrite lift_free_id by (apply (E _ (or_introl eq_refl))). reflexivity.
  - destruct d as [e0|]; [|reflexivity]. simpl. rewrite lift_free_id by auto. reflexivity.
Qed.

Lemma c05_forecast k (kpos : 0 < k) c : c_scale c = None -> discrete c = false -> lift_free_config c -> forall ob y X m X' fh,
  (c_hier c = true -> c_trend c = TrendObject -> lift_free_trend (o_trend ob)) -> no_zero_series y ->
  snd (step c (calls c (new_state ob) [Fit (rescale_frame k y) X]) (Predict m X' fh)) =
  rescale_result k (snd (step c (calls c (new_state ob) [Fit y X]) (Predict m X' fh))).
Proof.
  intros A D L ob y X m X' fh T Z. apply (c05 k kpos c c A D ob [Fit y X] (Predict m X' fh) T).
  intros before a after E Ra. destruct before as [|b before].
  - simpl in E. injection E as <- _. cbn [History.step]. unfold History.do_fit.
    assert (C : comparable k c c y) by (split; [exact Z|symmetry; apply lift_free_config_id; exact L]).
    destruct (fit_forecaster _ _ _ _ _ _ _ c _ y X) as [ob' [f|e]]; exact C.
  - exfalso. simpl in E. injection E as _ E. destruct before as [|b' before]; simpl in E.
    + injection E as <- _. destruct Ra as [(? & ? & Ra)|(? & ? & Ra)]; discriminate.
    + injection E as _ E. destruct before; discriminate.
Qed.
End Units.
