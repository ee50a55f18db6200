(** Concrete fits and predictions for the training dates. *)
From Coq Require Import Reals String Bool ZArith List Sorted.
From Verif.Model Require Import Base Num XFloat Regex Frame Arr Expand Aggregate Scale Predict Prog Likelihood Trend Effect
  TrendProg Engine Forecaster History.
From Verif.Spec Require Import FrameSpec EffectSpec ForecasterSpec AlignSpec ShapeSpec InsampleSpec.
From Verif.Facts Require Import FrameFacts EffectExamples ForecasterExamples EngineExamples HistoryExamples PanelExamples.
Import ListNotations.
Local Open Scope string_scope.

(** one series *)
Lemma ex_y_ascending : frame_wf ex_y /\ f_levels ex_y = 0%nat /\ f_rows ex_y <> [] /\ ascending (labels ex_y).
Proof.
  split; [|split; [reflexivity|split; [discriminate|]]].
  - intros r Hr. simpl in Hr. rows_cases; split; reflexivity.
  - split; [repeat constructor|]. cbn. repeat constructor; simpl; intuition discriminate.
Qed.
Lemma Xu_ascending : frame_wf Xu /\ f_levels Xu = 0%nat /\ ascending (labels Xu).
Proof. split; [exact Xu_wf|]. split; [reflexivity|]. split; [repeat constructor|]. cbn. repeat constructor; simpl; intuition discriminate. Qed.

Lemma ex_transformers s X s' X' : ex_fit_transform s X = (s', Ok X') -> ex_transform s' X = Ok X' /\ labels X' = labels X.
Proof.
  unfold ex_fit_transform, ex_transform. intros E. injection E as <- E. split; [exact E|]. destruct s; [now injection E as <-|].
  unfold select_columns in E. destruct (mapM _ _) as [cs|]; [|discriminate]. injection E as <-. unfold labels. cbn [f_rows]. rewrite map_map. reflexivity.
Qed.

(** panels *)
Definition panel_fit (y : frame R) (X : option (frame R)) :=
  fit_forecaster ex_ns sorted_sets keep_all ex_fit_transform ex_svi ex_nuts ex_latent hier_config (no_objects None) y X.
Lemma panel_fits y X : succeeds (panel_fit y X) = true -> exists ob f, panel_fit y X = (ob, Ok f).
Proof. unfold succeeds. destruct (panel_fit y X) as [ob [f|]]; [now exists ob, f|discriminate]. Qed.
Lemma ex_fits : (exists ob f, panel_fit ex_yh (Some ex_Xh) = (ob, Ok f)) /\ (exists ob f, panel_fit ex_yh None = (ob, Ok f)).
Proof. split; apply panel_fits; vm_compute; reflexivity. Qed.
Lemma ex_yh_panel : frame_wf ex_yh /\ f_levels ex_yh <> 0%nat /\ f_rows ex_yh <> [] /\ balanced ex_yh /\ full_crossing ex_yh /\
  (forall r, In r (f_rows ex_yh) -> ~ In total_name (r_path r)).
Proof.
  split; [intros r Hr; simpl in Hr; rows_cases; split; reflexivity|]. split; [discriminate|]. split; [discriminate|]. split; [|split].
  - split; [cbn; repeat constructor; simpl; intuition discriminate|]. intros p t Hp Ht. simpl in *. rows_cases; auto.
  - intros p L H. destruct p as [|a [|b p]]; try discriminate. destruct (H 0%nat) as (r & Hr & E); [repeat constructor|]. simpl in E. subst a.
    exists r. split; [exact Hr|]. simpl in Hr. rows_cases; reflexivity.
  - intros r Hr. simpl in Hr. rows_cases; simpl; intuition discriminate.
Qed.
Lemma ex_Xh_bottom : loc_bottom_series ex_Xh = Ok ex_Xh.
Proof. reflexivity. Qed.

(** the phantom series of an unbalanced hierarchy *)
Definition size_of (n : string) (r : res (arr * trace)) : option (list nat) :=
  match r with
  | Ok (_, tr) => match find (fun s => String.eqb (fst s) n) tr with Some (_, SDet v) => Some (a_shape v) | _ => None end
  | Err _ => None
  end.
Lemma find_first (l l' : trace) g : find g (l ++ l')%list = match find g l with Some x => Some x | None => find g l' end.
Proof. induction l as [|x l IH]; [reflexivity|]. simpl. destruct (g x); [reflexivity|exact IH]. Qed.
Lemma same_sizes y m m' e a b : same_but_observed y m m' -> size_of "trend" (run e [] m) = Some a -> size_of "trend" (run e [] m') = Some b -> a = b.
Proof.
  intros H H1 H2. specialize (H e). destruct (run e [] m) as [[o tr]|]; [|discriminate]. destruct (run e [] m') as [[o' tr']|]; [|discriminate].
  destruct H as (before & d & v & -> & ->). unfold size_of in *. rewrite find_first in H1, H2.
  destruct (find _ before) as [[n [d0 v0 o0|v0|k]]|]; try discriminate; congruence.
Qed.
Lemma shops_balanced : balanced shops.
Proof. split; [cbn; repeat constructor; simpl; intuition discriminate|]. intros p t Hp Ht. simpl in *. rows_cases; auto 10. Qed.
Definition shops_fit_data := fit_data ex_ns sorted_sets keep_all ex_fit_transform hier_config (no_objects None).
Definition shops_sizes : option (list nat * list nat) :=
  match panel_fit shops None with
  | (ob, Ok f) =>
      match scale_y (discrete hier_config) (ft_scale f) shops with
      | Ok ys =>
          match shops_fit_data (ft_scale f) ys None with
          | (_, Ok (_, m)) =>
              match predict_model ex_ns keep_all ex_transform hier_config ob f shops None (Absolute (time_ids shops)) with
              | Ok m' => match size_of "trend" (run by_position [] m), size_of "trend" (run by_position [] m') with
                         | Some a, Some b => Some (a, b) | _, _ => None end
              | Err _ => None
              end
          | _ => None
          end
      | Err _ => None
      end
  | _ => None
  end.
Lemma shops_sizes_eq : shops_sizes = Some ([6; 1], [12; 1]).
Proof. vm_compute. reflexivity. Qed.
Lemma shops_differ : exists ob f ys ob2 p m m', panel_fit shops None = (ob, Ok f) /\ scale_y (discrete hier_config) (ft_scale f) shops = Ok ys /\
  shops_fit_data (ft_scale f) ys None = (ob2, Ok (p, m)) /\
  predict_model ex_ns keep_all ex_transform hier_config ob f shops None (Absolute (time_ids shops)) = Ok m' /\
  forall v, ~ same_but_observed v m m'.
Proof.
  pose proof shops_sizes_eq as H. unfold shops_sizes in H. destruct (panel_fit shops None) as [ob [f|]]; [|discriminate].
  destruct (scale_y _ _ shops) as [ys|] eqn:E1; [|discriminate]. destruct (shops_fit_data _ ys None) as [ob2 [[p m]|]] eqn:E2; [|discriminate].
  destruct (predict_model _ _ _ _ _ _ _ _ _) as [m'|] eqn:E3; [|discriminate].
  exists ob, f, ys, ob2, p, m, m'. repeat split; auto. intros v S0.
  destruct (size_of "trend" (run by_position [] m)) as [a|] eqn:A; [|discriminate].
  destruct (size_of "trend" (run by_position [] m')) as [b|] eqn:B; [|discriminate].
  pose proof (same_sizes v m m' _ _ _ S0 A B) as E. congruence.
Qed.
