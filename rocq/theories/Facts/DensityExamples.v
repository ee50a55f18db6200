(** Concrete fits for the theorems about the joint density. *)
From Coq Require Import Reals Lra ZArith String Bool List Lia.
From Verif.Model Require Import Base Num XFloat Frame Arr Expand Aggregate Scale Prog Likelihood Effect Trend TrendProg Engine Forecaster.
From Verif.Spec Require Import FrameSpec ProgSpec ForecasterSpec SiteSpec ComponentSpec CounterSpec DensitySpec.
From Verif.Facts Require Import EffectExamples ForecasterExamples EngineExamples HistoryExamples AlignExamples ComponentExamples CounterExamples DensityForecaster.
Import ListNotations.
Local Open Scope string_scope.

(** no advertising in the training data *)
Definition X_quiet : frame R := mkFrame 0 ["tv"; "web"] [mkRow [] 0 [0; 10]; mkRow [] 1 [0; 20]; mkRow [] 7 [0; 30]]%R.
Definition quiet_data likelihood := fit_data ex_ns sorted_sets keep_all ex_fit_transform (comp_config likelihood) (no_objects None) (SFloat 2) ex_y (Some X_quiet).
(** another coefficient of advertising *)
Definition other : env := fun n j => if String.eqb n "tv/coefs" then 5%R else one n j.
(** as a density: the sum of the values *)
Definition total_value (d : distr) (v : arr) : R := Rsum (a_flat v).

Lemma other_agrees : agree_outside "tv" one other.
Proof. intros n N j. unfold other. destruct (String.eqb_spec n "tv/coefs") as [->|]; [|reflexivity]. exfalso. exact (N "coefs" eq_refl). Qed.

Definition quiet_ok (d : objects (TS := bool) * res (prepared * prog arr)) : Prop :=
  match d with
  | (ob, Ok (p, m)) => exists e1 e2, p_effects p = [("tv", e1); ("exogenous_variables_effect", e2)] /\
      p_fitted p = [("tv", e1, ["tv"]); ("exogenous_variables_effect", e2, ["web"])] /\ plain_effect e1 /\ input_feature_column_names e1 = Ok ["tv"] /\
      match run one [] m, run other [] m with
      | Ok (_, tr), Ok (_, tr') => map fst tr = ["trend_flat_coefficient"; "trend"; "tv/features_plate"; "tv/coefs"; "tv";
            "exogenous_variables_effect/features_plate"; "exogenous_variables_effect/coefs"; "exogenous_variables_effect"; "noise_scale"; "data"; "obs"]
      | _, _ => False
      end
  | _ => False
  end.
Lemma quiet_runs_ok likelihood : In likelihood ["normal"; "gamma"; "negbinomial"] -> quiet_ok (quiet_data likelihood).
Proof.
  intros H. simpl in H. destruct H as [<-|[<-|[<-|[]]]]; (eexists _, _; split; [reflexivity|]; split; [reflexivity|]; split; [exact I|]; split; [reflexivity|]; vm_compute; reflexivity).
Qed.
Lemma quiet_example likelihood : In likelihood ["normal"; "gamma"; "negbinomial"] -> exists ob p m ef o tr o' tr',
  quiet_data likelihood = (ob, Ok (p, m)) /\ In ("tv", ef) (p_effects p) /\ plain_effect ef /\ input_feature_column_names ef = Ok ["tv"] /\
  (forall ef' cols', In ("tv", ef', cols') (p_fitted p) -> ef' = ef /\ zero_columns cols' X_quiet) /\ run one [] m = Ok (o, tr) /\ run other [] m = Ok (o', tr') /\
  List.length (p_effects p) = 2%nat /\ List.length tr = 11%nat.
Proof.
  intros H. pose proof (quiet_runs_ok _ H) as Q. unfold quiet_ok in Q. destruct (quiet_data likelihood) as [ob [[p m]|]]; [|contradiction].
  destruct Q as (e1 & e2 & P1 & P2 & PE & IC & Q). destruct (run one [] m) as [[o tr]|] eqn:R1; [|contradiction]. destruct (run other [] m) as [[o' tr']|] eqn:R2; [|contradiction].
  exists ob, p, m, e1, o, tr, o', tr'. split; [reflexivity|]. split; [rewrite P1; now left|]. split; [exact PE|]. split; [exact IC|]. split.
  { intros ef' cols' I. rewrite P2 in I. destruct I as [[= <- <-]|[E|[]]]; [|discriminate]. split; [reflexivity|].
    intros r n v Ir In_ V. destruct In_ as [<-|[]]. simpl in Ir. destruct Ir as [<-|[<-|[<-|[]]]]; cbn in V; now injection V as <-. }
  split; [exact R1|]. split; [exact R2|]. split; [now rewrite P1|]. rewrite <- (map_length fst), Q. reflexivity.
Qed.

(** a lift experiment of which one result is missing *)
Definition lifted : effect := Lift (Linear Additive (DUser 0) base_init) [(0%Z, Some 4%R)] (1 / 2) base_init (Some 2%R).
Definition lifted_data : edata := ELift (EArr (mkArr [2; 1] [3; 5]%R)) [Some 2%R; None].
Lemma lifted_runs : exists v tr, run one [] (predict lifted lifted_data [("trend", mkArr [2; 1] [1; 1]%R)]) = Ok (v, tr) /\
  map fst tr = ["features_plate"; "coefs"; "lift_experiment"] /\ a_shape v = [2; 1].
Proof. eexists _, _. split; [reflexivity|]. split; reflexivity. Qed.
Lemma other_differs : one "tv/coefs" 0%nat <> other "tv/coefs" 0%nat.
Proof. change (1 <> 5)%R. intros H. lra. Qed.

Lemma quiet_value : forall likelihood, In likelihood ["normal"; "gamma"; "negbinomial"] -> forall ob p m o tr o' tr',
  quiet_data likelihood = (ob, Ok (p, m)) -> run one [] m = Ok (o, tr) -> run other [] m = Ok (o', tr') ->
  (log_joint total_value tr - log_joint total_value tr' = - 4)%R.
Proof.
  intros l H ob p m o tr o' tr' Q R R'. destruct (quiet_example l H) as (ob1 & p1 & m1 & ef & o1 & tr1 & o1' & tr1' & E & I & PE & IC & Z & R1 & R1' & _).
  rewrite Q in E. injection E as <- <- <-.
  assert (RC : rectangular X_quiet) by (repeat constructor).
  rewrite (DensityForecaster.c100_silent ex_ns sorted_sets keep_all ex_fit_transform total_value _ _ _ _ _ _ _ _ Q (comp_clean l) eq_refl eq_refl eq_refl RC _ _ _ _ _ _ _ _ _ I PE IC Z other_agrees R R').
  destruct ef as [md prior b|md sp rp b| | |]; try contradiction.
  - unfold own_prior, total_value, drawn, own_env, other, one. cbn. lra.
  - exfalso. simpl in H. destruct H as [<-|[<-|[<-|[]]]]; vm_compute in Q; injection Q as <- <- <-; cbn in I; destruct I as [I|[I|[]]]; discriminate.
Qed.
