(** Where the observation model differs from the documentation. *)
From Coq Require Import Reals Lra ZArith String Bool List Lia Permutation Sorted.
From Verif.Model Require Import Base Num XFloat Frame Arr Prog Likelihood Effect Expand Trend TrendProg Aggregate Scale Engine Forecaster.
From Verif.Spec Require Import FrameSpec ProgSpec ForecasterSpec SiteSpec ScaleSpec ShapeSpec AlignSpec OverlapSpec ResponseSpec ObservedSpec.
From Verif.Facts Require Import BaseFacts NumFacts ProgFacts EffectExamples ForecasterExamples EngineExamples HistoryExamples ComponentExamples CounterExamples OverlapExamples ResponseExamples ObservedFacts ObservedForecaster ObservedDocs ObservedExamples.
Import ListNotations.
Local Open Scope string_scope.

Lemma level_unique tr names k s s' : level tr names k s -> level tr names k s' -> s = s'.
Proof.
  intros (vs & F & ->) (vs' & F' & ->). f_equal. revert vs' F'. induction F as [|n v ns vs (w & D & K) F IH]; intros vs' F'; inversion F' as [|? v' ? vs2 (w' & D' & K') F2]; subst; [reflexivity|].
  rewrite D in D'. injection D' as <-. rewrite K in K'. injection K' as <-. f_equal. now apply IH.
Qed.
Lemma level_moved tr tr' names k s : (forall n, In n ("trend" :: names) -> dict_get tr n = dict_get tr' n) -> level tr names k s -> level tr' names k s.
Proof.
  intros M (vs & F & ->). exists vs. split; [|reflexivity]. revert M F. generalize ("trend" :: names). intros l M F. induction F as [|n v ns vs (w & D & K) F IH]; constructor.
  - exists w. split; [rewrite <- (M n); [exact D|now left]|exact K].
  - apply IH. intros m Hm. apply M. now right.
Qed.

Section Forecaster.
Variable ns_of : Z -> Z.
Variable order : list string -> list string.
Variable keep : path -> bool.
Context {TS : Type}.
Variable tr_fit_transform : TS -> frame R -> TS * res (frame R).
Variable tr_transform : TS -> frame R -> res (frame R).
Context {P : Type}.
Variable svi_run : Z -> nat -> nat -> prog arr -> res (list xr * P).
Variable nuts_run : Z -> nat -> nat -> nat -> prog arr -> res (nat -> nat -> env).
Variable latent_sites : prog arr -> list string.
Notation fit_forecaster := (fit_forecaster ns_of order keep tr_fit_transform svi_run nuts_run latent_sites).
Notation predict_model := (predict_model ns_of keep tr_transform).

Theorem c105_floor c ob y X ob' (f : fitted (P := P)) : fit_forecaster c ob y X = (ob', Ok f) -> clean_config c -> c_hier c = false -> f_levels y = 0 -> c_likelihood c = "gamma" ->
  scalar_piecewise (o_trend ob') \/ flat_trend (o_trend ob') ->
  forall y2 X2 fh m cutoff ts Xt, predict_model c ob' f y2 X2 fh = Ok m -> max_time (map r_time (f_rows y2)) = Ok cutoff -> to_absolute cutoff fh = ts ->
  run_transform tr_transform ob' (supplied X2 ts) = Ok Xt -> covers Xt ts -> f_levels Xt = 0 ->
  forall e o tr k s, run e [] m = Ok (o, tr) -> (k < List.length ts)%nat -> (0 < e "noise_scale" 0%nat)%R -> level tr (map fst (p_effects (ft_prepared f))) k s -> (s <= -100000)%R ->
  exists a b v x r, dict_get tr "obs" = Some (SSample (DGamma a b) v false) /\ nth_error (a_flat a) k = Some x /\ nth_error (a_flat b) k = Some r /\ gamma_mean x r = (1 / 10000000000)%R /\ (documented_link s < gamma_mean x r)%R.
Proof.
  intros H CC Hc L HL TT y2 X2 fh m cutoff ts Xt HM HC HT HX CV LV e o tr k s RU K N LE S.
  destruct (c105_forecast ns_of order keep tr_fit_transform tr_transform svi_run nuts_run latent_sites _ _ _ _ _ _ H CC Hc L TT _ _ _ _ _ _ _ HM HC HT HX CV LV _ _ _ RU) as (_ & d & D & A).
  destruct (A k K) as (s' & LE' & LA). pose proof (level_unique _ _ _ _ _ LE LE') as <-. rewrite HL in LA. destruct LA as [[E _]|[(_ & a & b & x & r & -> & XA & XB & M)|[E _]]]; [discriminate| |discriminate].
  destruct (M N) as [M1 _]. destruct (link_floor s S) as [F1 F2]. exists a, b. eexists. exists x, r. split; [exact D|]. split; [exact XA|]. split; [exact XB|]. rewrite M1, F1. split; [reflexivity|exact F2].
Qed.

Theorem c105_counts c ob y X ob' (f : fitted (P := P)) : fit_forecaster c ob y X = (ob', Ok f) -> clean_config c -> c_hier c = false -> f_levels y = 0 -> c_likelihood c = "negbinomial" -> (0 < scale_number (ft_scale f))%R ->
  scalar_piecewise (o_trend ob') \/ flat_trend (o_trend ob') ->
  forall y2 X2 fh m cutoff ts Xt, predict_model c ob' f y2 X2 fh = Ok m -> max_time (map r_time (f_rows y2)) = Ok cutoff -> to_absolute cutoff fh = ts ->
  run_transform tr_transform ob' (supplied X2 ts) = Ok Xt -> covers Xt ts -> f_levels Xt = 0 ->
  forall e o tr e' o' tr' k, run e [] m = Ok (o, tr) -> run e' [] m = Ok (o', tr') -> (k < List.length ts)%nat -> (0 < e "noise_scale" 0%nat < e' "noise_scale" 0%nat)%R ->
  (forall n, In n ("trend" :: map fst (p_effects (ft_prepared f))) -> dict_get tr n = dict_get tr' n) ->
  exists a b v x r a' b' v' x' r', dict_get tr "obs" = Some (SSample (DNegBinomial2 a b) v false) /\ nth_error (a_flat a) k = Some x /\ nth_error (a_flat b) k = Some r /\
    dict_get tr' "obs" = Some (SSample (DNegBinomial2 a' b') v' false) /\ nth_error (a_flat a') k = Some x' /\ nth_error (a_flat b') k = Some r' /\
    nb2_mean x' r' = nb2_mean x r /\ (nb2_mean x' r' < nb2_var x' r' < nb2_var x r)%R.
Proof.
  intros H CC Hc L HL U TT y2 X2 fh m cutoff ts Xt HM HC HT HX CV LV e o tr e' o' tr' k RU RU' K N SA.
  destruct (c105_forecast ns_of order keep tr_fit_transform tr_transform svi_run nuts_run latent_sites _ _ _ _ _ _ H CC Hc L TT _ _ _ _ _ _ _ HM HC HT HX CV LV _ _ _ RU) as (_ & d & D & A).
  destruct (c105_forecast ns_of order keep tr_fit_transform tr_transform svi_run nuts_run latent_sites _ _ _ _ _ _ H CC Hc L TT _ _ _ _ _ _ _ HM HC HT HX CV LV _ _ _ RU') as (_ & d' & D' & A').
  destruct (A k K) as (s & LE & LA). destruct (A' k K) as (s' & LE' & LA'). pose proof (level_unique _ _ _ _ _ (level_moved _ _ _ _ _ SA LE) LE') as <-. rewrite HL in LA, LA'.
  destruct (counts_variance _ _ _ _ _ _ _ U N LA LA') as (a & b & x & r & a' & b' & x' & r' & -> & XA & XB & -> & XA' & XB' & E).
  exists a, b. eexists. exists x, r, a', b'. eexists. exists x', r'. split; [exact D|]. do 2 (split; [assumption|]). split; [exact D'|]. do 2 (split; [assumption|]). exact E.
Qed.
End Forecaster.

(** * concrete forecasts: a deeply negative sum, and twice the noise *)
Definition deep : env := fun n _ => if String.eqb n "noise_scale" then 1%R else (-200000)%R.
Definition loud : env := fun n _ => if String.eqb n "noise_scale" then 2%R else 1%R.
Definition steps_under (e : env) likelihood : option trace :=
  match comp_fit2 likelihood with
  | (ob, Ok f) => match predict_model ex_ns keep_all ex_transform (comp_config likelihood) ob f ex_y (Some Xo) hs1 with
      | Ok m => match run e [] m with Ok (_, tr) => Some tr | Err _ => None end
      | Err _ => None
      end
  | _ => None
  end.
Definition component (tr : option trace) n k : option R := match tr with Some t => match dict_get t n with Some (SDet w) => nth_error (a_flat w) k | _ => None end | None => None end.
Lemma deep_example : exists ob f m o tr s, comp_fit "gamma" = (ob, Ok f) /\ o_transformer ob = None /\ flat_trend (o_trend ob) /\ predict_model ex_ns keep_all ex_transform (comp_config "gamma") ob f ex_y (Some Xo) hs1 = Ok m /\
  run deep [] m = Ok (o, tr) /\ level tr (map fst (p_effects (ft_prepared f))) 0 s /\ (s <= -100000)%R.
Proof.
  assert (C0 : component (steps_under deep "gamma") "trend" 0 = Some (-200000)%R) by compute_real. assert (C1 : component (steps_under deep "gamma") "tv" 0 = Some (-200000)%R) by compute_real. assert (C2 : component (steps_under deep "gamma") "exogenous_variables_effect" 0 = Some (-2000000)%R) by compute_real.
  destruct (steps_univariate "gamma" ltac:(simpl; auto)) as (ob & f & m & _ & _ & _ & _ & _ & HF & TR & FT & HM & _). destruct (comp_runs "gamma" ltac:(simpl; auto)) as (ob1 & f1 & _ & _ & E1 & _ & _ & _ & _ & PE). rewrite HF in E1. injection E1 as <- <-.
  unfold steps_under in C0, C1, C2. rewrite <- comp_fit_eq, HF, HM in C0, C1, C2. destruct (run deep [] m) as [[o tr]|] eqn:RU; [|discriminate]. exists ob, f, m, o, tr, (-2400000)%R. do 5 (split; [assumption|]). split; [|lra]. rewrite PE.
  exists [(-200000)%R; (-200000)%R; (-2000000)%R]. split; [|cbn; lra].
  assert (W : forall n v, component (Some tr) n 0 = Some v -> exists w, dict_get tr n = Some (SDet w) /\ nth_error (a_flat w) 0 = Some v).
  { intros n v E. unfold component in E. destruct (dict_get tr n) as [[]|]; try discriminate. eexists. split; [reflexivity|exact E]. }
  repeat constructor; apply W; assumption.
Qed.
Lemma loud_example : exists ob f m o tr o' tr', comp_fit "negbinomial" = (ob, Ok f) /\ o_transformer ob = None /\ flat_trend (o_trend ob) /\ ft_scale f = SFloat 2 /\ predict_model ex_ns keep_all ex_transform (comp_config "negbinomial") ob f ex_y (Some Xo) hs1 = Ok m /\
  run one [] m = Ok (o, tr) /\ run loud [] m = Ok (o', tr') /\ (forall n, In n ("trend" :: map fst (p_effects (ft_prepared f))) -> dict_get tr n = dict_get tr' n).
Proof.
  assert (C : match steps_under loud "negbinomial", steps_under one "negbinomial" with Some t', Some t => forall n, In n ["trend"; "tv"; "exogenous_variables_effect"] -> dict_get t n = dict_get t' n | _, _ => False end).
  { set (t' := steps_under loud "negbinomial"). set (t := steps_under one "negbinomial"). vm_compute in t'. vm_compute in t. unfold t', t. clear t t'. intros n Hn. simpl in Hn. destruct Hn as [<-|[<-|[<-|[]]]]; vm_compute; reflexivity. }
  destruct (steps_univariate "negbinomial" ltac:(simpl; auto)) as (ob & f & m & _ & _ & _ & _ & _ & HF & TR & FT & HM & _). destruct (comp_runs "negbinomial" ltac:(simpl; auto)) as (ob1 & f1 & _ & _ & E1 & _ & _ & _ & SC & PE). rewrite HF in E1. injection E1 as <- <-.
  unfold steps_under in C. rewrite <- comp_fit_eq, HF, HM in C. destruct (run loud [] m) as [[o' tr']|] eqn:RU; [|destruct C]. destruct (run one [] m) as [[o tr]|] eqn:RO; [|destruct C].
  exists ob, f, m, o, tr, o', tr'. do 7 (split; [assumption|]). rewrite PE. exact C.
Qed.
