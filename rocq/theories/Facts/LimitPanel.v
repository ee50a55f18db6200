(** Logistic trends of panels stay between zero and the capacity. *)
From Coq Require Import Reals Lra ZArith Sorted String Ascii Bool List Lia Permutation Sorted.
From Verif.Model Require Import Base Num XFloat Frame Arr Prog Effect Expand Trend TrendProg Aggregate Scale Engine Forecaster.
From Verif.Spec Require Import RegexSpec FrameSpec ProgSpec EffectSpec ForecasterSpec SiteSpec ShapeSpec AlignSpec OverlapSpec ResponseSpec ObservedSpec ComponentSpec TrendSpec DocsSpec UpwardSpec SeasonSpec LimitSpec.
From Verif.Facts Require Import BaseFacts FrameFacts ForecasterFacts ForecasterInv ModelProps OrderFacts DensityFacts DocsForecaster ResponseFacts ResponseEffects ResponseForecaster ResponsePanel ResponseRead ResponseHierarchical ObservedForecaster UpwardFacts UpwardForecaster UpwardPanel LimitFacts.
Import ListNotations.
Local Open Scope string_scope.

Section Any.
Variable ns_of : Z -> Z.
Variable order : list string -> list string.
Variable keep : path -> bool.
Context {TS : Type}.
Variable tr_fit_transform : TS -> frame R -> TS * res (frame R).
Variable tr_transform : TS -> frame R -> res (frame R).
Context {P : Type}.
Variable svi_run : Z -> nat -> nat -> prog arr -> res (list xr * P).
Variable nuts_run : Z -> nat -> nat -> nat -> prog arr -> res (nat -> nat -> env).
Variable latent_sites : prog arr -> list string.
Notation fit_forecaster := (fit_forecaster ns_of order keep tr_fit_transform svi_run nuts_run latent_sites).
Notation predict_model := (predict_model ns_of keep tr_transform).
Lemma c121_panel_saturated : forall c ob y X ob' (f : fitted (P := P)) iv rg (K : nat), fit_forecaster c ob y X = (ob', Ok f) -> c_hier c = true -> f_levels y <> 0 -> frame_wf y ->
  (forall r, In r (f_rows y) -> ~ In "__total" (r_path r)) -> balanced y -> clean_config c -> piecewise_options (o_trend ob') iv rg true -> (0 < iv)%R ->
  forall ds, StronglySorted Z.lt ds -> (forall t, In t ds <-> In t (map r_time (f_rows y))) -> increasing (map (fun t => day (ns_of t)) ds) -> changepoint_count (List.length ds) iv rg K ->
  forall y2 X2 fh m cutoff ts, predict_model c ob' f y2 X2 fh = Ok m -> max_time (map snd (p_index (ft_prepared f))) = Ok cutoff -> to_absolute cutoff fh = ts -> NoDup ts ->
  forall e o tr, run e [] m = Ok (o, tr) ->
  forall i j t, i < List.length (series_ids y) -> (0 < e "capacity" i)%R -> nth_error ts j = Some t -> exists trend, component_at tr "trend" (i * List.length ts + j) trend /\ (0 < trend < e "capacity" i)%R.
Proof.
  intros c ob y X ob' f iv rg K HF Hc L Wy NT BA HC PO IV ds SD DS INC CC y2 X2 fh m cutoff ts M KC H N e o tr RU i j t Hi CP J.
  destruct (c103_hierarchical ns_of order keep tr_fit_transform tr_transform svi_run nuts_run latent_sites _ _ _ _ _ _ _ _ _ _ HF Hc L Wy NT BA HC PO IV _ SD DS INC CC _ _ _ _ _ _ M KC H N _ _ _ RU) as (tv & TV & A & _).
  eexists. split; [exists tv; split; [exact TV|apply (A _ _ _ Hi J)]|]. apply saturated. exact CP.
Qed.
End Any.
