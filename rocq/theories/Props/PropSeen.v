(** Properties C24, C40, C41 for the table the effects are given, in particular when a feature transformer has made it.
    [effects_table] (Spec/SeenSpec.v) is that table. *)
From Coq Require Import Reals String Bool ZArith List.
From Verif.Model Require Import Base Num XFloat Regex Frame Arr Expand Aggregate Scale Predict Prog Likelihood Trend Effect
  TrendProg Engine Forecaster.
From Verif.Spec Require Import RegexSpec FrameSpec ProgSpec EffectSpec ForecasterSpec TransformerSpec SeenSpec.
From Verif.Facts Require Import EffectExamples ForecasterExamples TotalTransformedExamples SeenFacts.
Import ListNotations.
Local Open Scope string_scope.

Section Any.
Variable ns_of : Z -> Z.
Variable order : list string -> list string.
Variable keep : path -> bool.
Context {TS : Type}.
Variable tr_fit_transform : TS -> frame R -> TS * res (frame R).
Variable tr_transform : TS -> frame R -> res (frame R).
Context {P : Type}.
Variable svi_run : Z -> nat -> nat -> prog arr -> res (list xr * P).
Variable nuts_run : Z -> nat -> nat -> nat -> prog arr -> res (nat -> nat -> env).
Variable latent_sites : prog arr -> list string.
Notation fit_data := (fit_data ns_of order keep tr_fit_transform).
Notation fit_forecaster := (fit_forecaster ns_of order keep tr_fit_transform svi_run nuts_run latent_sites).
Notation predict_model := (predict_model ns_of keep tr_transform).
Notation effects_table := (effects_table order keep tr_fit_transform).

(** * C40 *)
(** A fit that succeeds has exactly one such table; the effects select their columns from it and the default effect gets the
    columns nobody selects. *)
Theorem C40_table : forall c ob s y X ob' p m, fit_data c ob s y X = (ob', Ok (p, m)) ->
  exists Xe main dflt, effects_table c ob ob' y X Xe /\ (forall Xe', effects_table c ob ob' y X Xe' -> Xe' = Xe) /\
    p_fitted p = (main ++ dflt)%list /\ Forall2 (fitted_from order (scale_number s) Xe) (effects_of c) main /\
    ((dflt = [] /\ forall col, ~ leftover (effects_of c) Xe col) \/
     (exists f, dflt = [f] /\ fe_name f = default_name /\ fe_cols f <> [] /\
        (forall col, In col (fe_cols f) <-> leftover (effects_of c) Xe col) /\
        exists XC, select_columns 0%R Xe (fe_cols f) = Ok XC /\
          fit order (clone (default_of (c_default c))) (Some XC) (scale_number s) = (fe_effect f, None))).
Proof.
  intros c ob s y X ob' p m H. destruct (table_of ns_of order keep tr_fit_transform c ob s y X ob' p m H) as (Xe & T & _).
  destruct (seen_columns ns_of order keep tr_fit_transform c ob s y X ob' p m Xe H T) as (main & dflt & K). exists Xe, main, dflt. split; [exact T|].
  split; [intros Xe' T'; exact (table_unique order keep tr_fit_transform c ob ob' y X Xe' Xe T' T)|exact K].
Qed.

(** * C24 *)
Theorem C24_table : forall c ob s y X ob' p m Xe, fit_data c ob s y X = (ob', Ok (p, m)) -> effects_table c ob ob' y X Xe -> f_rows Xe <> [] ->
  forall n, In n (dict_keys (p_effects p)) <->
    (exists l, In l (effects_of c) /\ l_name l = n /\ participates Xe l) \/ (n = default_name /\ exists col, leftover (effects_of c) Xe col).
Proof. exact (seen_names ns_of order keep tr_fit_transform). Qed.

(** * C41 Full statement: every entry of exogenous_effects whose pattern matches a column contributes a term to the location.
    Proved when names are distinct and not reserved (see PropForecaster.v for the other cases), for both forecasters. *)
Theorem C41_table_fit_partial : forall c ob s y X ob' p m Xe, fit_data c ob s y X = (ob', Ok (p, m)) -> effects_table c ob ob' y X Xe -> f_rows Xe <> [] ->
  NoDup (map l_name (effects_of c)) -> ~ In default_name (map l_name (effects_of c)) -> ~ In "trend" (map l_name (effects_of c)) ->
  forall l, In l (effects_of c) -> participates Xe l -> contributes order l Xe (scale_number s) m.
Proof. exact (seen_contributes ns_of order keep tr_fit_transform). Qed.
Theorem C41_table_predict_partial : forall c ob y X ob' f Xe, fit_forecaster c ob y X = (ob', Ok f) -> effects_table c ob ob' y X Xe -> f_rows Xe <> [] ->
  NoDup (map l_name (effects_of c)) -> ~ In default_name (map l_name (effects_of c)) -> ~ In "trend" (map l_name (effects_of c)) ->
  forall l, In l (effects_of c) -> participates Xe l ->
  forall ob2 y2 X2 fh m, predict_model c ob2 f y2 X2 fh = Ok m -> contributes order l Xe (scale_number (ft_scale f)) m.
Proof. exact (seen_forecast ns_of order keep tr_fit_transform tr_transform svi_run nuts_run latent_sites). Qed.
End Any.
Print Assumptions C40_table.
Print Assumptions C24_table.
Print Assumptions C41_table_fit_partial.
Print Assumptions C41_table_predict_partial.

(** A transformer adds the column web: the default effect gets it. *)
Example C24_C40_C41_table_nonvacuous :
  let r := fit_data ex_ns sorted_sets keep_all widen_fit (flat_config false [linear_tv]) wide_objects (SFloat 2) ex_y (Some Xtv) in
  succeeds r = true /\ effects_table sorted_sets keep_all widen_fit (flat_config false [linear_tv]) wide_objects (fst r) ex_y (Some Xtv) (widen 6 Xtv) /\
  option_map (fun p => map fe_cols (p_fitted p)) (prepared_of r) = Some [["tv"]; ["web"]] /\
  option_map (fun p => dict_keys (p_effects p)) (prepared_of r) = Some ["tv"; "exogenous_variables_effect"].
Proof.
  cbv zeta. split; [vm_compute; reflexivity|]. split; [|split; vm_compute; reflexivity].
  exists Xtv, (widen 6 Xtv). split; [reflexivity|]. split; [exists 6%R; split; reflexivity|reflexivity].
Qed.
(** The same for a panel: the added column is expanded like the others. *)
Example C24_C40_C41_table_nonvacuous_panel :
  let c := flat_config true [("tv", Linear Additive (DUser 0) base_init, Some "tv")] in
  let Xh := mkFrame 1 ["tv"] [mkRow ["a"] 0 [1]; mkRow ["a"] 1 [2]; mkRow ["b"] 0 [3]; mkRow ["b"] 1 [4]]%R in
  let r := fit_data ex_ns sorted_sets keep_all widen_fit c wide_objects (STable [(["__total"], 1%R); (["a"], 1%R); (["b"], 1%R)]) ex_yh (Some Xh) in
  succeeds r = true /\ (exists Xe, effects_table sorted_sets keep_all widen_fit c wide_objects (fst r) ex_yh (Some Xh) Xe /\ List.length (f_cols Xe) = 4 /\ f_rows Xe <> []) /\
  option_map (fun p => map (fun f => List.length (fe_cols f)) (p_fitted p)) (prepared_of r) = Some [2; 2].
Proof.
  cbv zeta. split; [vm_compute; reflexivity|]. split; [|vm_compute; reflexivity].
  eexists. split; [|split; [|]].
  - eexists _, _. split; [vm_compute; reflexivity|]. split; [exists 6%R; split; vm_compute; reflexivity|]. cbn. eexists. vm_compute. reflexivity.
  - reflexivity.
  - discriminate.
Qed.
