(** Properties C64, C68, C69: parameters of the forecasters and of seasonal_transformer. *)
From Coq Require Import Reals String Bool ZArith List Lra.
From Verif.Model Require Import Base Num XFloat Params Effect TrendProg Forecaster.
From Verif.Spec Require Import ParamsSpec.
From Verif.Facts Require Import ParamsFacts.
Import ListNotations.
Local Open Scope string_scope.

(** * C64 Full statement: construction succeeds iff all positive hyperparameters are positive, and trend
    and likelihood are known.  Proved when no parameter is NaN; NaN passes every check. *)
Theorem C64_accepts_partial : forall hier h, (forall x, In x (numbers hier h) -> x <> XNaN) ->
  (validate hier h = Ok tt <-> (forall x, In x (numbers hier h) -> positive x) /\ known_trend h /\ known_likelihood hier h).
Proof. exact validate_partial. Qed.
Print Assumptions C64_accepts_partial.

Theorem C64_exact : forall hier h, validate hier h = Ok tt <->
  (forall x, In x (numbers hier h) -> positive x \/ x = XNaN) /\ known_trend h /\ known_likelihood hier h.
Proof. exact validate_exact. Qed.
Print Assumptions C64_exact.

Theorem C64_error : forall hier h e, validate hier h = Err e -> e = ValueError.
Proof. exact validate_error. Qed.
Print Assumptions C64_error.

Theorem C64_trend_built : forall hier h, validate hier h = Ok tt -> exists t, build_trend h = Ok t.
Proof. exact validated_builds. Qed.
Print Assumptions C64_trend_built.

(** which trend is built and what it is given; "linear" and "linear_raw" differ only in removing seasonality before suggesting values *)
Theorem C64_trend_arguments : forall h t, build_trend h = Ok t <->
  (h_trend h = TVName "linear" /\ t = BLinear (h_interval h) (h_changepoint_scale h) (h_offset_scale h) true) \/
  (h_trend h = TVName "linear_raw" /\ t = BLinear (h_interval h) (h_changepoint_scale h) (h_offset_scale h) false) \/
  (h_trend h = TVName "logistic" /\ t = BLogistic (h_interval h) (h_changepoint_scale h) (h_offset_scale h) (h_capacity_scale h) (h_capacity_loc h)) \/
  (h_trend h = TVName "flat" /\ t = BFlat (h_changepoint_scale h)) \/
  (h_trend h = TVEffect /\ t = BObject).
Proof. exact trend_arguments. Qed.
Print Assumptions C64_trend_arguments.

Theorem C64_names : forall c s, (exists t, named_trend c s = Ok t) <-> s = "linear" \/ s = "linear_raw" \/ s = "logistic" \/ s = "flat".
Proof. exact validated_named. Qed.
Print Assumptions C64_names.

Definition nan_params : hyperparams := mkHyper XNaN XNaN XNaN XNaN XNaN (TVName "linear") XNaN "normal" XNaN.
Theorem C64_nan_refuted : validate false nan_params = Ok tt /\ validate true nan_params = Ok tt /\
  forall x, In x (numbers true nan_params) -> ~ positive x.
Proof. split; [reflexivity|]. split; [reflexivity|]. simpl. intros x H. intuition (subst; contradiction). Qed.
Print Assumptions C64_nan_refuted.

Definition good_params : hyperparams :=
  mkHyper (XF 25) (XF 1) XPInf (XF 1) (XF 1) (TVName "flat") (XF 1) "gamma" (XF 1).
Example C64_nonvacuous : (forall x, In x (numbers true good_params) -> x <> XNaN) /\ (forall x, In x (numbers true good_params) -> positive x) /\
  known_trend good_params /\ known_likelihood false good_params /\ validate true good_params = Ok tt.
Proof.
  assert (Q : forall x, In x (numbers true good_params) -> positive x) by (simpl; intros x H; intuition (subst; simpl; auto; lra)).
  assert (T : known_trend good_params) by (right; exists "flat"; auto).
  assert (L : known_likelihood false good_params) by (right; auto).
  split; [intros x H ->; exact (Q _ H)|]. split; [exact Q|]. split; [exact T|]. split; [exact L|].
  apply validate_exact. split; [auto|]. split; [exact T|]. now left.
Qed.

Example C64_trend_nonvacuous : build_trend good_params = Ok (BFlat (XF 1)) /\ build_trend nan_params = Ok (BLinear XNaN XNaN XNaN true).
Proof. split; reflexivity. Qed.

(** * C68 *)
Theorem C68_settings : forall freq yearly weekly,
  seasonal_transformer freq yearly weekly =
  match terms_of 10 yearly, terms_of 3 weekly with
  | Some y, Some w =>
      Ok (mkFA freq ((match y with Some _ => ["Y"] | None => [] end) ++ (match w with Some _ => ["W"] | None => [] end))
               ((match y with Some n => [n] | None => [] end) ++ (match w with Some n => [n] | None => [] end)) true)
  | _, _ => Err ValueError
  end.
Proof. exact seasonal_exact. Qed.
Print Assumptions C68_settings.

Theorem C68_lengths : forall freq yearly weekly a, seasonal_transformer freq yearly weekly = Ok a ->
  List.length (fa_periods a) = List.length (fa_terms a) /\ ~ In 0%Z (fa_terms a).
Proof. exact seasonal_lengths. Qed.
Print Assumptions C68_lengths.

Example C68_nonvacuous : seasonal_transformer "D" (PyBool true) (PyInt 5) = Ok (mkFA "D" ["Y"; "W"] [10; 5]%Z true) /\
  seasonal_transformer "D" (PyInt 0) (PyBool true) = Ok (mkFA "D" ["W"] [3]%Z true) /\
  seasonal_transformer "D" (PyBool false) PyOther = Err ValueError.
Proof. repeat split. Qed.

(** * C69 Full statement: reading the effects as pairs and writing back an equally long list keeps every
    pattern at its position.  Proved for non-empty lists; the empty list cannot be written back. *)
Theorem C69_keeps_partial : forall (E : Type) (new : list (string * E)) (l : entries E), new <> [] -> List.length new = List.length l ->
  exists l', set_effects (map (fun ne => Pair (fst ne) (snd ne)) new) (Some l) = Ok l' /\
    List.length l' = List.length l /\ map snd l' = map snd l /\ get_effects (Some l') = new.
Proof. exact @set_keeps. Qed.
Print Assumptions C69_keeps_partial.

Theorem C69_write_back_partial : forall (E : Type) (l : entries E), l <> [] ->
  set_effects (map (fun ne => Pair (fst ne) (snd ne)) (get_effects (Some l))) (Some l) = Ok l.
Proof. exact @set_get. Qed.
Print Assumptions C69_write_back_partial.

Theorem C69_set_param_partial : forall (E : Type) name (new : E) (l : entries E), l <> [] ->
  exists l', set_param name new (Some l) = Ok l' /\ map (fun x => fst (fst x)) l' = map (fun x => fst (fst x)) l /\
    map snd l' = map snd l /\
    forall i n e r, nth_error l i = Some (n, e, r) ->
      (n <> name -> nth_error l' i = Some (n, e, r)) /\
      (n = name -> (forall j e' r', j < i -> nth_error l j <> Some (name, e', r')) -> nth_error l' i = Some (n, new, r)).
Proof. exact @set_param_keeps. Qed.
Print Assumptions C69_set_param_partial.

(** the empty list fails, a shorter list silently drops effects, triples fail *)
Theorem C69_empty_refuted : forall (E : Type), set_effects (map (fun ne => Pair (fst ne) (snd ne)) (get_effects (E := E) (Some []))) (Some []) = Err IndexError.
Proof. reflexivity. Qed.
Print Assumptions C69_empty_refuted.

Theorem C69_truncates : forall (E : Type) (new : list (string * E)) (l : entries E), new <> [] -> List.length new < List.length l ->
  exists l', set_effects (map (fun ne => Pair (fst ne) (snd ne)) new) (Some l) = Ok l' /\ List.length l' = List.length new.
Proof. exact @set_truncates. Qed.
Print Assumptions C69_truncates.

Theorem C69_triples_fail : forall (E : Type) n (e : E) r value o l,
  Forall (fun w => item_len w = 3) value -> set_effects (Triple n e r :: value) (Some (o :: l)) = Err ValueError.
Proof. exact @set_triples. Qed.
Print Assumptions C69_triples_fail.

Example C69_nonvacuous : set_param "b" 7 (Some [("a", 1, Some "x"); ("b", 2, None); ("b", 3, Some "y")]) =
  Ok [("a", 1, Some "x"); ("b", 7, None); ("b", 3, Some "y")].
Proof. reflexivity. Qed.
