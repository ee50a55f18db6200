(** Concrete forecasters *)
From Coq Require Import Reals String Bool ZArith List Lia Lra Permutation.
From Verif.Model Require Import Base Num XFloat Regex Frame Arr Expand Aggregate Scale Predict Prog Likelihood Trend Effect
  TrendProg Engine Forecaster.
From Verif.Spec Require Import FrameSpec ProgSpec EffectSpec ForecasterSpec.
From Verif.Facts Require Import BaseFacts NumFacts FrameFacts ProgFacts EffectFacts EffectFourier EffectExamples ForecasterFacts ForecasterInv ForecasterProps.
Import ListNotations.
Local Open Scope string_scope.

(** feature transformers of the examples: [true] keeps the frame, [false] keeps only the column "web" *)
Definition ex_fit_transform (k : bool) (X : frame R) : bool * res (frame R) :=
  (k, if k then Ok X else select_columns 0%R X ["web"]).
Definition ex_transform (k : bool) (X : frame R) : res (frame R) := if k then Ok X else select_columns 0%R X ["web"].

Definition ex_ns (t : Z) : Z := (t * 86400000000000)%Z.
Definition keep_all (p : path) : bool := true.

Definition flat_config (hier : bool) (effects : list listed) : config :=
  mkConfig hier (TrendName "flat") 25 (4 / 5) (1 / 1000) (1 / 10) (1 / 5) (11 / 10) (Some effects) None (1 / 20) "normal" (Some (SFloat 2)) None 1
    "map" None 10 0 5 5 1.
Definition linear_tv : listed := ("tv", Linear Additive (DUser 0) base_init, Some "tv").
Definition no_objects (k : option bool) : objects := mkObjects (TFlat 1 base_init None) k.

Definition ex_y : frame R := mkFrame 0 ["y"] [mkRow [] 0 [3]; mkRow [] 1 [4]; mkRow [] 7 [8]]%R.

(** the program of a fit, and entry i of a site of a run *)
Definition program {A B} (r : A * res (B * prog arr)) : prog arr := match snd r with Ok (_, m) => m | Err e => Raise e end.
Definition value_of (e : env) (m : prog arr) (n : string) (i : nat) : option R :=
  match run e [] m with
  | Ok (_, tr) => match dict_get tr n with Some (SDet v) | Some (SSample _ v _) => nth_error (a_flat v) i | _ => None end
  | Err _ => None
  end.
Definition succeeds {A B} (r : A * res B) : bool := match snd r with Ok _ => true | Err _ => false end.

Ltac compute_real := match goal with |- ?l = Some ?r => let v := eval lazy -[IZR Rplus Rmult Rdiv Rminus Ropp Rinv] in l in
  replace l with v by (vm_cast_no_check (eq_refl v)); apply (f_equal (@Some R)); lra end.

Definition sites_of (e : env) (m : prog arr) : list string := match run e [] m with Ok (_, tr) => map fst tr | Err _ => [] end.
Definition prepared_of {A B} (r : A * res (prepared * B)) : option prepared := match snd r with Ok (p, _) => Some p | Err _ => None end.
Definition fit_ex (effects : list listed) (k : option bool) (X : option (frame R)) :=
  fit_data ex_ns sorted_sets keep_all ex_fit_transform (flat_config false effects) (no_objects k) (SFloat 2) ex_y X.

(** a fit on [Xu] (columns tv, web) with one listed effect: the other column goes to the default effect *)
Lemma ex_fit_data : succeeds (fit_ex [linear_tv] None (Some Xu)) = true /\
  option_map (fun p => dict_keys (p_effects p)) (prepared_of (fit_ex [linear_tv] None (Some Xu))) = Some ["tv"; "exogenous_variables_effect"] /\
  option_map (fun p => map fe_cols (p_fitted p)) (prepared_of (fit_ex [linear_tv] None (Some Xu))) = Some [["tv"]; ["web"]] /\
  sites_of (fun _ _ => 1%R) (program (fit_ex [linear_tv] None (Some Xu))) =
    ["trend_flat_coefficient"; "trend"; "tv/features_plate"; "tv/coefs"; "tv";
     "exogenous_variables_effect/features_plate"; "exogenous_variables_effect/coefs"; "exogenous_variables_effect"; "noise_scale"; "data"; "obs"].
Proof. split; [|split; [|split]]; vm_compute; reflexivity. Qed.

(** the same with other values in column tv *)
Definition Xu' : frame R := mkFrame 0 ["tv"; "web"] [mkRow [] 0 [5; 10]; mkRow [] 1 [6; 20]; mkRow [] 7 [7; 30]]%R.
Definition twice (n1 n2 : string) : list listed :=
  [(n1, Linear Additive (DUser 0) base_init, Some "tv"); (n2, Linear Additive (DUser 0) base_init, Some "web")].

Lemma ex_same_name : exists ob' p m, fit_ex (twice "a" "a") None (Some Xu) = (ob', Ok (p, m)) /\
  fit_ex (twice "a" "a") None (Some Xu') = (ob', Ok (p, m)) /\ dict_keys (p_effects p) = ["a"] /\ map fe_cols (p_fitted p) = [["tv"]; ["web"]].
Proof. eexists _, _, _. repeat split. Qed.

Lemma ex_default_name : exists ob' p m, fit_ex [(default_name, Linear Additive (DUser 0) base_init, Some "tv")] None (Some Xu) = (ob', Ok (p, m)) /\
  fit_ex [(default_name, Linear Additive (DUser 0) base_init, Some "tv")] None (Some Xu') = (ob', Ok (p, m)) /\
  dict_keys (p_effects p) = [default_name] /\ map fe_cols (p_fitted p) = [["tv"]; ["web"]].
Proof. eexists _, _, _. repeat split. Qed.

Lemma ex_distinct_names : succeeds (fit_ex (twice "a" "b") None (Some Xu)) = true /\ succeeds (fit_ex (twice "a" "b") None (Some Xu')) = true /\
  value_of (fun _ _ => 1%R) (program (fit_ex (twice "a" "b") None (Some Xu))) "a" 0 = Some 1%R /\
  value_of (fun _ _ => 1%R) (program (fit_ex (twice "a" "b") None (Some Xu'))) "a" 0 = Some 5%R.
Proof.
  split; [vm_compute; reflexivity|]. split; [vm_compute; reflexivity|]. split; compute_real.
Qed.

(** a transformer that drops a column *)
Lemma ex_drop_fails : exists ob', fit_ex [] (Some false) (Some Xu) = (ob', Err KeyError).
Proof. eexists. reflexivity. Qed.
Lemma ex_keep_works : exists ob' p m, fit_ex [] (Some true) (Some Xu) = (ob', Ok (p, m)).
Proof. eexists _, _, _. reflexivity. Qed.

(** no exogenous data: the seasonality takes part, the linear effect does not *)
Definition season : listed := ("season", mk_fourier [7%R] [3] 1 "additive", None).
Lemma ex_no_X : exists ob' p m, fit_ex [linear_tv; season] None None = (ob', Ok (p, m)).
Proof.
  destruct ex_fourier as (e' & a & v & F & T & Y & _).
  unfold fit_ex, fit_data. cbn [flat_config c_hier]. unfold univariate_fit_data.
  cbn [get_trend_model c_trend flat_config]. change (named_trend _ _) with (@Ok trend (TFlat (1 / 1000) base_init None)).
  cbn [discrete c_hier c_likelihood flat_config]. change (String.eqb "normal" "negbinomial") with false. cbv iota.
  cbn [trend_fit]. change (run_fit_transform _ _ _) with (mkObjects (TFlat (1 / 1000) (mkBase (Some []) (Some true)) (Some (flat_fit ex_y))) (@None bool), Ok Xnone).
  cbn [bind]. change (loc_index Xnone (index_of ex_y)) with (Ok Xnone). cbn [bind].
  change (trend_transform _ _ Xnone _) with (@Ok tdata (TArray (flat_transform Xnone))). cbn [bind].
  assert (FE : fit_effects sorted_sets None [linear_tv; season] (Some Xnone) 2 =
     Ok [("tv", Linear Additive (DUser 0) (mkBase (Some []) (Some true)), []); ("season", e', [])]).
  { unfold fit_effects. cbn [mapM]. change (fit_one sorted_sets (Some Xnone) 2 linear_tv) with (@Ok fitted_effect ("tv", Linear Additive (DUser 0) (mkBase (Some []) (Some true)), [])).
    cbn [bind]. unfold fit_one, season. cbn [match_columns bind]. change (select_columns 0%R Xnone []) with (Ok Xnone). cbn [bind].
    change (clone (mk_fourier [7%R] [3] 1 "additive")) with (mk_fourier [7%R] [3] 1 "additive").
    assert (F2 : fit sorted_sets (mk_fourier [7%R] [3] 1 "additive") (Some Xnone) 2 = (e', None)) by exact F.
    rewrite F2. reflexivity. }
  cbn [c_default flat_config effects_of c_effects scale_number]. rewrite FE. cbn [bind].
  assert (SK : should_skip_predict e' = Ok false).
  { rewrite (should_skip_fitted _ _ _ _ _ F). reflexivity. }
  assert (TE : exists data, transform_effects [("tv", Linear Additive (DUser 0) (mkBase (Some []) (Some true)), []); ("season", e', [])] Xnone (time_ids ex_y) = Ok data).
  { unfold transform_effects. cbn [foldM]. change (should_skip_predict (Linear Additive (DUser 0) (mkBase (Some []) (Some true)))) with (Ok true).
    cbn [bind]. rewrite SK. cbn [bind]. change (select_columns 0%R Xnone []) with (Ok Xnone). cbn [bind].
    change (time_ids ex_y) with [0; 1; 7]%Z. rewrite T. cbn [bind]. eexists. reflexivity. }
  destruct TE as [data TE]. rewrite TE. cbn [bind]. unfold non_skipped. cbn [foldM].
  change (should_skip_predict (Linear Additive (DUser 0) (mkBase (Some []) (Some true)))) with (Ok true). cbn [bind]. rewrite SK. cbn [bind].
  eexists _, _, _. reflexivity.
Qed.

(** a hierarchical fit with two series and two columns, under two iteration orders of sets *)
Definition ex_yh : frame R := mkFrame 1 ["y"] [mkRow ["a"] 0 [1]; mkRow ["a"] 1 [2]; mkRow ["b"] 0 [3]; mkRow ["b"] 1 [4]]%R.
Definition ex_Xh : frame R := mkFrame 1 ["tv"; "web"] [mkRow ["a"] 0 [1; 10]; mkRow ["a"] 1 [2; 20]; mkRow ["b"] 0 [3; 30]; mkRow ["b"] 1 [4; 40]]%R.
Definition fit_exh (order : list string -> list string) (X : option (frame R)) :=
  fit_data ex_ns order keep_all ex_fit_transform (flat_config true [("all", Linear Additive (DUser 0) base_init, Some ".*")])
    (no_objects None) (STable [(["__total"], 1%R); (["a"], 1%R); (["b"], 1%R)]) ex_yh X.

(** coefficients numbered by position *)
Definition by_position (n : string) (i : nat) : R := INR i.

Lemma ex_order_matters :
  succeeds (fit_exh (fun l => l) (Some ex_Xh)) = true /\ succeeds (fit_exh (@rev string) (Some ex_Xh)) = true /\
  value_of by_position (program (fit_exh (fun l => l) (Some ex_Xh))) "all" 0 = Some 20%R /\
  value_of by_position (program (fit_exh (@rev string) (Some ex_Xh))) "all" 0 = Some 2%R.
Proof. split; [vm_compute; reflexivity|]. split; [vm_compute; reflexivity|]. split; compute_real. Qed.
