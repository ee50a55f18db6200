(** A well-posed problem once fitted: the model of every forecast exists and runs for all values of the parameters. *)
From Coq Require Import Reals String Bool ZArith List Lia.
From Verif.Model Require Import Base Num XFloat Regex Frame Arr Expand Aggregate Scale Prog Likelihood Effect Trend TrendProg Engine Predict Forecaster.
From Verif.Spec Require Import FrameSpec ProgSpec ForecasterSpec SiteSpec TotalSpec.
From Verif.Facts Require Import BaseFacts ProgFacts ForecasterFacts ForecasterInv SiteFacts TotalFacts TotalTrend TotalFit TotalForecast.
Import ListNotations.
Local Open Scope string_scope.

Section Any.
Variable ns_of : Z -> Z.
Variable order : list string -> list string.
Variable keep : path -> bool.
Context {TS P : Type}.
Variable tr_fit_transform : TS -> frame R -> TS * res (frame R).
Variable tr_transform : TS -> frame R -> res (frame R).
Variable svi_run : Z -> nat -> nat -> prog arr -> res (list xr * P).
Variable nuts_run : Z -> nat -> nat -> nat -> prog arr -> res (nat -> nat -> env).
Variable latent_sites : prog arr -> list string.
Notation fit_forecaster := (fit_forecaster ns_of order keep tr_fit_transform svi_run nuts_run latent_sites).
Notation predict_model := (predict_model ns_of keep tr_transform).

Lemma predict_total c (ob0 ob : objects (TS := TS)) y X f X2 fh cutoff : well_posed ns_of c y X -> clean_config c -> hill_data c X -> o_transformer ob0 = None ->
  fit_forecaster c ob0 y X = (ob, Ok f) ->
  max_time (map r_time (f_rows y)) = Ok cutoff -> NoDup (to_absolute cutoff fh) -> hill_data c X2 ->
  match X2 with None => exog_cols X = [] | Some X2 => covers X2 (to_absolute cutoff fh) /\ forall x, In x (exog_cols X) -> In x (f_cols X2) end ->
  exists m, predict_model c ob f y X2 fh = Ok m /\ forall e, hill_values_positive c e -> exists o tr, run e [] m = Ok (o, tr).
Proof.
  intros W CL HD HT EF EC NH HD2 HX2. destruct (fit_total ns_of order keep tr_fit_transform svi_run nuts_run latent_sites c ob0 y X W CL HD HT) as (ob' & s & p & m0 & EF' & _ & T0 & (TR & ER & NS & HE) & EI & ES).
  rewrite EF in EF'. injection EF' as <- EP. symmetry in EP. destruct (infer _ _ _ _ _) as [post|] eqn:EPo; [|discriminate]. cbn [bind] in EP. injection EP as <-.
  set (times := to_absolute cutoff fh) in *.
  destruct (horizon_frame_ok c (exog_cols X) X2 times NH HD2 HX2) as (SH & IH & HH & LH).
  destruct (ready_model ns_of c s p (o_trend ob) (exog_cols X) (exog_cols X) (horizon_frame times X2) times) as (td & data & Etd & Edata & YM); auto; try apply W.
  set (m := model_call c s p (o_trend ob) td None (Some data)) in *.
  set (f := mkFitted s p post) in *.
  assert (EM : univariate_predict_model ns_of tr_transform c ob f y X2 fh = Ok m).
  { unfold univariate_predict_model. rewrite EC. cbn [bind]. fold times. assert (EX : match X2 with None => empty_frame 0 (map (fun t => ([], t)) times) | Some X => X end = horizon_frame times X2) by (destruct X2; reflexivity).
    rewrite EX. unfold run_transform. rewrite T0. cbn [bind]. rewrite Etd. cbn [bind]. cbn [ft_prepared f]. rewrite HE, Edata. reflexivity. }
  assert (PM : predict_model c ob f y X2 fh = Ok m) by (unfold ForecasterSpec.predict_model; rewrite (wp_class _ _ _ _ W); exact EM).
  exists m. split; [exact PM|]. intros e He. destruct (YM e None He) as (o & Y). fold m in Y.
  destruct (c71_predict ns_of order keep tr_fit_transform tr_transform svi_run nuts_run latent_sites c ob0 y X ob f EF CL ob y X2 fh m) with (e := e) (o := o) as (tr & Hr & N & _); eauto.
Qed.
End Any.
