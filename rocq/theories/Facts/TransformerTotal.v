(** Well-posed problems with a feature transformer; examples. *)
From Coq Require Import Reals Lra String Bool ZArith List Lia Sorted Permutation.
From Verif.Model Require Import Base Num XFloat Regex Frame Arr Expand Aggregate Scale Predict Prog Likelihood Trend Effect
  TrendProg Engine Forecaster.
From Verif.Spec Require Import FrameSpec ScaleSpec TrendSpec ProgSpec EffectSpec ForecasterSpec AlignSpec SiteSpec TotalSpec PanelSpec TransformerSpec.
From Verif.Facts Require Import TransformerFacts TotalForecast PanelForecast EffectExamples ForecasterExamples EngineExamples HistoryExamples ComponentExamples InsampleExamples TotalExamples PanelTotalExamples.
Import ListNotations.
Local Open Scope string_scope.

Section Any.
Variable ns_of : Z -> Z.
Variable order : list string -> list string.
Hypothesis Order : forall l, Permutation (order l) l.
Variable keep : path -> bool.
Context {TS : Type}.
Variable tr_fit_transform : TS -> frame R -> TS * res (frame R).
Variable tr_transform : TS -> frame R -> res (frame R).
Context {P : Type}.
Variable svi_run : Z -> nat -> nat -> prog arr -> res (list xr * P).
Variable nuts_run : Z -> nat -> nat -> nat -> prog arr -> res (nat -> nat -> env).
Variable latent_sites : prog arr -> list string.
Variable guide_draw : P -> Z -> nat -> prog arr -> env.
Variable complete_draw : env -> Z -> nat -> prog arr -> env.
Notation fit_forecaster := (fit_forecaster ns_of order keep tr_fit_transform svi_run nuts_run latent_sites).
Notation infer := (infer svi_run nuts_run latent_sites).
Notation forecast_samples := (forecast_samples ns_of keep tr_transform guide_draw complete_draw).
Notation draws := (draws guide_draw complete_draw).
Notation fit_transformed := (fit_transformed keep tr_fit_transform).
Notation future_transformed := (future_transformed keep tr_transform).
Notation objects := (objects (TS := TS)).

Theorem transformed_fit_total c (ob : objects) y X tr X1 : fit_transformed c ob y X tr X1 ->
  (well_posed ns_of c y (Some X1) /\ hill_data c (Some X1) \/ exists ids times, well_posed_panel ns_of c ids times y (Some X1)) -> clean_config c ->
  exists ob' s p m, fit_forecaster c ob y X = (ob', post <- infer (engine_of c) m ;; Ok (mkFitted s p post)) /\
    forall env, hill_values_positive c env -> exists o tr, run env [] m = Ok (o, tr).
Proof.
  intros HF HW CL. destruct (transformer_same_fit ns_of order keep tr_fit_transform svi_run nuts_run latent_sites _ _ _ _ _ _ HF) as [E _].
  destruct HW as [[W HD]|(ids & times & W)].
  - destruct (fit_total ns_of order keep tr_fit_transform svi_run nuts_run latent_sites c (without_transformer ob) y (Some X1) W CL HD eq_refl) as (ob' & s & p & m & H1 & H2 & _).
    exists (fst (fit_forecaster c ob y X)), s, p, m. split; [|exact H2]. rewrite H1 in E. cbn [snd] in E. rewrite <- E. apply surjective_pairing.
  - destruct (fit_panel_total ns_of order Order keep tr_fit_transform svi_run nuts_run latent_sites c (without_transformer ob) ids times y (Some X1) W CL eq_refl) as (ob' & tab & p & m & cols & H1 & H2 & _).
    exists (fst (fit_forecaster c ob y X)), (STable tab), p, m. split; [|intros env _; exact (H2 env)]. rewrite H1 in E. cbn [snd] in E. rewrite <- E. apply surjective_pairing.
Qed.

Lemma without_fit c (ob0 ob : objects) y X tr X1 f : fit_transformed c ob0 y X tr X1 -> fit_forecaster c ob0 y X = (ob, Ok f) ->
  fit_forecaster c (without_transformer ob0) y (Some X1) = (fst (fit_forecaster c (without_transformer ob0) y (Some X1)), Ok f).
Proof.
  intros HF HO. destruct (transformer_same_fit ns_of order keep tr_fit_transform svi_run nuts_run latent_sites _ _ _ _ _ _ HF) as [E _].
  rewrite HO in E. cbn [snd] in E. rewrite E. apply surjective_pairing.
Qed.

Theorem transformed_forecast_total c (ob0 ob : objects) y X tr X1 f X2 fh X21 cutoff : fit_transformed c ob0 y X tr X1 ->
  well_posed ns_of c y (Some X1) -> clean_config c -> hill_data c (Some X1) ->
  fit_forecaster c ob0 y X = (ob, Ok f) -> future_transformed c f y X X1 tr X2 fh X21 ->
  max_time (map r_time (f_rows y)) = Ok cutoff -> NoDup (to_absolute cutoff fh) -> hill_data c (Some X21) ->
  covers X21 (to_absolute cutoff fh) ->
  ~ In "obs" (latent_of (ft_posterior f)) ->
  (forall m, draws (engine_of c) (ft_posterior f) m <> [] /\
     forall e, In e (draws (engine_of c) (ft_posterior f) m) -> hill_values_positive c e) ->
  exists F, forecast_samples c ob f y X2 fh = (f, Ok F) /\ Permutation (map r_time (f_rows F)) (to_absolute cutoff fh).
Proof.
  intros HF W CL HD HO HU HM ND HD2 CV NO DR.
  destruct (transformer_same_forecasts ns_of order keep tr_fit_transform tr_transform svi_run nuts_run latent_sites guide_draw complete_draw _ _ _ _ _ _ _ _ _ _ _ _ HF HO eq_refl HU) as [-> _].
  apply (forecast_total ns_of order keep tr_fit_transform tr_transform svi_run nuts_run latent_sites guide_draw complete_draw c (without_transformer ob0) _ y (Some X1) f (Some X21) fh cutoff); auto.
  - exact (without_fit _ _ _ _ _ _ _ _ HF HO).
  - split; [exact CV|]. destruct HU as (ts & X20 & _ & _ & _ & _ & U). unfold usable_table in U. rewrite (wp_class _ _ _ _ W) in U.
    intros x Hx. apply U. apply in_or_app. right. exact Hx.
Qed.

Theorem transformed_panel_total c (ob0 ob : objects) ids times y X tr X1 f X2 fh X21 cutoff : fit_transformed c ob0 y X tr X1 ->
  well_posed_panel ns_of c ids times y (Some X1) -> clean_config c ->
  fit_forecaster c ob0 y X = (ob, Ok f) -> future_transformed c f y X X1 tr X2 fh X21 ->
  max_time times = Ok cutoff -> NoDup (to_absolute cutoff fh) -> to_absolute cutoff fh <> [] ->
  panel_future ids (f_cols X1) y (to_absolute cutoff fh) (Some X21) ->
  ~ In "obs" (latent_of (ft_posterior f)) ->
  (forall m, draws (engine_of c) (ft_posterior f) m <> []) ->
  exists f' F, forecast_samples c ob f y X2 fh = (f', Ok F) /\ full_panel keep ids (to_absolute cutoff fh) F.
Proof.
  intros HF W CL HO HU HM ND NE PF NO DR.
  destruct (transformer_same_forecasts ns_of order keep tr_fit_transform tr_transform svi_run nuts_run latent_sites guide_draw complete_draw _ _ _ _ _ _ _ _ _ _ _ _ HF HO eq_refl HU) as [-> _].
  apply (forecast_panel_total ns_of order Order keep tr_fit_transform tr_transform svi_run nuts_run latent_sites guide_draw complete_draw c (without_transformer ob0) _ ids times y (Some X1) f (Some X21) fh cutoff); auto.
  - exact (without_fit _ _ _ _ _ _ _ _ HF HO).
  - assert (EC : used_cols (Some X1) = f_cols X1).
    { unfold used_cols, given, no_columns. destruct (f_cols X1) eqn:E; [reflexivity|exact E]. }
    rewrite EC. exact PF.
Qed.
End Any.

(** * Examples: a transformer that doubles all values, and one that adds a column with the date *)
Definition doubled (X : frame R) : frame R := map_vals (map (fun v => 2 * v)%R) X.
Definition clocked (X : frame R) : frame R :=
  mkFrame (f_levels X) (f_cols X ++ ["clock"]) (map (fun r => mkRow (r_path r) (r_time r) (r_vals r ++ [IZR (r_time r)])%list) (f_rows X)).
(** the state tells the kind and whether it has been fitted *)
Definition tool_table (k : bool) : frame R -> frame R := if k then doubled else clocked.
Definition tool_fit (s : bool * bool) (X : frame R) : bool * bool * res (frame R) := (fst s, true, Ok (tool_table (fst s) X)).
Definition tool_apply (s : bool * bool) (X : frame R) : res (frame R) :=
  if snd s then Ok (tool_table (fst s) X) else Err AttributeError.
Definition with_tool (k : bool) : objects (TS := bool * bool) := mkObjects (TFlat 1 base_init None) (Some (k, false)).

Definition doubled_fit trend likelihood :=
  fit_forecaster ex_ns sorted_sets keep_all tool_fit ex_svi ex_nuts comp_latent (total_config trend likelihood "mcmc") (with_tool true) ex_y (Some Xu).
Definition clocked_fit trend likelihood :=
  fit_forecaster ex_ns sorted_sets keep_all tool_fit ex_svi ex_nuts comp_latent (posed_config trend likelihood "mcmc") (with_tool false) ex_yh None.
(** the rows of the two series, with the date *)
Definition clock_table : frame R := mkFrame 1 ["clock"] [mkRow ["a"] 0 [0]; mkRow ["a"] 1 [1]; mkRow ["b"] 0 [0]; mkRow ["b"] 1 [1]]%R.
Definition clock_future : frame R := mkFrame 1 ["clock"] [mkRow ["a"] 2 [2]; mkRow ["a"] 3 [3]; mkRow ["b"] 2 [2]; mkRow ["b"] 3 [3]]%R.

Lemma named_not_effect c s t e : named_trend c s = Ok t -> t <> TEffect e.
Proof.
  unfold named_trend. destruct (String.eqb s "linear"); [intros [= <-]; discriminate|]. destruct (String.eqb s "linear_raw"); [intros [= <-]; discriminate|].
  destruct (String.eqb s "logistic"); [intros [= <-]; discriminate|]. destruct (String.eqb s "flat"); [intros [= <-]; discriminate|discriminate].
Qed.

Lemma doubled_transformed trend likelihood :
  fit_transformed keep_all tool_fit (total_config trend likelihood "mcmc") (with_tool true) ex_y (Some Xu) (true, true) (doubled Xu).
Proof.
  exists (true, false), Xu. split; [reflexivity|]. split; [intros _ e H; exact (named_not_effect _ _ _ e H eq_refl)|].
  split; [intros r [<-|[<-|[<-|[]]]]; split; reflexivity|]. split; [reflexivity|]. split; [reflexivity|]. intros col H; exact H.
Qed.
Lemma clocked_transformed trend likelihood :
  fit_transformed keep_all tool_fit (posed_config trend likelihood "mcmc") (with_tool false) ex_yh None (false, true) clock_table.
Proof.
  exists (false, false), (mkFrame 1 [] [mkRow ["a"] 0 []; mkRow ["a"] 1 []; mkRow ["b"] 0 []; mkRow ["b"] 1 []]).
  split; [reflexivity|]. split; [discriminate|].
  split; [intros r Hr; cbn in Hr; repeat destruct Hr as [<-|Hr]; try contradiction; split; reflexivity|].
  split; [reflexivity|]. split; [reflexivity|]. split; [|discriminate]. split; [reflexivity|]. split; [reflexivity|].
  intros r Hr; cbn in Hr; repeat destruct Hr as [<-|Hr]; try contradiction; split; reflexivity.
Qed.
Lemma clock_table_panel : panel [["a"]; ["b"]] [0; 1]%Z clock_table.
Proof. two_by_two_panel. Qed.
Lemma clock_future_panel : panel [["a"]; ["b"]] [2; 3]%Z clock_future.
Proof. two_by_two_panel. Qed.

Lemma doubled_posed trend likelihood : In trend ["linear"; "linear_raw"; "flat"; "logistic"] -> In likelihood ["normal"; "gamma"; "negbinomial"] ->
  well_posed ex_ns (total_config trend likelihood "mcmc") ex_y (Some (doubled Xu)).
Proof.
  apply total_posed_with; [|reflexivity]. split; [intros r [<-|[<-|[<-|[]]]]; split; reflexivity|]. split; [reflexivity|]. split; [|cbn; tauto].
  repeat constructor; simpl; intuition discriminate.
Qed.
Lemma clocked_posed trend likelihood : In trend ["linear"; "linear_raw"; "logistic"] ->
  well_posed_panel ex_ns (posed_config trend likelihood "mcmc") [["a"]; ["b"]] [0; 1]%Z ex_yh (Some clock_table).
Proof.
  intros HT. apply panel_posed_with; [exact HT|simpl; auto|]. split; [exact clock_table_panel|]. intros col [<-|[]]. eexists. vm_compute. reflexivity.
Qed.

Lemma doubled_example trend likelihood : In trend ["linear"; "linear_raw"; "flat"; "logistic"] -> In likelihood ["normal"; "gamma"; "negbinomial"] ->
  exists ob f F, doubled_fit trend likelihood = (ob, Ok f) /\
    future_transformed keep_all tool_apply (total_config trend likelihood "mcmc") f ex_y (Some Xu) (doubled Xu) (true, true) (Some Xf) (Relative [1; 2]%Z) (doubled Xf) /\
    forecast_samples ex_ns keep_all tool_apply ex_guide ex_complete (total_config trend likelihood "mcmc") ob f ex_y (Some Xf) (Relative [1; 2]%Z) = (f, Ok F) /\
    Permutation (map r_time (f_rows F)) [8; 9]%Z.
Proof.
  intros HT HL. pose proof (doubled_posed trend likelihood HT HL) as W. pose proof (total_clean trend likelihood "mcmc") as CL.
  assert (HD : hill_data (total_config trend likelihood "mcmc") (Some (doubled Xu))) by (apply total_hill; cbn; intros r v [<-|[<-|[<-|[]]]] [<-|[<-|[]]]; lra).
  assert (HD2 : hill_data (total_config trend likelihood "mcmc") (Some (doubled Xf))) by (apply total_hill; cbn; intros r v [<-|[<-|[]]] [<-|[<-|[]]]; lra).
  assert (Order : forall l, Permutation (sorted_sets l) l) by (intros l; reflexivity).
  destruct (transformed_fit_total ex_ns sorted_sets Order keep_all tool_fit ex_svi ex_nuts comp_latent _ _ _ _ _ _ (doubled_transformed trend likelihood) (or_introl (conj W HD)) CL) as (ob & s & p & m & E & _).
  fold (doubled_fit trend likelihood) in E. unfold infer in E. change (String.eqb (en_method (engine_of (total_config trend likelihood "mcmc"))) "mcmc") with true in E. cbv iota in E. unfold ex_nuts in E. cbn [bind] in E.
  match type of E with _ = (_, Ok ?g) => set (f := g) in E end. exists ob, f.
  assert (FT : future_transformed keep_all tool_apply (total_config trend likelihood "mcmc") f ex_y (Some Xu) (doubled Xu) (true, true) (Some Xf) (Relative [1; 2]%Z) (doubled Xf)).
  { exists [8; 9]%Z, Xf. split; [reflexivity|]. split; [intros r [<-|[<-|[]]]; split; reflexivity|]. split; [reflexivity|]. split; [reflexivity|].
    intros col H. cbn in H. cbn. tauto. }
  destruct (transformed_forecast_total ex_ns sorted_sets keep_all tool_fit tool_apply ex_svi ex_nuts comp_latent ex_guide ex_complete _ (with_tool true) ob ex_y (Some Xu) (true, true) (doubled Xu) f (Some Xf) (Relative [1; 2]%Z) (doubled Xf) 7
    (doubled_transformed trend likelihood) W CL HD E FT) as (F & HF & PF); auto.
  - repeat constructor; simpl; intuition discriminate.
  - split; [intros r [<-|[<-|[]]]; split; reflexivity|]. split; [reflexivity|]. split; [|cbn; tauto]. repeat constructor; simpl; intuition discriminate.
  - cbn. intuition discriminate.
  - intros m'. split; [cbn; discriminate|]. intros e He. cbn in He. split; [intros l _ _|discriminate].
    destruct He as [<-|[<-|[]]]; unfold ex_complete; destruct (String.eqb _ "obs") eqn:Q; try (cbn; lra); exfalso; apply String.eqb_eq in Q; destruct (l_name l) as [|? [|? [|? [|? ?]]]]; discriminate.
  - eauto.
Qed.

Lemma clocked_example trend likelihood : In trend ["linear"; "linear_raw"; "logistic"] ->
  exists ob f f' F, clocked_fit trend likelihood = (ob, Ok f) /\
    future_transformed keep_all tool_apply (posed_config trend likelihood "mcmc") f ex_yh None clock_table (false, true) None (Relative [1; 2]%Z) clock_future /\
    forecast_samples ex_ns keep_all tool_apply ex_guide ex_complete (posed_config trend likelihood "mcmc") ob f ex_yh None (Relative [1; 2]%Z) = (f', Ok F) /\
    full_panel keep_all [["a"]; ["b"]] [2; 3]%Z F.
Proof.
  intros HT. pose proof (clocked_posed trend likelihood HT) as W. pose proof (posed_clean trend likelihood "mcmc") as CL.
  assert (Order : forall l, Permutation (sorted_sets l) l) by (intros l; reflexivity).
  destruct (fit_panel_total ex_ns sorted_sets Order keep_all tool_fit ex_svi ex_nuts comp_latent _ (without_transformer (with_tool false)) _ _ ex_yh (Some clock_table) W CL eq_refl) as (ob0 & tab & p & m & cols & E0 & _ & _ & _ & _ & PI).
  destruct (transformer_same_fit ex_ns sorted_sets keep_all tool_fit ex_svi ex_nuts comp_latent _ _ _ _ _ _ (clocked_transformed trend likelihood)) as [ES _].
  assert (E : clocked_fit trend likelihood = (fst (clocked_fit trend likelihood), snd (ob0, post <- infer ex_svi ex_nuts comp_latent (engine_of (posed_config trend likelihood "mcmc")) m ;; Ok (mkFitted (STable tab) p post)))).
  { rewrite E0 in ES. rewrite <- ES. apply surjective_pairing. }
  set (ob := fst (clocked_fit trend likelihood)) in E. clearbody ob. cbn [snd] in E.
  unfold infer in E. change (String.eqb (en_method (engine_of (posed_config trend likelihood "mcmc"))) "mcmc") with true in E. cbv iota in E. unfold ex_nuts in E. cbn [bind] in E.
  match type of E with _ = (_, Ok ?g) => set (f := g) in E end. exists ob, f.
  assert (FT : future_transformed keep_all tool_apply (posed_config trend likelihood "mcmc") f ex_yh None clock_table (false, true) None (Relative [1; 2]%Z) clock_future).
  { exists [2; 3]%Z, (mkFrame 1 [] [mkRow ["a"] 2 []; mkRow ["a"] 3 []; mkRow ["b"] 2 []; mkRow ["b"] 3 []]).
    split; [unfold asked; cbn [c_hier posed_config]; change (p_index (ft_prepared f)) with (p_index p); rewrite PI; reflexivity|].
    split; [intros r Hr; cbn in Hr; repeat destruct Hr as [<-|Hr]; try contradiction; split; reflexivity|].
    split; [reflexivity|]. split; [reflexivity|]. split; [|discriminate]. split; [reflexivity|]. split; [reflexivity|].
    intros r Hr; cbn in Hr; repeat destruct Hr as [<-|Hr]; try contradiction; split; reflexivity. }
  destruct (transformed_panel_total ex_ns sorted_sets Order keep_all tool_fit tool_apply ex_svi ex_nuts comp_latent ex_guide ex_complete _ (with_tool false) ob [["a"]; ["b"]] [0; 1]%Z ex_yh None (false, true) clock_table f None (Relative [1; 2]%Z) clock_future 1
    (clocked_transformed trend likelihood) W CL E FT eq_refl) as (f' & F & HF & PF).
  - repeat constructor; simpl; intuition discriminate.
  - discriminate.
  - split; [exists [2; 3]%Z; split; [exact clock_future_panel|auto]|]. intros c Hc. exact Hc.
  - cbn. intuition discriminate.
  - intros m'. cbn. discriminate.
  - exists f', F. auto.
Qed.
