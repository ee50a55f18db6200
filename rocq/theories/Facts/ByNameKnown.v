(** The columns which a fitted forecaster knows are those of the training data. *)
From Coq Require Import Reals ZArith String Bool List Lia Permutation.
From Verif.Model Require Import Base Num XFloat Regex Frame Expand Arr Aggregate Scale Prog Likelihood Effect Trend TrendProg Engine Forecaster Predict.
From Verif.Spec Require Import FrameSpec EffectSpec ForecasterSpec ByNameSpec.
From Verif.Facts Require Import BaseFacts FrameFacts ExpandFacts OrderFacts ForecasterInv ForecasterFacts ForecasterProps ByNameFacts ByNameForecaster ByNameFit.
Import ListNotations.
Local Open Scope string_scope.

Lemma seen_cols (X : frame R) n : In n (columns_seen (Some X)) -> In n (f_cols X).
Proof. unfold columns_seen. destruct (frame_empty X); [intros []|auto]. Qed.
Lemma trend_known ns_of order t (X : frame R) y s t' e : plain t -> trend_fit ns_of order t (Some X) y s = (t', e) -> forall n, trend_column t' n -> In n (f_cols X).
Proof.
  intros PL H n. unfold trend_fit in H. destruct t as [p c b f|s0 b l|ef]; [| |contradiction].
  - destruct (piecewise_fit ns_of p y); injection H as <- <-; intros (l & [= <-] & I); now apply seen_cols.
  - injection H as <- <-. intros (l0 & [= <-] & I). now apply seen_cols.
Qed.
Lemma get_trend_plain {TS} c (ob : objects (TS := TS)) t : plain (o_trend ob) -> get_trend_model c ob = Ok t -> plain t.
Proof.
  intros PL. unfold get_trend_model, named_trend. destruct (c_trend c) as [s0|]; [|now intros [= <-]].
  repeat match goal with |- context [if ?b then _ else _] => destruct b end; intros Q; try discriminate Q; injection Q as <-; exact I.
Qed.
Lemma effects_known order d es (X : frame R) s fs : fit_effects order d es (Some X) s = Ok fs -> forall g n, In g fs -> In n (snd g) -> In n (f_cols X).
Proof.
  intros H g n Hg Hn. apply fit_effects_inv in H. destruct H as (main & dflt & -> & F & D). apply in_app_iff in Hg as [Hg|Hg].
  - apply Forall2_In_both in F. destruct (proj2 F _ Hg) as (l & _ & _ & C & _). apply C in Hn. tauto.
  - destruct D as [[-> _]|(f & -> & _ & _ & C & _)]; [contradiction|]. destruct Hg as [<-|[]]. apply C in Hn. unfold leftover in Hn. tauto.
Qed.
(** columns of the expanded data *)
Lemma zero_cols (ps : list (string * path)) n : forall X : frame R, In n (f_cols (fold_left (fun X p => set_col X (pname p) (fun _ => 0%R)) ps X)) -> In n (f_cols X) \/ exists p, In p ps /\ n = pname p.
Proof.
  induction ps as [|p ps IH]; intros X; cbn [fold_left]; [auto|]. intros H. destruct (IH _ H) as [G|(q & Hq & E)]; [|right; exists q; split; [now right|exact E]].
  rewrite set_col_cols in G. destruct (str_in (pname p) (f_cols X)); [auto|]. apply in_app_iff in G as [G|[<-|[]]]; [auto|]. right. exists p. split; [now left|reflexivity].
Qed.
Lemma copied_cols (Xo : frame R) (ps : list (string * path)) : forall Y Z, foldM (fun Y p => copy_column 0%R (fun _ => false) Xo Y (fst p) (snd p)) Y ps = Ok Z -> f_cols Z = f_cols Y.
Proof.
  induction ps as [|p ps IH]; intros Y Z; cbn [foldM]; [now intros [= <-]|]. unfold copy_column at 1. destruct (col_pos (f_cols Xo) (fst p)); [|discriminate]. destruct (col_pos (f_cols Y) (get_col_name (fst p) (snd p))); [|discriminate]. cbn [bind]. intros H. apply IH in H. exact H.
Qed.
Lemma expanded_cols e (X Z : frame R) e' n : expand_transform 0%R (fun _ => false) e X = Ok (Z, e') -> In n (f_cols Z) -> In n (f_cols X) \/ exists c i, In c (ex_matched e) /\ n = get_col_name c i.
Proof.
  unfold expand_transform. destruct (ex_skip e); [intros [= <- <-]; auto|]. destruct (f_levels X); [discriminate|]. rewrite add_zero_pairs, copy_columns_pairs. intros H. inv_bind H. injection H as <- <-. intros I.
  assert (J : In n (f_cols x)). { unfold drop_columns in I. cbn [f_cols] in I. rewrite (combine_map_filter (fun c => negb (str_in c (ex_matched e)))) in I. now apply filter_In in I. }
  rewrite (copied_cols _ _ _ _ E) in J. destruct (zero_cols _ _ _ J) as [G|(p & Hp & ->)]; [auto|]. right. exists (fst p), (snd p). split; [now apply zero_pairs_In in Hp|reflexivity].
Qed.
Lemma matched_kept e (X Z : frame R) e' : expand_transform 0%R (fun _ => false) e X = Ok (Z, e') -> ex_matched e' = ex_matched e.
Proof. unfold expand_transform. destruct (ex_skip e); [now intros [= <- <-]|]. destruct (f_levels X); [discriminate|]. intros H. inv_bind H. now injection H as <- <-. Qed.
Lemma matched_known order (Order : forall l, Permutation (order l) l) shared (X Z : frame R) e' n : expand_bottom 0%R (fun _ => false) order shared X = Ok (Z, e') -> In n (ex_matched e') -> In n (f_cols X).
Proof.
  unfold expand_bottom. intros H. inv_bind H. rewrite (matched_kept _ _ _ _ H). unfold expand_fit in E. inv_bind E. intros I.
  assert (J : In n (filter (fun c => existsb (fun r => re_match r c) x0) (strs_unique (f_cols X)))).
  { destruct (f_levels X); injection E as <-; cbn [ex_matched] in I; now apply (Permutation_in _ (Order _)) in I. }
  apply filter_In in J as [J _]. exact (proj1 (strs_unique_In _ _) J).
Qed.

Section Any.
Variable ns_of : Z -> Z.
Variable order : list string -> list string.
Variable keep : path -> bool.
Context {TS : Type}.
Variable tr_fit_transform : TS -> frame R -> TS * res (frame R).
Context {P : Type}.
Variable svi_run : Z -> nat -> nat -> prog arr -> res (list xr * P).
Variable nuts_run : Z -> nat -> nat -> nat -> prog arr -> res (nat -> nat -> env).
Variable latent_sites : prog arr -> list string.
Notation fit_forecaster := (fit_forecaster ns_of order keep tr_fit_transform svi_run nuts_run latent_sites).

Theorem known_univariate : forall c (ob : objects (TS := TS)) y X ob' (f : fitted (P := P)), fit_forecaster c ob y (Some X) = (ob', Ok f) -> c_hier c = false -> o_transformer ob = None -> plain (o_trend ob) ->
  o_transformer ob' = None /\ forall n, known_column ob' f n -> In n (f_cols X).
Proof.
  intros c ob y X ob' f H HU TN PL. apply fit_forecaster_inv in H. destruct H as (s & ys & p & m & post & _ & _ & HF & _ & ->). unfold fit_data in HF. rewrite HU in HF.
  apply univariate_fit_inv in HF. destruct HF as (t0 & t & yt & X1 & Xe & td & data & G & _ & TF & RF & HL & HF).
  apply run_fit_transform_inv in RF. cbn [o_trend o_transformer] in RF. rewrite TN in RF. destruct RF as (_ & -> & ->). split; [reflexivity|].
  destruct HF as (_ & _ & HFE & _ & _ & HP & _). assert (PX : p_expander p = None) by (rewrite HP; reflexivity).
  intros n [K|[(g & Hg & K)|(ex & E & _)]]; cbn [o_trend ft_prepared] in *.
  - eapply trend_known; [eapply get_trend_plain; eassumption|exact TF|exact K].
  - apply loc_index_inv in HL. destruct HL as (_ & EC & _). rewrite <- EC. eapply effects_known; [exact HFE|exact Hg|exact K].
  - congruence.
Qed.

Theorem known_hierarchical (Order : forall l, Permutation (order l) l) : forall c (ob : objects (TS := TS)) y X ob' (f : fitted (P := P)), fit_forecaster c ob y (Some X) = (ob', Ok f) -> c_hier c = true -> o_transformer ob = None -> plain (o_trend ob) ->
  o_transformer ob' = None /\ forall n, known_column ob' f n -> In n (f_cols X) \/ exists col i, In col (f_cols X) /\ n = get_col_name col i.
Proof.
  intros c ob y X ob' f H HU TN PL. apply fit_forecaster_inv in H. destruct H as (s & ys & p & m & post & _ & _ & HF & _ & ->). unfold fit_data in HF. rewrite HU in HF.
  apply hierarchical_fit_inv in HF. destruct HF as (yb & tensor & X0 & X1 & X2 & ob1 & t0 & t & td & data & _ & _ & HB & RF & _ & HE & G & TF & -> & _ & HFE & _).
  apply run_fit_transform_inv in RF. rewrite TN in RF. destruct RF as (_ & -> & ->). cbn [o_transformer]. split; [exact TN|].
  assert (C0 : forall n, In n (f_cols X0) -> In n (f_cols X)).
  { intros n. destruct (no_columns X) eqn:NC.
    - assert (E : f_cols X0 = []). { revert HB. unfold loc_bottom_series, get_bottom_series_idx. set (W := empty_frame _ _). assert (EW : f_cols W = []) by reflexivity. clearbody W. destruct (f_levels W) as [|[|k]]; cbn [bind]; [now intros [= <-]| |]; unfold get_multiindex_loc; destruct (filter _ _); try discriminate; intros [= <-]; exact EW. }
      rewrite E. intros [].
    - assert (E : f_cols X0 = f_cols X). { revert HB. unfold loc_bottom_series, get_bottom_series_idx. destruct (f_levels X) as [|[|k]]; cbn [bind]; [now intros [= <-]| |]; unfold get_multiindex_loc; destruct (filter _ _); try discriminate; intros [= <-]; reflexivity. }
      now rewrite E. }
  assert (C2 : forall n, In n (f_cols X2) -> In n (f_cols X) \/ exists col i, In col (f_cols X) /\ n = get_col_name col i).
  { intros n I. destruct (p_has_exogenous p); [|destruct HE as [-> _]; auto]. destruct HE as (ex & HE & _). pose proof (fun c => matched_known order Order _ _ _ _ c HE) as MK. unfold expand_bottom in HE. inv_bind HE. rewrite (matched_kept _ _ _ _ HE) in MK. destruct (expanded_cols _ _ _ _ n HE I) as [J|(col & i & J & ->)]; [auto|]. right. exists col, i. auto. }
  intros n [K|[(g & Hg & K)|(ex & E & K)]]; cbn [o_trend ft_prepared] in *.
  - apply C2. eapply trend_known; [eapply get_trend_plain; eassumption|exact TF|exact K].
  - apply C2. eapply effects_known; [exact HFE|exact Hg|exact K].
  - destruct (p_has_exogenous p); [|destruct HE; congruence]. destruct HE as (ex' & HE & E'). assert (ex' = ex) by congruence. subst ex'. left. apply C0. eapply matched_known; [exact Order|exact HE|exact K].
Qed.
End Any.
