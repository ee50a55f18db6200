(** The simple effects of the library are instances of the model of user-written effects (C95). *)
From Coq Require Import Reals String Bool ZArith List Lia Arith.
From Verif.Model Require Import Base Num Regex Frame Arr Expand Prog Likelihood Effect Forecaster Custom.
From Verif.Spec Require Import CustomSpec.
From Verif.Facts Require Import BaseFacts.
Import ListNotations.
Local Open Scope string_scope.

Section Instance.
Variable order : list string -> list string.

Lemma clone_user e : simple e -> user_clone (as_user e) = as_user (clone e) /\ simple (clone e) /\ as_class (clone e) = as_class e.
Proof. intros Q. destruct e; try destruct Q; repeat split. Qed.

Lemma fit_user e y X scale : simple e ->
  user_fit (as_user e) y X scale = (as_user (fst (fit order e X scale)), snd (fit order e X scale)) /\ simple (fst (fit order e X scale)).
Proof.
  intros Q. unfold user_fit. cbn [as_user ue_class ue_base ue_state as_class u_multivariate u_fit inherited_fit].
  destruct e; try destruct Q; cbn [fit]; unfold base_fit; destruct (_ && _); cbn [fst snd]; (split; [|exact I]); reflexivity.
Qed.

Lemma skip_user e : user_skips (as_user e) = should_skip_predict e.
Proof. reflexivity. Qed.

Lemma transform_user e X fh : simple e -> should_skip_predict e = Ok false ->
  user_transform (as_user e) (Some X) fh = (as_user e, d <- transform e (Some X) fh ;; Ok (Some d)).
Proof.
  intros Q K. unfold user_transform, transform. rewrite skip_user, K. cbn [as_user ue_class ue_base ue_state as_class u_filter u_transform].
  destruct (attr (b_fitted (get_base e))) as [[]|]; [|reflexivity..]. cbn [negb bind].
  assert (IN : input_feature_column_names e = attr (b_cols (get_base e))) by (destruct e; try destruct Q; reflexivity). rewrite IN.
  destruct (attr (b_cols (get_base e))) as [cols|]; [|reflexivity]. cbn [bind]. destruct (select_columns 0%R (filter_fh fh X) cols) as [XC|]; [|reflexivity]. cbn [bind].
  unfold inherited_transform. assert (IT : inner_transform e XC fh = (a <- frame_array XC ;; Ok (EArr a))) by (destruct e; try destruct Q; reflexivity). rewrite IT.
  unfold as_user. reflexivity.
Qed.

Lemma predict_user e d pe : simple e -> b_cols (get_base e) <> None -> user_predict (as_user e) d pe = predict e d pe.
Proof.
  intros Q C. unfold user_predict. cbn [as_user ue_base]. destruct (b_cols (get_base e)); [|contradiction]. destruct e; try destruct Q; reflexivity.
Qed.

(** * lists *)
Definition simple_fitted (fs : list fitted_effect) : Prop := forall f, In f fs -> simple (snd (fst f)).

Lemma fit_one_user y X scale l : simple (snd (fst l)) ->
  user_fit_one y X scale (as_listed l) = (f <- fit_one order X scale l ;; Ok (as_fitted f)) /\ (forall f, fit_one order X scale l = Ok f -> simple (snd (fst f))).
Proof.
  destruct l as [[name e] re]. cbn [fst snd]. intros Q. destruct (clone_user e Q) as (CU & CS & _). unfold user_fit_one, fit_one, as_listed. cbn [fst snd]. rewrite CU. destruct X as [X|].
  - destruct (match_columns (f_cols X) re) as [cols|]; [|split; [reflexivity|discriminate]]. cbn [bind]. destruct (select_columns 0%R X cols) as [XC|]; [|split; [reflexivity|discriminate]]. cbn [bind].
    destruct (fit_user (clone e) y (Some XC) scale CS) as [F S]. rewrite F. destruct (fit order (clone e) (Some XC) scale) as [e' [ex|]]; cbn [fst snd] in *; [split; [reflexivity|discriminate]|].
    split; [reflexivity|]. intros f E. injection E as <-. exact S.
  - destruct (fit_user (clone e) y None scale CS) as [F _]. rewrite F. cbn [snd]. destruct (snd (fit order (clone e) None scale)); (split; [reflexivity|discriminate]).
Qed.

Lemma uncovered_user cols fs : user_uncovered cols (map as_fitted fs) = uncovered cols fs.
Proof.
  unfold user_uncovered, uncovered. do 2 f_equal. apply filter_ext. intros c. f_equal. induction fs as [|f fs IH]; [reflexivity|]. cbn [map existsb]. now rewrite IH.
Qed.

Lemma fit_effects_user default effs y X scale : simple (match default with None => default_linear | Some e => e end) -> (forall l, In l effs -> simple (snd (fst l))) ->
  user_fit_effects (as_user (match default with None => default_linear | Some e => e end)) (map as_listed effs) y X scale =
    (fs <- fit_effects order default effs X scale ;; Ok (map as_fitted fs)) /\
  (forall fs, fit_effects order default effs X scale = Ok fs -> simple_fitted fs).
Proof.
  intros QD Q. set (e := match default with None => default_linear | Some e => e end) in *.
  assert (M : mapM (user_fit_one y X scale) (map as_listed effs) = (fs <- mapM (fit_one order X scale) effs ;; Ok (map as_fitted fs)) /\ forall fs, mapM (fit_one order X scale) effs = Ok fs -> simple_fitted fs).
  { clear QD. induction effs as [|l effs IH]; [split; [reflexivity|]; intros fs E; injection E as <-; intros f []|]. cbn [map mapM].
    destruct (fit_one_user y X scale l (Q l (or_introl eq_refl))) as [F S]. rewrite F. destruct (IH (fun l' I => Q l' (or_intror I))) as [G T]. rewrite G.
    destruct (fit_one order X scale l) as [f|]; [|split; [reflexivity|discriminate]]. cbn [bind]. destruct (mapM (fit_one order X scale) effs) as [fs|]; [|split; [reflexivity|discriminate]]. cbn [bind].
    split; [reflexivity|]. intros fs' E. injection E as <-. intros g [<-|I]; [now apply S|exact (T fs eq_refl g I)]. }
  destruct M as [M SM]. unfold user_fit_effects, fit_effects. rewrite M. destruct (mapM (fit_one order X scale) effs) as [fs|]; [|split; [reflexivity|discriminate]]. cbn [bind]. specialize (SM fs eq_refl).
  destruct X as [X|]; [|split; [reflexivity|]; intros fs' E; injection E as <-; exact SM]. rewrite uncovered_user. destruct (uncovered (f_cols X) fs) as [|c cs]; [split; [reflexivity|]; intros fs' E; injection E as <-; exact SM|].
  fold e. destruct (select_columns 0%R X (c :: cs)) as [XC|]; [|split; [reflexivity|discriminate]]. cbn [bind]. destruct (clone_user e QD) as (CU & CS & _). rewrite CU. destruct (fit_user (clone e) y (Some XC) scale CS) as [F S]. rewrite F.
  destruct (fit order (clone e) (Some XC) scale) as [e' [ex|]]; cbn [fst snd] in *; [split; [reflexivity|discriminate]|]. cbn [bind]. split; [now rewrite map_app|].
  intros fs' E. injection E as <-. intros g I. apply in_app_or in I. destruct I as [I|[<-|[]]]; [exact (SM g I)|exact S].
Qed.

Definition as_data (d : dict edata) : dict (option edata) := map (fun nd => (fst nd, Some (snd nd))) d.
Lemma as_data_set d n v : dict_set (as_data d) n (Some v) = as_data (dict_set d n v).
Proof. unfold as_data. induction d as [|[k w] d IH]; [reflexivity|]. cbn [map dict_set fst snd]. destruct (String.eqb n k); [reflexivity|]. cbn [map fst snd]. now rewrite IH. Qed.

Lemma transform_effects_user fs X fh : simple_fitted fs ->
  user_transform_effects (map as_fitted fs) X fh [] = (map as_fitted fs, d <- transform_effects fs X fh ;; Ok (as_data d)).
Proof.
  intros Q. unfold transform_effects. change (@nil (string * option edata)) with (as_data []). generalize (@nil (string * edata)) as out.
  induction fs as [|[[name e] cols] fs IH]; intros out; [reflexivity|]. cbn [map user_transform_effects foldM]. unfold as_fitted at 1. cbn [fst snd]. rewrite skip_user.
  assert (IH' : forall o, user_transform_effects (map as_fitted fs) X fh (as_data o) = _) by (apply IH; intros f I; apply Q; now right). clear IH.
  destruct (should_skip_predict e) as [[]|] eqn:K; cbn [bind].
  - rewrite IH'. reflexivity.
  - destruct (select_columns 0%R X cols) as [XC|]; [|reflexivity]. cbn [bind]. rewrite (transform_user e XC fh (Q _ (or_introl eq_refl)) K).
    destruct (transform e (Some XC) fh) as [d|]; [|reflexivity]. cbn [bind]. rewrite as_data_set, IH'. reflexivity.
  - reflexivity.
Qed.

Lemma non_skipped_user fs : user_non_skipped (map as_fitted fs) = (es <- non_skipped fs ;; Ok (map (fun ne => (fst ne, as_user (snd ne))) es)).
Proof.
  unfold user_non_skipped, non_skipped. assert (G : forall es : dict effect, foldM (fun out f => let '(name, u, _) := f in skip <- user_skips u ;; Ok (if (skip : bool) then out else dict_set out name u)) (map (fun ne => (fst ne, as_user (snd ne))) es) (map as_fitted fs) =
    (es <- foldM (fun out f => let '(name, e, _) := f in skip <- should_skip_predict e ;; Ok (if (skip : bool) then out else dict_set out name e)) es fs ;; Ok (map (fun ne => (fst ne, as_user (snd ne))) es))).
  2:{ exact (G []). }
  induction fs as [|[[name e] cols] fs IH]; intros es; [reflexivity|]. cbn [map foldM]. unfold as_fitted at 1. cbn [fst snd]. rewrite skip_user. destruct (should_skip_predict e) as [[]|]; cbn [bind]; [apply IH| |reflexivity].
  rewrite <- IH. f_equal. clear. induction es as [|[k w] es IH]; [reflexivity|]. cbn [map dict_set fst snd]. destruct (String.eqb name k); [reflexivity|]. cbn [map fst snd]. now rewrite IH.
Qed.
End Instance.
