(** The same dates in two horizons: the frames built when no exogenous data are given. *)
From Coq Require Import Reals Lra ZArith String Ascii Bool List Lia Sorted Permutation.
From Verif.Model Require Import Base Num XFloat Frame Arr Prog Likelihood Effect Trend TrendProg Aggregate Scale Expand Engine Forecaster.
From Verif.Spec Require Import FrameSpec ProgSpec EffectSpec AlignSpec ShapeSpec ForecasterSpec SiteSpec OverlapSpec.
From Verif.Facts Require Import BaseFacts FrameFacts OrderFacts PanelTrend PanelForecast HorizonFacts LogisticFit OverlapFacts OverlapFrames.
Import ListNotations.
Local Open Scope string_scope.

(** * The dates of both horizons *)
Fixpoint put (t : Z) (l : list Z) : list Z :=
  match l with [] => [t] | u :: l' => if (t <? u)%Z then t :: l else if (t =? u)%Z then l else u :: put t l' end.
Definition both (ts1 ts2 : list Z) : list Z := fold_right put ts2 ts1.
Lemma put_In t u l : In u (put t l) <-> u = t \/ In u l.
Proof.
  induction l as [|v l IH]; cbn [put In]; [intuition|]. destruct (Z.ltb_spec t v); [cbn [In]; intuition|]. destruct (Z.eqb_spec t v) as [->|N]; cbn [In]; [intuition|]. rewrite IH. intuition.
Qed.
Lemma put_order t l : in_order l -> in_order (put t l).
Proof.
  induction 1 as [|v l S IH F]; cbn [put]; [repeat constructor|]. rewrite Forall_forall in F. destruct (Z.ltb_spec t v).
  - constructor; [constructor; [exact S|now apply Forall_forall]|]. constructor; [assumption|]. apply Forall_forall. intros u Hu. specialize (F u Hu). lia.
  - destruct (Z.eqb_spec t v) as [->|N]; [constructor; [exact S|now apply Forall_forall]|]. constructor; [exact IH|]. apply Forall_forall. intros u Hu. apply put_In in Hu as [->|Hu]; [lia|]. now apply F.
Qed.
Lemma both_In ts1 ts2 u : In u (both ts1 ts2) <-> In u ts1 \/ In u ts2.
Proof. unfold both. induction ts1 as [|t ts1 IH]; cbn [fold_right In]; [tauto|]. rewrite put_In, IH. intuition. Qed.
Lemma both_order ts1 ts2 : in_order ts2 -> in_order (both ts1 ts2).
Proof. intros O. unfold both. induction ts1 as [|t ts1 IH]; cbn [fold_right]; [exact O|]. now apply put_order. Qed.
Lemma filter_order (p : Z -> bool) l : in_order l -> in_order (filter p l).
Proof.
  induction 1 as [|v l S IH F]; cbn [filter]; [constructor|]. destruct (p v); [|exact IH]. constructor; [exact IH|]. apply Forall_forall. intros u Hu. apply filter_In in Hu as [Hu _]. rewrite Forall_forall in F. now apply F.
Qed.
Lemma filter_part ts M : in_order ts -> in_order M -> incl ts M -> filter (fun t => existsb (Z.eqb t) ts) M = ts.
Proof.
  intros O OM I. apply sorted_unique; [now apply filter_order|exact O|]. intros t. rewrite filter_In, existsb_exists. split.
  - intros (_ & u & Hu & E). apply Z.eqb_eq in E. now subst.
  - intros H. split; [now apply I|]. exists t. split; [exact H|apply Z.eqb_refl].
Qed.

(** * Grids *)
Definition cells (ids : list path) (ts : list Z) : list (path * Z) := flat_map (fun p => map (fun t => (p, t)) ts) ids.
Lemma filter_cells ids ts M : in_order ts -> in_order M -> incl ts M -> filter (fun pt => existsb (Z.eqb (snd pt)) ts) (cells ids M) = cells ids ts.
Proof.
  intros O OM I. unfold cells. induction ids as [|p ids IH]; [reflexivity|]. cbn [flat_map]. rewrite filter_app, IH. f_equal.
  transitivity (map (fun t => (p, t)) (filter (fun t => existsb (Z.eqb t) ts) M)); [|now rewrite filter_part]. clear. induction M as [|t M IH]; [reflexivity|]. cbn [map filter snd]. destruct (existsb _ _); cbn [map]; now rewrite IH.
Qed.
Lemma empty_cells lv ids ts M : in_order ts -> in_order M -> incl ts M -> filter_fh ts (empty_frame lv (cells ids M)) = empty_frame lv (cells ids ts).
Proof.
  intros O OM I. unfold filter_fh, filter_rows, empty_frame. cbn [f_levels f_cols f_rows]. f_equal. rewrite <- (filter_cells ids ts M O OM I). clear.
  induction (cells ids M) as [|pt l IH]; [reflexivity|]. cbn [map filter r_time]. destruct (existsb _ _); cbn [map]; now rewrite IH.
Qed.
Lemma empty_labels lv index : labels (empty_frame lv index) = index.
Proof. unfold labels, empty_frame. cbn [f_rows]. rewrite map_map. cbn [r_path r_time]. rewrite <- (map_id index) at 2. apply map_ext. now intros []. Qed.
Lemma cells_ids lv ids M : NoDup ids -> M <> [] -> series_ids (empty_frame lv (cells ids M)) = ids.
Proof.
  intros N E. unfold series_ids. replace (map r_path (f_rows (empty_frame lv (cells ids M)))) with (map fst (cells ids M)).
  - unfold cells. rewrite fst_blocks. destruct M as [|t M]; [congruence|]. now apply (unique_groups (fun _ => List.length M)).
  - unfold empty_frame. cbn [f_rows]. rewrite map_map. reflexivity.
Qed.
Lemma cells_cover lv ids ts M : NoDup ids -> M <> [] -> in_order ts -> in_order M -> incl ts M -> (lv = 0 -> ids = [[]]) -> covers (empty_frame lv (cells ids M)) ts.
Proof.
  intros N E O OM I L. unfold covers. rewrite filter_dates. change (labels (filter_fh ts (empty_frame lv (cells ids M))) = flat_map (fun p => map (fun t => (p, t)) ts) (series_of (empty_frame lv (cells ids M)))).
  rewrite empty_cells, empty_labels by assumption. unfold cells at 1. f_equal. unfold series_of. change (f_levels (empty_frame lv (cells ids M))) with lv. destruct lv; [now apply L|]. now rewrite cells_ids.
Qed.
Lemma cells_wf lv ids M : (forall p, In p ids -> List.length p = lv) -> frame_wf (empty_frame lv (cells ids M)).
Proof.
  intros H r Hr. unfold empty_frame in Hr. cbn [f_rows] in Hr. apply in_map_iff in Hr as ([p t] & <- & Hr). cbn. split; [reflexivity|]. unfold cells in Hr. apply in_flat_map in Hr as (q & Hq & Hr). apply in_map_iff in Hr as (u & E & _). injection E as <- <-. now apply H.
Qed.

(** sorting *)
Definition pkey (p : path) : path * Z := (p, 0%Z).
Lemma key_sorted_app {A} (key : A -> path * Z) l1 l2 : key_sorted key l1 -> key_sorted key l2 -> (forall x y, In x l1 -> In y l2 -> label_leb (key x) (key y) = true) -> key_sorted key (l1 ++ l2).
Proof.
  intros S1 S2 H. induction S1 as [|x l Hx S IH]; [exact S2|]. cbn [app]. constructor.
  - intros y Hy. apply in_app_or in Hy as [Hy|Hy]; [now apply Hx|]. apply H; [now left|exact Hy].
  - apply IH. intros a b Ha Hb. apply H; [now right|exact Hb].
Qed.
Lemma cells_sorted ids M : key_sorted pkey ids -> NoDup ids -> in_order M -> key_sorted (fun x => x) (cells ids M).
Proof.
  intros S N O. unfold cells. induction S as [|p ids Hp S IH]; [constructor|]. inversion_clear N as [|? ? I N']. cbn [flat_map]. apply key_sorted_app; [|now apply IH|].
  - clear -O. induction O as [|t M S IH F]; cbn [map]; constructor; [|exact IH]. intros y Hy. apply in_map_iff in Hy as (u & <- & Hu). unfold label_leb. cbn [fst snd]. rewrite path_cmp_refl. apply Z.leb_le. rewrite Forall_forall in F. specialize (F _ Hu). lia.
  - intros x y Hx Hy. apply in_map_iff in Hx as (t & <- & _). apply in_flat_map in Hy as (q & Hq & Hy). apply in_map_iff in Hy as (u & <- & _). specialize (Hp q Hq). unfold label_leb, pkey in *. cbn [fst snd] in *.
    destruct (path_cmp p q) eqn:C; auto. apply path_cmp_eq in C. subst. contradiction.
Qed.
Lemma sort_cells lv ids M : NoDup ids -> in_order M -> sort_index (empty_frame lv (cells ids M)) = empty_frame lv (cells (key_sort pkey ids) M).
Proof.
  intros N O. unfold sort_index, empty_frame. cbn [f_levels f_cols f_rows]. f_equal. rewrite <- (key_sort_map (fun x : path * Z => x) label (fun pt => mkRow (fst pt) (snd pt) (@nil R))) by (now intros []). f_equal.
  assert (NI : NoDup (key_sort pkey ids)) by (eapply Permutation_NoDup; [apply key_sort_perm|exact N]).
  apply (key_sorted_unique (fun x => x)); auto.
  - rewrite <- key_sort_perm. unfold cells. apply Permutation_flat_map, key_sort_perm.
  - apply key_sort_sorted.
  - apply cells_sorted; auto. apply key_sort_sorted.
Qed.
