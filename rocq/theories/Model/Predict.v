(** From predictive draws to data frames: src/prophetverse/sktime/base.py:274-446, 555-643, 724-764
    and sktime/multivariate.py:349-390. *)
From Coq Require Import Reals String Bool ZArith List Decimal DecimalString.
From Verif.Model Require Import Base Num Arr Frame Aggregate Scale.
Import ListNotations.
Local Open Scope string_scope.

(** column label of sample i (an integer in pandas) *)
Definition sample_name (i : nat) : string := NilEmpty.string_of_uint (Nat.to_uint i).

(** What the labelling code reads from the fitted forecaster: number of series levels of [self._y],
    the index [internal_y_indexes_] (as labels) and which class it is. *)
Record labeller := mkLab {
  lb_levels : nat;                    (* self._y.index.nlevels - 1 *)
  lb_index : list (path * Z);         (* internal_y_indexes_ *)
  lb_hier : bool;                     (* HierarchicalProphet overrides _filter_series_tuples *)
  lb_scale : scale;
  lb_discrete : bool }.

(** multivariate.py:368-390 / base.py:625-643 [_filter_series_tuples]; [levels[0]] and [idx[-1]] are
    read by the hierarchical version only. *)
Definition filter_series_tuples (hier : bool) (l : list path) : list path :=
  if hier then filter (fun p => negb (String.eqb (last p "") total_name)) l else l.

(** base.py:592-623 [periodindex_to_multiindex]; [series_id_tuples[0]] fails on an empty index. *)
Definition periodindex_to_multiindex (lb : labeller) (times : list Z) : res (list (path * Z)) :=
  match lb_levels lb with
  | 0 => Ok (map (fun t => ([], t)) times)
  | _ =>
      match paths_unique (map fst (lb_index lb)) with
      | [] => Err IndexError
      | ids => Ok (flat_map (fun p => map (fun t => (p, t)) times) (filter_series_tuples (lb_hier lb) ids))
      end
  end.

(** [pd.DataFrame(data=rows, index=index)]; the lengths must agree. *)
Definition frame_of (levels : nat) (cols : list string) (index : list (path * Z)) (data : list (list R))
  : res (frame R) :=
  if Nat.eqb (length index) (length data)
  then Ok (mkFrame levels cols (map (fun lr => mkRow (fst (fst lr)) (snd (fst lr)) (snd lr)) (combine index data)))
  else Err ValueError.

(** [a.reshape((-1, n))] as a list of rows; the size must be a multiple of n (n > 0). *)
Definition rows_of_width (n : nat) (a : arr) : res (list (list R)) :=
  match n with
  | 0 => Err TypeError
  | _ => if Nat.eqb (Nat.modulo (length (a_flat a)) n) 0
         then Ok (chunks n (Nat.div (length (a_flat a)) n) (a_flat a)) else Err TypeError
  end.

(** base.py:431-446 [predict_samples] for an estimator that is not vectorised. [times] is
    [fh_to_index(fh)], [draws] the result of the inference engine. *)
Definition predict_samples_base (lb : labeller) (times : list Z) (draws : dict arr) : res (frame R) :=
  obs <- dict_item draws "obs" ;;
  match a_shape obs with
  | [] => Err IndexError
  | n :: _ =>
      data <- rows_of_width n (transpose obs) ;;
      index <- periodindex_to_multiindex lb times ;;
      preds <- frame_of (lb_levels lb) (map sample_name (seq 0 n)) index data ;;
      inv_scale_y (lb_discrete lb) (lb_scale lb) (sort_index preds)
  end.

(** multivariate.py:349-366: the samples are aggregated again *)
Definition predict_samples (keep : path -> bool) (lb : labeller) (times : list Z) (draws : dict arr)
  : res (frame R) :=
  s <- predict_samples_base lb times draws ;;
  Ok (if lb_hier lb then aggregate keep s else s).

(** base.py:290-293 [_predict]: row means, one column named like the target *)
Definition point_forecast (target : string) (samples : frame R) : frame R :=
  mkFrame (f_levels samples) [target]
    (map (fun r => mkRow (r_path r) (r_time r) [Rmean (r_vals r)]) (f_rows samples)).

(** [pandas.DataFrame.quantile(interpolation="linear")] of one row: position alpha*(n-1) in the sorted
    values. *)
Definition quantile (vals : list R) (alpha : R) : R :=
  let s := Rsort vals in
  let pos := (alpha * INR (length vals - 1))%R in
  let lo := Z.to_nat (Rfloor pos) in
  let w := (pos - IZR (Rfloor pos))%R in
  let x := nth lo s 0%R in
  let y := nth (Nat.min (S lo) (length vals - 1)) s 0%R in
  (x + w * (y - x))%R.

(** base.py:576-590 [_predict_quantiles]; levels outside [0,1] are rejected by pandas.  The columns
    are labelled with the levels, in order ([q_levels]). *)
Record quantiles := mkQ { q_levels : list R; q_frame : frame R }.
Definition predict_quantiles (alpha : list R) (samples : frame R) : res quantiles :=
  if forallb (fun a => Rleb 0 a && Rleb a 1)%bool alpha
  then Ok (mkQ alpha (mkFrame (f_levels samples) (map (fun _ => "") alpha)
         (map (fun r => mkRow (r_path r) (r_time r) (map (quantile (r_vals r)) alpha)) (f_rows samples))))
  else Err ValueError.

(** [data.mean(axis=0)] of one site *)
Definition mean0 (a : arr) : res arr :=
  match a_shape a with
  | [] => Err ValueError
  | n :: sh => Ok (mkArr sh (map (fun j => Rmean (map (fun s => nth (s * prod_shape sh + j) (a_flat a) 0%R) (seq 0 n)))
                                 (seq 0 (prod_shape sh))))
  end.

(** base.py:319-330 [predict_all_sites] *)
Definition predict_all_sites (lb : labeller) (times : list Z) (draws : dict arr) : res (frame R) :=
  sites <- mapM (fun kv => m <- mean0 (snd kv) ;; Ok (fst kv, flatten m)) draws ;;
  index <- periodindex_to_multiindex lb times ;;
  if forallb (fun s => Nat.eqb (length (snd s)) (length index)) sites
  then inv_scale_y (lb_discrete lb) (lb_scale lb)
         (sort_index (mkFrame (lb_levels lb) (map fst sites)
            (map (fun i => mkRow (fst (nth i index ([], 0%Z))) (snd (nth i index ([], 0%Z)))
                                 (map (fun s => nth i (snd s) 0%R) sites)) (seq 0 (length index)))))
  else Err ValueError.

(** base.py:382-413 [predict_all_sites_samples]: one row per sample and label; no inverse scaling.
    The concatenation of the per-site frames is modelled for sites with the same number of samples
    (otherwise pandas fills with NaN; here an error). *)
Record sample_row := mkSR { sr_sample : nat; sr_path : path; sr_time : Z; sr_vals : list R }.
Definition predict_all_sites_samples (lb : labeller) (times : list Z) (draws : dict arr)
  : res (list string * list sample_row) :=
  index <- periodindex_to_multiindex lb times ;;
  match draws with
  | [] => Err ValueError
  | (_, a0) :: _ =>
      match a_shape a0 with
      | [] => Err IndexError
      | n :: _ =>
          if forallb (fun kv => match a_shape (snd kv) with m :: _ => Nat.eqb m n | [] => false end
                                && Nat.eqb (length (a_flat (snd kv))) (n * length index))%bool draws
          then Ok (map fst draws,
                   flat_map (fun s => map (fun i =>
                     mkSR s (fst (nth i index ([], 0%Z))) (snd (nth i index ([], 0%Z)))
                          (map (fun kv => nth (s * length index + i) (a_flat (snd kv)) 0%R) draws))
                     (seq 0 (length index))) (seq 0 n))
          else Err ValueError
      end
  end.

(** base.py:724-764 [_vectorize_predict_method]: one forecaster per series, called with its rows of X
    without series levels; the results are concatenated as they are. *)
Definition drop_levels (f : frame R) : frame R :=
  mkFrame 0 (f_cols f) (map (fun r => mkRow [] (r_time r) (r_vals r)) (f_rows f)).
Definition vectorize_predict (forecasters : list (path * (option (frame R) -> res (frame R))))
  (X : option (frame R)) : res (frame R) :=
  outs <- mapM (fun pf =>
            match X with
            | None => snd pf None
            | Some x => xi <- get_multiindex_loc x [fst pf] ;; snd pf (Some (drop_levels xi))
            end) forecasters ;;
  match outs with
  | [] => Err ValueError
  | o :: _ => Ok (mkFrame (f_levels o) (f_cols o) (flat_map (fun o => f_rows o) outs))
  end.
