(** Target scaling: src/prophetverse/sktime/base.py:448-553. *)
From Coq Require Import Reals String Bool ZArith List.
From Verif.Model Require Import Base Num Frame.
Import ListNotations.

(** The attribute [_scale].  The Python code distinguishes the types [float], [int] and pandas
    objects.  [STable] is a DataFrame with one column, indexed by series; [SSeries] is a pandas
    Series indexed by series (its [.values] are one dimensional). *)
Inductive scale :=
| SFloat (c : R)
| SInt (z : Z)
| STable (tab : list (path * R))
| SSeries (tab : list (path * R)).

Fixpoint tab_get (tab : list (path * R)) (p : path) : option R :=
  match tab with
  | [] => None
  | (q, c) :: tl => if path_eqb p q then Some c else tab_get tl p
  end.

Definition replace01 (c : R) : R := if Reqb c 0 then 1%R else c.

(** [y.abs().max()] of the values of some rows; [None] when there are none *)
Definition abs_max (vals : list R) : option R :=
  match map Rabs vals with [] => None | x :: tl => Some (Rmax_list x tl) end.

(** base.py:469-482 [_set_y_scales].  The maximum over an empty frame is NaN in pandas; sktime
    rejects an empty target before, here it is an error.  [y] has one column. *)
Definition set_y_scales (user : option scale) (y : frame R) : res scale :=
  s <- match user with
       | Some s => Ok s
       | None =>
           match f_levels y with
           | 0 => match abs_max (flat_map r_vals (f_rows y)) with
                  | Some c => Ok (SFloat c)
                  | None => Err ValueError
                  end
           | _ => tab <- mapM (fun p => match abs_max (flat_map r_vals (rows_of y p)) with
                                        | Some c => Ok (p, c)
                                        | None => Err ValueError
                                        end) (series_ids y) ;;
                  Ok (STable tab)
           end
       end ;;
  match s with
  | SFloat c => Ok (if Reqb c 0 then SInt 1 else SFloat c)
  | SInt z => Ok (if Z.eqb z 0 then SInt 1 else SInt z)
  | STable tab => Ok (STable (map (fun pc => (fst pc, replace01 (snd pc))) tab))
  | SSeries tab => Ok (SSeries (map (fun pc => (fst pc, replace01 (snd pc))) tab))
  end.

Definition map_vals (g : list R -> list R) (f : frame R) : frame R :=
  mkFrame (f_levels f) (f_cols f) (map (fun r => mkRow (r_path r) (r_time r) (g (r_vals r))) (f_rows f)).

(** [self._scale.loc[y.index.droplevel(-1)].values]: one value per row; ValueError when there is no
    level left to drop to, KeyError for a series without scale. *)
Definition scale_for_each_obs (tab : list (path * R)) (y : frame R) : res (list R) :=
  match f_levels y with
  | 0 => Err ValueError
  | _ => mapM (fun r => match tab_get tab (r_path r) with Some c => Ok c | None => Err KeyError end) (f_rows y)
  end.

(** [y op values] for a DataFrame [y]: (n,1) values act per row, (n,) values act per column and
    must have as many entries as there are columns. *)
Definition by_row (op : R -> R -> R) (cs : list R) (y : frame R) : frame R :=
  mkFrame (f_levels y) (f_cols y)
    (map (fun rc => mkRow (r_path (fst rc)) (r_time (fst rc)) (map (fun v => op v (snd rc)) (r_vals (fst rc))))
         (combine (f_rows y) cs)).
Definition by_column (op : R -> R -> R) (cs : list R) (y : frame R) : res (frame R) :=
  if Nat.eqb (length cs) (length (f_cols y))
  then Ok (map_vals (fun vs => map (fun vc => op (fst vc) (snd vc)) (combine vs cs)) y)
  else Err ValueError.

(** shared shape of [_scale_y] (base.py:511-518, [op] is division) and [_inv_scale_y]
    (base.py:547-553, [op] is multiplication).  An [int] scale has no attribute [loc]. *)
Definition apply_scale (op : R -> R -> R) (discrete : bool) (s : scale) (y : frame R) : res (frame R) :=
  if discrete then Ok y
  else match s with
       | SFloat c => Ok (map_vals (map (fun v => op v c)) y)
       | SInt _ => Err AttributeError
       | STable tab => cs <- scale_for_each_obs tab y ;; Ok (by_row op cs y)
       | SSeries tab => cs <- scale_for_each_obs tab y ;; by_column op cs y
       end.

Definition scale_y := apply_scale Rdiv.
Definition inv_scale_y := apply_scale Rmult.
