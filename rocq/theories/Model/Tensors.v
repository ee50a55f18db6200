(** Public helpers which the forecasters do not call themselves. *)
From Coq Require Import Reals ZArith String List.
From Verif.Model Require Import Base Frame Trend Engine Forecaster.
Import ListNotations.
Local Open Scope string_scope.

(** utils/frame_to_array.py:99-120 [extract_timetensor_from_dataframe]: a frame with the index of [df] and
    one column of days since the epoch.  [ns_of] gives the nanoseconds of a time label; other than date and
    period indexes (returned as they are, line 36) are not modelled. *)
Definition time_frame {V} (ns_of : Z -> Z) (df : frame V) : frame R :=
  mkFrame (f_levels df) ["t"] (map (fun r => mkRow (r_path r) (r_time r) [days_since_epoch (ns_of (r_time r))]) (f_rows df)).
Definition extract_timetensor_from_dataframe {V} (ns_of : Z -> Z) (df : frame V) : res (list (list (list R))) :=
  series_to_tensor (time_frame ns_of df).

(** utils/frame_to_array.py:123-141 *)
Definition convert_dataframe_to_tensors {V} (ns_of : Z -> Z) (df : frame V) : res (list (list (list R)) * list (list (list V))) :=
  t_arrays <- extract_timetensor_from_dataframe ns_of df ;;
  df_as_arrays <- series_to_tensor df ;;
  Ok (t_arrays, df_as_arrays).

(** effects/trend/piecewise.py:239-248 *)
Definition n_changepoints (f : piecewise_fitted) : nat := list_sum (n_changepoint_per_series (pf_cps f)).

(** sktime/base.py:712-722: the keys of [posterior_samples_] *)
Definition site_names {P} (f : fitted (P := P)) : list string :=
  match ft_posterior f with IMcmc _ latent => latent | IMap _ latent => latent end.
