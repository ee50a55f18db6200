(** Effects that find no columns. *)
From Coq Require Import Reals String ZArith List.
From Verif.Model Require Import Base Num XFloat Regex Frame Arr Prog Likelihood Effect TrendProg Engine Predict Forecaster.
From Verif.Spec Require Import ForecasterSpec.
Import ListNotations.

(** there is no pattern, or it is a pattern of the supported kind *)
Definition readable (regex : option string) : Prop := forall p, regex = Some p -> exists r, compile p = Some r.

(** an effect of a class that is skipped without columns, which finds none: its pattern matches nothing at all, or, for
    the univariate forecaster without a feature transformer, it matches no column of X *)
Definition idle {TS} (c : config) (ob : objects (TS := TS)) (X : option (frame R)) (l : listed) : Prop :=
  skip_if_no_match (l_effect l) = true /\ readable (l_regex l) /\
  (supports_multivariate (l_effect l) = true /\ (forall x, ~ matched (l_regex l) x) \/
   exists X0, c_hier c = false /\ o_transformer ob = None /\ X = Some X0 /\
     (supports_multivariate (l_effect l) = true \/ f_levels X0 = 0) /\ forall x, In x (f_cols X0) -> ~ matched (l_regex l) x).

(** two fitted forecasters predict the same, with every method *)
Section Forecasts.
Variable ns_of : Z -> Z.
Variable keep : path -> bool.
Context {TS P : Type}.
Variable tr_transform : TS -> frame R -> res (frame R).
Variable guide_draw : P -> Z -> nat -> prog arr -> env.
Variable complete_draw : env -> Z -> nat -> prog arr -> env.
Notation forecast_samples := (forecast_samples ns_of keep tr_transform guide_draw complete_draw).
Notation forecast_point := (forecast_point ns_of keep tr_transform guide_draw complete_draw).
Notation forecast_quantiles := (forecast_quantiles ns_of keep tr_transform guide_draw complete_draw).
Notation forecast_all_sites := (forecast_all_sites ns_of keep tr_transform guide_draw complete_draw).
Notation forecast_all_sites_samples := (forecast_all_sites_samples ns_of keep tr_transform guide_draw complete_draw).
Definition same_forecasts (c c' : config) (f f' : fitted (P := P)) : Prop := forall ob y X fh,
  snd (forecast_samples c' ob f' y X fh) = snd (forecast_samples c ob f y X fh) /\ snd (forecast_point c' ob f' y X fh) = snd (forecast_point c ob f y X fh) /\
  (forall alpha, snd (forecast_quantiles c' ob f' y X fh alpha) = snd (forecast_quantiles c ob f y X fh alpha)) /\
  snd (forecast_all_sites c' ob f' y X fh) = snd (forecast_all_sites c ob f y X fh) /\
  snd (forecast_all_sites_samples c' ob f' y X fh) = snd (forecast_all_sites_samples c ob f y X fh).
End Forecasts.
