(** Property C85, continued: arrays that do not fit together, tables whose labels do not fit their
    values, and calls before a fit. *)
From Coq Require Import Reals String Bool ZArith List.
From Verif.Model Require Import Base Num XFloat Arr Frame Expand Aggregate Scale Predict Prog Likelihood Trend Effect
  TrendProg Engine Forecaster History.
From Verif.Facts Require Import EffectExamples ForecasterExamples EngineExamples HistoryExamples TotalExamples ComponentExamples RaiseArrays.
From Verif.Props Require Import PropRaise.
Import ListNotations.
Local Open Scope string_scope.

(** [pd.DataFrame(data, index=index)] *)
Theorem C85_table : forall levels cols index data e,
  frame_of levels cols index data = Err e <-> e = ValueError /\ List.length index <> List.length data.
Proof. exact raise_frame_of. Qed.

(** matrix product: the last axis must have one entry per coefficient *)
Theorem C85_product : forall a coefs e,
  matrix_multiplication a coefs = Err e <-> e = TypeError /\ forall sh, a_shape a <> (sh ++ [List.length coefs])%list.
Proof. exact raise_matmul. Qed.

(** the piecewise trend: one coefficient per column of the changepoint matrix; offsets, if more than
    one, as many as there are rows (one series) or series (several) *)
Theorem C85_trend_single : forall squeeze n rows offset coefs e,
  piecewise_predict squeeze n (D2 rows) offset coefs = Err e <->
  e = TypeError /\ ((exists r, In r rows /\ List.length r <> List.length coefs) \/
    (List.length rows <> List.length offset /\ List.length rows <> 1%nat /\ List.length offset <> 1%nat)).
Proof. exact raise_piecewise2. Qed.
Theorem C85_trend_panel : forall squeeze n series offset coefs e,
  piecewise_predict squeeze n (D3 series) offset coefs = Err e <->
  e = TypeError /\ ((exists s r, In s series /\ In r s /\ List.length r <> List.length coefs) \/
    (List.length series <> List.length offset /\ List.length series <> 1%nat /\ List.length offset <> 1%nat)).
Proof. exact raise_piecewise3. Qed.

Section Any.
Variable ns_of : Z -> Z.
Variable order : list string -> list string.
Variable keep : path -> bool.
Context {TS : Type}.
Variable tr_fit_transform : TS -> frame R -> TS * res (frame R).
Variable tr_transform : TS -> frame R -> res (frame R).
Context {P : Type}.
Variable svi_run : Z -> nat -> nat -> prog arr -> res (list xr * P).
Variable nuts_run : Z -> nat -> nat -> nat -> prog arr -> res (nat -> nat -> env).
Variable latent_sites : prog arr -> list string.
Variable guide_draw : P -> Z -> nat -> prog arr -> env.
Variable complete_draw : env -> Z -> nat -> prog arr -> env.
Notation step := (step ns_of order keep tr_fit_transform tr_transform svi_run nuts_run latent_sites guide_draw complete_draw).
Notation calls := (calls ns_of order keep tr_fit_transform tr_transform svi_run nuts_run latent_sites guide_draw complete_draw).

(** Until a fit succeeds, every prediction method and every update is rejected and changes nothing
    (sktime's NotFittedError is a ValueError). *)
Theorem C85_not_fitted : forall c ob cs cl,
  (forall cs1 y X cs2, cs = (cs1 ++ Fit y X :: cs2)%list -> snd (step c (calls c (new_state ob) cs1) (Fit y X)) <> Ok ODone) ->
  (forall y X, cl <> Fit y X) ->
  step c (calls c (new_state ob) cs) cl = (calls c (new_state ob) cs, Err ValueError).
Proof. exact (c85_not_fitted ns_of order keep tr_fit_transform tr_transform svi_run nuts_run latent_sites guide_draw complete_draw). Qed.
End Any.

Print Assumptions C85_table.
Print Assumptions C85_product.
Print Assumptions C85_trend_single.
Print Assumptions C85_trend_panel.
Print Assumptions C85_not_fitted.

Example C85_products_nonvacuous :
  matrix_multiplication (mkArr [2; 2] [1; 2; 3; 4]%R) [1]%R = Err TypeError /\
  (exists a, matrix_multiplication (mkArr [2; 2] [1; 2; 3; 4]%R) [1; 1]%R = Ok a) /\
  piecewise_predict true 1 (D2 [[1]; [2]]%R) [0]%R [1; 1]%R = Err TypeError /\
  piecewise_predict true 2 (D3 [[[1]]; [[2]]]%R) [0; 0; 0]%R [1]%R = Err TypeError /\
  frame_of 0 ["y"] [([], 0%Z)] [] = Err ValueError.
Proof. split; [reflexivity|]. split; [eexists; reflexivity|]. repeat split. Qed.

(** a fit that is rejected, then a forecast *)
Example C85_not_fitted_nonvacuous :
  let st := History.calls ex_ns sorted_sets keep_all ex_fit_transform ex_transform ex_svi ex_nuts comp_latent ex_guide ex_complete
              (total_config "linear" "normal" "mcmc") (new_state (no_objects None)) [Fit ex_y (Some (short Xu))] in
  History.step ex_ns sorted_sets keep_all ex_fit_transform ex_transform ex_svi ex_nuts comp_latent ex_guide ex_complete
    (total_config "linear" "normal" "mcmc") st (Predict Point (Some Xu) (Relative [1%Z])) = (st, Err ValueError).
Proof.
  intros st. unfold st. apply C85_not_fitted; [|discriminate].
  intros cs1 y X cs2 E. destruct cs1 as [|x [|x' cs1]]; [|discriminate|discriminate]. injection E as <- <- _.
  cbn [History.step]. unfold do_fit. destruct (fit_forecaster _ _ _ _ _ _ _ _ _ _ _) as [ob [f|e]] eqn:F; [|discriminate].
  exfalso. destruct C85_training_dates_nonvacuous as (_ & _ & H).
  apply (H f).
  unfold new_state in F. cbn [st_objects] in F. match goal with |- snd ?t = _ => replace t with (ob, Ok f) by (symmetry; exact F) end. reflexivity.
Qed.
