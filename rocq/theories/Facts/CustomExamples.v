(** Examples of user-written effects (C95-C97). *)
From Coq Require Import Reals String Bool ZArith List Lia Lra Arith.
From Verif.Model Require Import Base Num Regex Frame Arr Expand Prog Likelihood Effect Forecaster Custom.
From Verif.Spec Require Import ProgSpec ForecasterSpec ComponentSpec CustomSpec.
From Verif.Facts Require Import BaseFacts EffectExamples CustomFacts CustomViews CustomCalls.
Import ListNotations.
Local Open Scope string_scope.

(** a class which remembers the columns it was fitted with, prepares the table it is given, and has the first column as its values *)
Definition watcher (m : option mode) (filtered : bool) : user_class (list string) (frame R) :=
  mkClass false true filtered m [] true
    (fun cols _ _ _ _ => (cols, None)) (fun _ s X _ => (s, Ok X))
    (fun _ _ X _ => Ret (mkArr [List.length (f_rows X)] (map (fun r => nth 0 (r_vals r) 0%R) (f_rows X)))).
Definition fresh (m : option mode) (filtered : bool) : user_effect (list string) (frame R) := user_new (watcher m filtered).
Definition seen (m : option mode) (filtered : bool) (cols : list string) : user_effect (list string) (frame R) :=
  mkUser (watcher m filtered) cols (mkBase (Some cols) (Some true)).
Definition ey : frame R := mkFrame 0 ["y"] [mkRow [] 0 [4]; mkRow [] 1 [5]; mkRow [] 7 [6]]%R.

Lemma watch_fit m : user_fit_effects (fresh m true) [("a", fresh m true, Some "tv"); ("b", fresh m true, Some "radio")] ey (Some Xu) 1%R =
  Ok [("a", seen m true ["tv"], ["tv"]); ("b", seen m true [], []); (default_name, seen m true ["web"], ["web"])].
Proof. reflexivity. Qed.

(** a forecast with exchanged columns and one more column and row *)
Lemma watch_transform m : user_transform_effects [("a", seen m true ["tv"], ["tv"]); ("b", seen m true [], []); (default_name, seen m true ["web"], ["web"])] Xv [0; 1; 7]%Z [] =
  ([("a", seen m true ["tv"], ["tv"]); ("b", seen m true [], []); (default_name, seen m true ["web"], ["web"])],
   Ok [("a", Some (mkFrame 0 ["tv"] [mkRow [] 0 [1]; mkRow [] 1 [2]; mkRow [] 7 [3]]))%R; (default_name, Some (mkFrame 0 ["web"] [mkRow [] 0 [10]; mkRow [] 1 [20]; mkRow [] 7 [30]]))%R]).
Proof. reflexivity. Qed.

Lemma Xv_wf : frame_wf Xv.
Proof. intros r H. simpl in H. intuition (subst; reflexivity). Qed.

Lemma watch_same m : forall f, In f [("a", seen m true ["tv"], ["tv"]); ("b", seen m true [], []); (default_name, seen m true ["web"], ["web"])] ->
  same_values (snd f) Xu Xv (view_rows (snd (fst f)) [0; 1; 7]%Z Xu) (view_rows (snd (fst f)) [0; 1; 7]%Z Xv).
Proof.
  assert (F : forall cols, (forall c, In c cols -> c = "tv" \/ c = "web") -> same_values cols Xu Xv (in_horizon [0; 1; 7]%Z Xu) (in_horizon [0; 1; 7]%Z Xv)).
  { intros cols C. split; [reflexivity|]. split.
    - intros c I. destruct (C c I) as [-> | ->]; split; simpl; auto.
    - change (in_horizon [0; 1; 7]%Z Xu) with [mkRow [] 0 [1; 10]; mkRow [] 1 [2; 20]; mkRow [] 7 [3; 30]]%R.
      change (in_horizon [0; 1; 7]%Z Xv) with [mkRow [] 0 [10; 5; 1]; mkRow [] 1 [20; 5; 2]; mkRow [] 7 [30; 5; 3]]%R.
      repeat (apply Forall2_cons; [split; [reflexivity|]; split; [reflexivity|]; intros c I; destruct (C c I) as [-> | ->]; reflexivity|]). constructor. }
  intros f [<-|[<-|[<-|[]]]]; cbn [fst snd]; apply F; simpl; intuition congruence.
Qed.

(** all rows for a class which asks for them *)
Lemma watch_all m : user_transform (seen m false ["tv"]) (Some Xv) [0; 7]%Z =
  (seen m false ["tv"], Ok (Some (mkFrame 0 ["tv"] [mkRow [] 0 [1]; mkRow [] 1 [2]; mkRow [] 9 [0]; mkRow [] 7 [3]])))%R.
Proof. reflexivity. Qed.

(** without the filter, a row outside the horizon reaches [_transform] *)
Lemma watch_rows : user_transform (seen None false ["tv"]) (Some Xu) [0; 1; 7]%Z <> user_transform (seen None false ["tv"]) (Some Xv) [0; 1; 7]%Z.
Proof. intros H. apply (f_equal (fun x => match snd x with Ok (Some X) => List.length (f_rows X) | _ => 0 end)) in H. discriminate H. Qed.

(** * calls *)
Definition lfresh (m : option mode) : user_effect (list string * list call) (frame R) := user_new (logged (watcher m true)).
Lemma log_example m : exists fitted, user_fit_effects (lfresh m) [("a", lfresh m, Some "tv"); ("b", lfresh m, Some "radio")] ey (Some Xu) 1%R = Ok fitted /\
  map (fun f => calls (snd (fst f))) fitted = [[CalledFit]; [CalledFit]; [CalledFit]] /\
  all_transformed fitted [(Xu, [0; 1; 7]%Z); (Xv, [9]%Z)] /\
  map (fun f => (fst (fst f), calls (snd (fst f)))) (after_transforms fitted [(Xu, [0; 1; 7]%Z); (Xv, [9]%Z); (Xnone, [0]%Z)]) =
    [("a", [CalledFit; CalledTransform; CalledTransform]); ("b", [CalledFit]); (default_name, [CalledFit; CalledTransform; CalledTransform])].
Proof.
  eexists. split; [reflexivity|]. split; [reflexivity|]. split; [|reflexivity]. cbn [all_transformed]. split; [eexists; reflexivity|]. split; [eexists; reflexivity|exact I].
Qed.

(** * shapes *)
Definition column3 : arr := mkArr [3; 1] [5; 6; 7]%R.
Definition X3 : frame R := mkFrame 0 ["tv"] [mkRow [] 0 [1]; mkRow [] 1 [2]; mkRow [] 7 [3]]%R.
Lemma column3_regular : regular column3.
Proof. split; [reflexivity|discriminate]. Qed.

(** a class with a mode: the values are a column, added to or multiplied with the trend *)
Lemma mode_mean : exists v w,
  run (fun _ _ => 0%R) [] (compute_mean_b (Ret column3) (Some [("a", Some X3); ("b", Some X3)])
     (Some (user_fns [("a", seen (Some Additive) true ["tv"]); ("b", seen (Some Multiplicative) true ["tv"])]))) = Ok (v, w) /\
  a_shape v = [3; 1] /\ a_flat v = [5 + 1 + 5 * 1; 6 + 2 + 6 * 2; 7 + 3 + 7 * 3]%R.
Proof. eexists. eexists. split; [reflexivity|]. split; reflexivity. Qed.

(** a class without a mode whose values are a vector of the right length: the mean is a table *)
Lemma vector_mean : exists v w,
  run (fun _ _ => 0%R) [] (compute_mean_b (Ret column3) (Some [("a", Some X3)]) (Some (user_fns [("a", seen None true ["tv"])]))) = Ok (v, w) /\
  a_shape v = [3; 3] /\ a_flat v = [5 + 1; 5 + 2; 5 + 3; 6 + 1; 6 + 2; 6 + 3; 7 + 1; 7 + 2; 7 + 3]%R.
Proof. eexists. eexists. split; [reflexivity|]. split; reflexivity. Qed.

(** a trend whose values are a vector: every effect with a mode makes a column, and the mean is a table *)
Lemma vector_trend : exists v w,
  run (fun _ _ => 0%R) [] (compute_mean_b (Ret (mkArr [3] [5; 6; 7]%R)) (Some [("a", Some X3)]) (Some (user_fns [("a", seen (Some Additive) true ["tv"])]))) = Ok (v, w) /\
  a_shape v = [3; 3] /\ a_flat v = [5 + 1; 6 + 1; 7 + 1; 5 + 2; 6 + 2; 7 + 2; 5 + 3; 6 + 3; 7 + 3]%R.
Proof. eexists. eexists. split; [reflexivity|]. split; reflexivity. Qed.
