(** Facts about warnings. *)
From Coq Require Import Reals String Bool ZArith List Permutation Lia.
From Verif.Model Require Import Base Num XFloat Regex Frame Arr Expand Aggregate Scale Prog Likelihood Effect TrendProg Engine Forecaster Warn.
From Verif.Spec Require Import RegexSpec FrameSpec ProgSpec ForecasterSpec ResponseSpec CopySpec WarnSpec.
From Verif.Facts Require Import BaseFacts RegexFacts ForecasterFacts ForecasterInv ForecasterProps ResponseForecaster CopyFacts.
Import ListNotations.
Local Open Scope string_scope.

Lemma nth_error_firstn {A} (l : list A) n k : k < n -> nth_error (firstn n l) k = nth_error l k.
Proof. revert n k. induction l as [|a l IH]; intros [|n] [|k] L; cbn; try reflexivity; try lia. apply IH. lia. Qed.

Section Effects.
Variable order : list string -> list string.

Lemma listed_result X s used effects : snd (fit_listed order X s used effects) = mapM (fit_one order X s) effects.
Proof.
  revert used. induction effects as [|l tl IH]; intros used; cbn [fit_listed mapM]; [reflexivity|].
  destruct (fit_one order X s l) as [f|]; [|reflexivity]. cbn [bind]. specialize (IH (used ++ snd f)%list). destruct (fit_listed _ _ _ _ tl) as [ws r]. cbn [snd] in *. now rewrite IH.
Qed.
Theorem warn_result default effects X s : snd (fit_effects_warn order default effects X s) = fit_effects order default effects X s.
Proof.
  unfold fit_effects_warn, fit_effects. pose proof (listed_result X s [] effects) as E. destruct (fit_listed _ _ _ _ _) as [ws r]. cbn [snd] in *. now rewrite E.
Qed.

Lemma fit_one_cols (X : frame R) s l f : fit_one order (Some X) s l = Ok f -> forall c, In c (snd f) <-> In c (f_cols X) /\ matched (l_regex l) c.
Proof.
  intros H. assert (M : mapM (fit_one order (Some X) s) [l] = Ok [f]) by (cbn [mapM]; rewrite H; reflexivity).
  apply mapM_fit in M. inversion M as [|a b la lb (N & C & _) T]; subst. exact C.
Qed.
Lemma listed_warns (X : frame R) s before used : (forall c, In c used <-> In c (f_cols X) /\ exists l', In l' before /\ matched (l_regex l') c) ->
  forall effects ws r, fit_listed order (Some X) s used effects = (ws, r) ->
  exists n wss, ws = concat wss /\ List.length wss = n /\ n <= List.length effects /\
    (forall k l w, nth_error effects k = Some l -> nth_error wss k = Some w -> warns X (before ++ firstn k effects) l w) /\
    match r with
    | Ok _ => n = List.length effects
    | Err e => exists l, nth_error effects n = Some l /\ fit_one order (Some X) s l = Err e
    end.
Proof.
  intros HU effects. revert before used HU. induction effects as [|l tl IH]; intros before used HU ws r H; cbn [fit_listed] in H.
  - injection H as <- <-. exists 0, []. repeat split; auto. intros [|k] l w; discriminate.
  - destruct (fit_one order (Some X) s l) as [f|e] eqn:F.
    2: { injection H as <- <-. exists 0, []. repeat split; cbn; auto; try lia; [|exists l; auto]. intros k l' w _ E. destruct k; discriminate. }
    pose proof (fit_one_cols _ _ _ _ F) as C. destruct (fit_listed _ _ _ _ tl) as [ws' r'] eqn:E in H.
    destruct (IH (before ++ [l])%list (used ++ snd f)%list) with (2 := E) as (n & wss & -> & LW & LE & WS & RR).
    { intros c. rewrite in_app_iff, HU, C. split.
      - intros [(I & l' & Hl & M)|(I & M)]; (split; [exact I|]); [exists l'|exists l]; rewrite in_app_iff; cbn; auto.
      - intros (I & l' & Hl & M). apply in_app_iff in Hl as [Hl|[<-|[]]]; [left|right]; eauto. }
    injection H as <- <-. set (common := filter (fun c => str_in c used) (snd f)).
    assert (CC : forall c, In c common <-> contested X before l c).
    { intros c. unfold common, contested. rewrite filter_In, str_in_iff, C, HU. tauto. }
    exists (S n), ((match common with [] => [] | _ => [AlreadySet common] end ++ match snd f with [] => [NoMatch (snd l)] | _ => [] end)%list :: wss).
    split; [cbn [concat]; now rewrite app_assoc|]. split; [cbn; lia|]. split; [cbn; lia|]. split.
    + intros [|k] l' w Hl Hw; cbn [nth_error] in Hl, Hw.
      * injection Hl as <-. injection Hw as <-. cbn [firstn]. rewrite app_nil_r. eexists _, _. split; [reflexivity|]. split.
        -- destruct common as [|c0 cs]; [left; split; [reflexivity|]; intros c Hc; now apply CC in Hc|]. right. exists (c0 :: cs). split; [reflexivity|]. split; [discriminate|exact CC].
        -- destruct (snd f) as [|c0 cs] eqn:EC.
           ++ right. split; [reflexivity|]. intros c I M. apply (C c). auto.
           ++ left. split; [reflexivity|]. exists c0. apply C. now left.
      * cbn [firstn]. replace (before ++ l :: firstn k tl)%list with ((before ++ [l]) ++ firstn k tl)%list by (now rewrite <- app_assoc). now apply WS.
    + destruct r' as [fs|e]; cbn [bind]; [cbn; lia|exact RR].
Qed.

Theorem warn_order default effects (X : frame R) s ws fitted : fit_effects_warn order default effects (Some X) s = (ws, Ok fitted) -> warns_in_order X effects ws.
Proof.
  unfold fit_effects_warn. destruct (fit_listed _ _ _ _ _) as [ws' r] eqn:E. intros [= <- H]. destruct r as [fs|]; [|discriminate].
  destruct (listed_warns X s [] []) with (2 := E) as (n & wss & W1 & W2 & W3 & W4 & W5); [intros c; split; [intros []|intros (_ & l & [] & _)]|].
  exists wss. split; [exact W1|]. split; [congruence|exact W4].
Qed.
(** when fitting fails at an entry, its warnings and later ones are missing *)
Theorem warn_failed default effects (X : frame R) s ws e : fit_effects_warn order default effects (Some X) s = (ws, Err e) ->
  exists n, warns_in_order X (firstn n effects) ws /\ (n = List.length effects \/ exists l, nth_error effects n = Some l /\ fit_one order (Some X) s l = Err e).
Proof.
  unfold fit_effects_warn. destruct (fit_listed _ _ _ _ _) as [ws' r] eqn:E. intros [= <- H].
  destruct (listed_warns X s [] []) with (2 := E) as (n & wss & W1 & W2 & W3 & W4 & W5); [intros c; split; [intros []|intros (_ & l & [] & _)]|].
  exists n. split.
  - exists wss. split; [exact W1|]. split; [rewrite firstn_length; lia|]. intros k l w Hl Hw.
    assert (k < n) by (rewrite <- W2; apply nth_error_Some; congruence).
    rewrite nth_error_firstn in Hl by lia. rewrite firstn_firstn, Nat.min_l by lia. now apply W4.
  - destruct r as [fs|e']; [now left|]. right. cbn in H. injection H as ->. exact W5.
Qed.
Theorem warn_silent default effects (X : frame R) s ws fitted : fit_effects_warn order default effects (Some X) s = (ws, Ok fitted) ->
  ws = [] <-> (forall l, In l effects -> exists c, In c (f_cols X) /\ matched (l_regex l) c) /\
    (forall j k l l' c, nth_error effects j = Some l -> nth_error effects k = Some l' -> In c (f_cols X) -> matched (l_regex l) c -> matched (l_regex l') c -> j = k).
Proof.
  intros H. apply warn_order in H as (wss & -> & LW & WS). split.
  - intros E.
    assert (EM : forall k l, nth_error effects k = Some l -> (forall c, ~ contested X (firstn k effects) l c) /\ exists c, In c (f_cols X) /\ matched (l_regex l) c).
    { intros k l Hk. destruct (nth_error wss k) as [w|] eqn:Hw; [|apply nth_error_None in Hw; assert (k < List.length effects) by (apply nth_error_Some; congruence); lia].
      assert (w = []) as -> by (clear -E Hw; revert k Hw; induction wss as [|v wss IH]; intros [|k] Hw; try discriminate; cbn in E, Hw; apply app_eq_nil in E as [-> E]; [congruence|eauto]).
      destruct (WS _ _ _ Hk Hw) as (w1 & w2 & EQ & D1 & D2). symmetry in EQ. apply app_eq_nil in EQ as [-> ->].
      destruct D1 as [[_ D1]|(cols & D1 & _)]; [|discriminate]. destruct D2 as [[_ D2]|[D2 _]]; [|discriminate]. auto. }
    split.
    + intros l Hl. apply In_nth_error in Hl as [k Hk]. now apply (EM k).
    + assert (LT : forall j k l l' c, j < k -> nth_error effects j = Some l -> nth_error effects k = Some l' -> In c (f_cols X) -> matched (l_regex l) c -> matched (l_regex l') c -> False).
      { intros j k l l' c L Hj Hk I M M'. destruct (EM _ _ Hk) as [N _]. apply (N c). split; [exact I|]. split; [exact M'|]. exists l. split; [|exact M].
        apply (nth_error_In _ j). now rewrite nth_error_firstn. }
      intros j k l l' c Hj Hk I M M'. destruct (Nat.lt_trichotomy j k) as [L|[->|L]]; [exfalso; eauto|reflexivity|exfalso; eauto].
  - intros [A B].
    assert (EM : forall k w, nth_error wss k = Some w -> w = []).
    { intros k w Hw. destruct (nth_error effects k) as [l|] eqn:Hk; [|apply nth_error_None in Hk; assert (k < List.length wss) by (apply nth_error_Some; congruence); lia].
      destruct (WS _ _ _ Hk Hw) as (w1 & w2 & -> & D1 & D2). destruct D1 as [[-> _]|(cols & -> & NE & C)].
      - destruct D2 as [[-> _]|[_ D2]]; [reflexivity|]. destruct (A l) as (c & I & M); [eapply nth_error_In; eauto|]. elim (D2 c I M).
      - exfalso. destruct cols as [|c cs]; [congruence|]. destruct (proj1 (C c)) as (I & M & l' & Hl & M'); [now left|]. apply In_nth_error in Hl as [j Hj].
        assert (LJ : j < k) by (assert (j < List.length (firstn k effects)) by (apply nth_error_Some; congruence); rewrite firstn_length in *; lia).
        rewrite nth_error_firstn in Hj by exact LJ. specialize (B j k l' l c Hj Hk I M' M). lia. }
    clear -EM. induction wss as [|w wss IH]; [reflexivity|]. cbn [concat]. rewrite (EM 0 w eq_refl). apply IH. intros k w' Hw. now apply (EM (S k)).
Qed.
End Effects.

Lemma warns_nomatch X effects ws l : warns_in_order X effects ws -> In l effects -> (forall c, In c (f_cols X) -> ~ matched (l_regex l) c) -> In (NoMatch (l_regex l)) ws.
Proof.
  intros (wss & -> & LW & WS) Hl N. apply In_nth_error in Hl as [k Hk].
  destruct (nth_error wss k) as [w|] eqn:Hw; [|apply nth_error_None in Hw; assert (k < List.length effects) by (apply nth_error_Some; congruence); lia].
  apply in_concat. exists w. split; [eapply nth_error_In; eauto|]. destruct (WS _ _ _ Hk Hw) as (w1 & w2 & -> & _ & [[_ (c & I & M)]|[-> _]]); [elim (N c I M)|].
  apply in_app_iff. right. now left.
Qed.

Theorem warn_without order default effects (X : frame R) s ws fitted n e rx : fit_effects_warn order default effects (Some X) s = (ws, Ok fitted) ->
  In (n, e, rx) effects -> rx = None \/ rx = Some no_input_columns /\ ~ In "" (f_cols X) /\ ~ In (String newline "") (f_cols X) -> In (NoMatch rx) ws.
Proof.
  intros H I D. apply warn_order in H. apply (warns_nomatch _ _ _ (n, e, rx) H I). cbn [l_regex snd]. intros c Hc M. destruct D as [-> |(-> & D1 & D2)].
  - destruct M as (p & r & s' & E & _). discriminate.
  - apply matched_col, no_input_columns_spec in M. destruct M as [-> | ->]; contradiction.
Qed.

Section Any.
Variable ns_of : Z -> Z.
Variable order : list string -> list string.
Hypothesis Order : forall l, Permutation (order l) l.
Variable keep : path -> bool.
Context {TS P : Type}.
Variable tr_fit_transform : TS -> frame R -> TS * res (frame R).
Variable svi_run : Z -> nat -> nat -> prog arr -> res (list xr * P).
Variable nuts_run : Z -> nat -> nat -> nat -> prog arr -> res (nat -> nat -> env).
Variable latent_sites : prog arr -> list string.
Notation fit_forecaster := (fit_forecaster ns_of order keep tr_fit_transform svi_run nuts_run latent_sites).

Lemma warn_of default effects X s fitted : fit_effects order default effects X s = Ok fitted -> exists ws, fit_effects_warn order default effects X s = (ws, Ok fitted).
Proof. rewrite <- warn_result. destruct (fit_effects_warn _ _ _ _ _) as [ws r]. cbn [snd]. intros ->. eauto. Qed.

Theorem c107_univariate c ob y X ob' (f : fitted (P := P)) : fit_forecaster c ob y X = (ob', Ok f) -> c_hier c = false -> o_transformer ob = None ->
  exists Xe ws, f_cols Xe = match X with None => [] | Some X => f_cols X end /\
    fit_effects_warn order (c_default c) (effects_of c) (Some Xe) (scale_number (ft_scale f)) = (ws, Ok (p_fitted (ft_prepared f))).
Proof.
  intros H HH NT. apply fit_forecaster_inv in H as (s & ys & p & m & post & _ & _ & H & _ & ->). cbn [ft_prepared ft_scale].
  apply effects_frame in H as (Xe & HF & _ & _ & HC & _). apply warn_of in HF as [ws HF]. eauto.
Qed.
Theorem c107_hierarchical c ob y X ob' (f : fitted (P := P)) : fit_forecaster c ob y (Some X) = (ob', Ok f) -> c_hier c = true -> o_transformer ob = None ->
  frame_wf X -> f_levels X <> 0 -> f_cols X <> [] -> copyable (shared_features c) (f_cols X) (bottom_series X) ->
  exists Xe ws, (forall d, In d (f_cols Xe) <-> offered (shared_features c) (f_cols X) (bottom_series X) d) /\
    fit_effects_warn order (c_default c) (effects_of c) (Some Xe) (scale_number (ft_scale f)) = (ws, Ok (p_fitted (ft_prepared f))).
Proof.
  intros H HH NT W L NC CO. apply fit_forecaster_inv in H as (s & ys & p & m & post & _ & _ & H & _ & ->). cbn [ft_prepared ft_scale].
  destruct (offered_frame ns_of order Order keep tr_fit_transform _ _ _ _ _ _ _ _ H HH NT W L NC CO) as (Xe & OF & HF).
  apply warn_of in HF as [ws HF]. eauto.
Qed.
(** exact(col) for a column that is not shared *)
Theorem c107_exact c ob y X ob' (f : fitted (P := P)) : fit_forecaster c ob y (Some X) = (ob', Ok f) -> c_hier c = true -> o_transformer ob = None ->
  frame_wf X -> f_levels X <> 0 -> f_cols X <> [] -> copyable (shared_features c) (f_cols X) (bottom_series X) ->
  forall l col, In l (effects_of c) -> l_regex l = Some (exact col) -> In col (f_cols X) -> ~ In col (shared_features c) ->
  (forall d q, In d (f_cols X) -> In q (bottom_series X) -> copy_name d q <> col /\ copy_name d q <> col ++ String newline "") -> ~ In (col ++ String newline "") (f_cols X) ->
  exists Xe ws, (forall d, In d (f_cols Xe) <-> offered (shared_features c) (f_cols X) (bottom_series X) d) /\
    fit_effects_warn order (c_default c) (effects_of c) (Some Xe) (scale_number (ft_scale f)) = (ws, Ok (p_fitted (ft_prepared f))) /\ In (NoMatch (Some (exact col))) ws.
Proof.
  intros H HH NT W L NC CO l col Hl Hr Hc NS D ND. destruct (c107_hierarchical _ _ _ _ _ _ H HH NT W L NC CO) as (Xe & ws & OF & HF). exists Xe, ws. split; [exact OF|]. split; [exact HF|].
  rewrite <- Hr. apply warn_order in HF. apply (warns_nomatch _ _ _ _ HF Hl). intros d Hd M. rewrite Hr in M. apply matched_col, exact_literal in M.
  - apply OF in Hd. destruct M as [-> | ->]; inversion Hd as [d' I1 I2|d' q I1 I2 I3]; subst; try contradiction.
    + now destruct (D d' q I1 I3).
    + now destruct (D d' q I1 I3).
  - destruct CO as (_ & LI & _). rewrite Forall_forall in LI. auto.
Qed.
End Any.
