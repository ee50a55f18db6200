(** Facts about the columns effects of a hierarchical forecaster receive. *)
From Coq Require Import Reals String Ascii Bool ZArith List Permutation Lia.
From Verif.Model Require Import Base Num XFloat Regex Frame Arr Expand Aggregate Scale Prog Likelihood Effect TrendProg Engine Forecaster.
From Verif.Spec Require Import RegexSpec PatternSpec FrameSpec ProgSpec ForecasterSpec ResponseSpec CopySpec.
From Verif.Facts Require Import BaseFacts FrameFacts RegexFacts MeanFacts PatternFacts ExpandFacts ForecasterFacts ForecasterInv ForecasterProps ResponseForecaster ResponseHierarchical.
Import ListNotations.
Local Open Scope string_scope.

(** * Patterns *)
Lemma open_extends n r s s' t : open_ended r -> Matches n r s s' -> Matches (n + List.length t) r (s ++ t)%list (s' ++ t)%list.
Proof.
  intros O M. revert O. induction M; cbn [open_ended]; intros O; try (now constructor).
  - constructor. rewrite app_length. lia.
  - contradiction.
  - contradiction.
  - destruct O. econstructor; eauto.
  - destruct O. apply M_alt_l. auto.
  - destruct O. apply M_alt_r. auto.
  - eapply M_star_cons; eauto.
Qed.
Lemma open_copy p r c q : Pattern p r -> open_ended r -> matched (Some p) c -> matched (Some p) (copy_name c q).
Proof.
  intros P O (p' & r' & s' & [= <-] & C & M). apply compile_iff in P. rewrite P in C. injection C as <-. exists p, r, (s' ++ list_ascii_of_string ("_dup_" ++ String.concat "-" q))%list. split; [reflexivity|]. split; [exact P|].
  unfold copy_name. rewrite laos_app, app_length. apply open_extends; assumption.
Qed.
Lemma matched_col p c : matched (Some p) c <-> col_match p c = Ok true.
Proof.
  unfold matched, col_match. split.
  - intros (p' & r & s' & [= <-] & C & M). rewrite C. f_equal. apply re_match_iff. eauto.
  - destruct (compile p) as [r|] eqn:C; [|discriminate]. intros [= H]. apply re_match_iff in H as [s' M]. eauto 6.
Qed.
Lemma append_cancel a b c : a ++ b = a ++ c -> b = c.
Proof. induction a; cbn; [auto|]. intros [= H]. auto. Qed.
Lemma append_none a : a ++ "" = a.
Proof. induction a; cbn; congruence. Qed.
Lemma exact_copy c q : literal c -> ~ matched (Some (exact c)) (copy_name c q).
Proof.
  intros L M. apply matched_col, exact_literal in M; [|exact L]. unfold copy_name in M. destruct M as [M|M].
  - rewrite <- (append_none c) in M at 2. apply append_cancel in M. discriminate.
  - apply append_cancel in M. discriminate.
Qed.
Lemma append_split p s1 s2 t : p ++ t = s1 ++ s2 -> starts_with_str p s1 \/ exists u, u <> "" /\ p = s1 ++ u /\ starts_with_str u s2.
Proof.
  revert p. induction s1 as [|a s1 IH]; intros p E.
  - cbn in E. destruct p as [|b p]; [left; exists ""; reflexivity|]. right. exists (String b p). split; [discriminate|]. split; [reflexivity|]. exists t. now symmetry.
  - destruct p as [|b p]; [left; exists (String a s1); reflexivity|]. cbn in E. injection E as -> E. destruct (IH _ E) as [[u ->]|(u & N & -> & S)]; [left; exists u; reflexivity|right; exists u; auto].
Qed.
Lemma starts_copy ps c q : ps <> [] -> Forall literal ps -> (forall p, In p ps -> ~ starts_with_str (c ++ "_") p) ->
  matched (Some (starts_with ps)) (copy_name c q) <-> exists p, In p ps /\ starts_with_str p c.
Proof.
  intros N F D. rewrite matched_col, starts_with_literal by assumption. unfold copy_name. split; intros (p & Hp & t & E); exists p; split; auto.
  - symmetry in E. apply append_split in E as [E|(u & NE & -> & v & E)]; [exact E|]. exfalso. destruct u as [|a u]; [congruence|]. cbn in E. injection E as <- E. apply (D _ Hp). exists u. now rewrite append_assoc.
  - exists (t ++ "_dup_" ++ String.concat "-" q). rewrite E. now rewrite append_assoc.
Qed.

(** * Columns *)
Lemma expand_offered order (Order : forall l, Permutation (order l) l) shared (X X' : frame R) ex : frame_wf X -> f_levels X <> 0 -> copyable shared (f_cols X) (series_ids X) -> expand_bottom 0%R (fun _ => false) order shared X = Ok (X', ex) ->
  forall d, In d (f_cols X') <-> offered shared (f_cols X) (series_ids X) d.
Proof.
  intros W L (ND & Lit & Pre & Inj & Fresh) H d. destruct (expand_bottom_columns 0%R (fun _ => false) order shared X Order eq_refl W L ND Lit Pre Inj Fresh) as (X2 & e2 & E & I & _).
  rewrite H in E. injection E as <- <-. rewrite I. split.
  - intros [[A B]|(c & i & A & B & C & ->)]; [now apply offered_shared|now apply offered_copy].
  - intros [c A B|c p A B C]; [left; auto|right; exists c, p; auto].
Qed.

Section Any.
Variable ns_of : Z -> Z.
Variable order : list string -> list string.
Hypothesis Order : forall l, Permutation (order l) l.
Variable keep : path -> bool.
Context {TS : Type}.
Variable tr_fit_transform : TS -> frame R -> TS * res (frame R).
Context {P : Type}.
Variable svi_run : Z -> nat -> nat -> prog arr -> res (list xr * P).
Variable nuts_run : Z -> nat -> nat -> nat -> prog arr -> res (nat -> nat -> env).
Variable latent_sites : prog arr -> list string.
Notation fit_data := (fit_data ns_of order keep tr_fit_transform).
Notation fit_forecaster := (fit_forecaster ns_of order keep tr_fit_transform svi_run nuts_run latent_sites).

(** the frame effects are fitted on *)
Lemma offered_frame c (ob : objects (TS := TS)) s ys X ob' p m : fit_data c ob s ys (Some X) = (ob', Ok (p, m)) -> c_hier c = true -> o_transformer ob = None ->
  frame_wf X -> f_levels X <> 0 -> f_cols X <> [] -> copyable (shared_features c) (f_cols X) (bottom_series X) ->
  exists Xe, (forall d, In d (f_cols Xe) <-> offered (shared_features c) (f_cols X) (bottom_series X) d) /\
    fit_effects order (c_default c) (effects_of c) (Some Xe) (scale_number s) = Ok (p_fitted p).
Proof.
  intros H HH NT W L NC CO. unfold Forecaster.fit_data in H. rewrite HH in H.
  apply hierarchical_fit_inv in H as (yb & tensor & X0 & X1 & X2 & ob1 & t0 & t & td & data & _ & _ & HB & HT & HE & HX & _ & _ & _ & _ & HF & _).
  assert (NCX : no_columns X = false) by (unfold no_columns; destruct (f_cols X); [congruence|reflexivity]). rewrite NCX in HB.
  assert (X1 = X0) as -> by (unfold run_fit_transform in HT; rewrite NT in HT; congruence).
  destruct (bottom_series_ids _ _ W L HB) as (EI & EC & EL & _ & _).
  assert (NC0 : no_columns X0 = false) by (unfold no_columns in *; now rewrite EC). rewrite HE, NC0 in HX. cbn [negb] in HX. destruct HX as (ex & EX & _). fold (shared_features c) in EX.
  assert (W0 : frame_wf X0). { rewrite loc_bottom_spec in HB by assumption. cbv zeta in HB. destruct (f_rows (filter_rows _ X)) in HB; [discriminate|]. injection HB as <-. now apply filter_rows_wf. }
  exists X2. split; [|exact HF].
  intros d. rewrite <- EC, <- EI. apply (expand_offered order Order _ _ _ ex W0); [congruence| |exact EX]. rewrite EC, EI. exact CO.
Qed.
Lemma fitted_columns c ob y X ob' (f : fitted (P := P)) : fit_forecaster c ob y (Some X) = (ob', Ok f) -> c_hier c = true -> o_transformer ob = None ->
  frame_wf X -> f_levels X <> 0 -> f_cols X <> [] -> copyable (shared_features c) (f_cols X) (bottom_series X) ->
  exists Xe main dflt, (forall d, In d (f_cols Xe) <-> offered (shared_features c) (f_cols X) (bottom_series X) d) /\ p_fitted (ft_prepared f) = (main ++ dflt)%list /\
    Forall2 (fun l g => fe_name g = l_name l /\ forall d, In d (fe_cols g) <-> In d (f_cols Xe) /\ matched (l_regex l) d) (effects_of c) main /\
    ((dflt = [] /\ forall d, ~ leftover (effects_of c) Xe d) \/ exists g, dflt = [g] /\ fe_name g = default_name /\ forall d, In d (fe_cols g) <-> leftover (effects_of c) Xe d).
Proof.
  intros H HH NT W L NC CO. apply fit_forecaster_inv in H as (s & ys & p & m & post & _ & _ & H & _ & ->). cbn [ft_prepared].
  destruct (offered_frame _ _ _ _ _ _ _ _ H HH NT W L NC CO) as (X2 & OF & HF).
  apply fit_effects_inv in HF as (main & dflt & EF & F & D). exists X2, main, dflt. split; [exact OF|]. split; [exact EF|]. split.
  - clear -F. induction F as [|l g ls gs (N & C & _) F IH]; constructor; auto.
  - destruct D as [D|(g & D1 & D2 & _ & D3 & _)]; [left; exact D|right; exists g; auto].
Qed.

Theorem c106_columns c ob y X ob' (f : fitted (P := P)) : fit_forecaster c ob y (Some X) = (ob', Ok f) -> c_hier c = true -> o_transformer ob = None ->
  frame_wf X -> f_levels X <> 0 -> f_cols X <> [] -> copyable (shared_features c) (f_cols X) (bottom_series X) ->
  forall k l, nth_error (effects_of c) k = Some l -> exists g, nth_error (p_fitted (ft_prepared f)) k = Some g /\ fe_name g = l_name l /\
    forall d, In d (fe_cols g) <-> offered (shared_features c) (f_cols X) (bottom_series X) d /\ matched (l_regex l) d.
Proof.
  intros H HH NT W L NC CO k l Hk. destruct (fitted_columns _ _ _ _ _ _ H HH NT W L NC CO) as (Xe & main & dflt & OF & -> & F & _).
  destruct (Forall2_nth_error_l _ _ _ F _ _ Hk) as (g & Hg & N & C). exists g. split; [rewrite nth_error_app1; [exact Hg|]; apply nth_error_Some; congruence|]. split; [exact N|].
  intros d. rewrite C, OF. reflexivity.
Qed.
Theorem c106_default c ob y X ob' (f : fitted (P := P)) : fit_forecaster c ob y (Some X) = (ob', Ok f) -> c_hier c = true -> o_transformer ob = None ->
  frame_wf X -> f_levels X <> 0 -> f_cols X <> [] -> copyable (shared_features c) (f_cols X) (bottom_series X) ->
  forall d, (exists g, nth_error (p_fitted (ft_prepared f)) (List.length (effects_of c)) = Some g /\ fe_name g = "exogenous_variables_effect" /\ In d (fe_cols g)) <->
    offered (shared_features c) (f_cols X) (bottom_series X) d /\ forall l, In l (effects_of c) -> ~ matched (l_regex l) d.
Proof.
  intros H HH NT W L NC CO d. destruct (fitted_columns _ _ _ _ _ _ H HH NT W L NC CO) as (Xe & main & dflt & OF & -> & F & D).
  rewrite (Forall2_len _ _ _ F), nth_error_app2 by lia. rewrite Nat.sub_diag. rewrite <- OF. destruct D as [[-> D]|(g & -> & N & D)].
  - split; [intros (g & G & _); discriminate|]. intros LO. elim (D d LO).
  - split.
    + intros (g' & [= <-] & _ & I). apply D in I. exact I.
    + intros LO. exists g. split; [reflexivity|]. split; [exact N|]. now apply D.
Qed.
Theorem c106_shared c ob y X ob' (f : fitted (P := P)) : fit_forecaster c ob y (Some X) = (ob', Ok f) -> c_hier c = true -> o_transformer ob = None ->
  frame_wf X -> f_levels X <> 0 -> f_cols X <> [] -> copyable (shared_features c) (f_cols X) (bottom_series X) ->
  forall k l g col, nth_error (effects_of c) k = Some l -> nth_error (p_fitted (ft_prepared f)) k = Some g -> In col (f_cols X) -> In col (shared_features c) ->
  In col (fe_cols g) <-> matched (l_regex l) col.
Proof.
  intros H HH NT W L NC CO k l g col Hk Hg Hc S. destruct (c106_columns _ _ _ _ _ _ H HH NT W L NC CO _ _ Hk) as (g' & Hg' & _ & C). rewrite Hg in Hg'. injection Hg' as <-.
  rewrite C. split; [tauto|]. intros M. split; [now apply offered_shared|exact M].
Qed.
Theorem c106_open c ob y X ob' (f : fitted (P := P)) : fit_forecaster c ob y (Some X) = (ob', Ok f) -> c_hier c = true -> o_transformer ob = None ->
  frame_wf X -> f_levels X <> 0 -> f_cols X <> [] -> copyable (shared_features c) (f_cols X) (bottom_series X) ->
  forall k l p r g, nth_error (effects_of c) k = Some l -> l_regex l = Some p -> Pattern p r -> open_ended r -> nth_error (p_fitted (ft_prepared f)) k = Some g ->
  forall col, In col (f_cols X) -> ~ In col (shared_features c) -> matched (Some p) col -> forall q, In q (bottom_series X) -> In (copy_name col q) (fe_cols g).
Proof.
  intros H HH NT W L NC CO k l p r g Hk Hp HP HO Hg col Hc NS M q Hq. destruct (c106_columns _ _ _ _ _ _ H HH NT W L NC CO _ _ Hk) as (g' & Hg' & _ & C). rewrite Hg in Hg'. injection Hg' as <-.
  apply C. split; [now apply offered_copy|]. rewrite Hp. now apply (open_copy p r).
Qed.
Theorem c106_starts_with c ob y X ob' (f : fitted (P := P)) : fit_forecaster c ob y (Some X) = (ob', Ok f) -> c_hier c = true -> o_transformer ob = None ->
  frame_wf X -> f_levels X <> 0 -> f_cols X <> [] -> copyable (shared_features c) (f_cols X) (bottom_series X) ->
  forall k l ps g, nth_error (effects_of c) k = Some l -> l_regex l = Some (starts_with ps) -> ps <> [] -> Forall literal ps -> nth_error (p_fitted (ft_prepared f)) k = Some g ->
  forall col q, In col (f_cols X) -> ~ In col (shared_features c) -> In q (bottom_series X) -> (forall p, In p ps -> ~ starts_with_str (col ++ "_") p) ->
  In (copy_name col q) (fe_cols g) <-> exists p, In p ps /\ starts_with_str p col.
Proof.
  intros H HH NT W L NC CO k l ps g Hk Hp NE FL Hg col q Hc NS Hq D. destruct (c106_columns _ _ _ _ _ _ H HH NT W L NC CO _ _ Hk) as (g' & Hg' & _ & C). rewrite Hg in Hg'. injection Hg' as <-.
  rewrite C, Hp, starts_copy by assumption. split; [tauto|]. intros E. split; [now apply offered_copy|exact E].
Qed.
Theorem c106_exact c ob y X ob' (f : fitted (P := P)) : fit_forecaster c ob y (Some X) = (ob', Ok f) -> c_hier c = true -> o_transformer ob = None ->
  frame_wf X -> f_levels X <> 0 -> f_cols X <> [] -> copyable (shared_features c) (f_cols X) (bottom_series X) ->
  forall k l g col, nth_error (effects_of c) k = Some l -> l_regex l = Some (exact col) -> nth_error (p_fitted (ft_prepared f)) k = Some g -> In col (f_cols X) -> ~ In col (shared_features c) ->
  matched (l_regex l) col /\ forall q, In q (bottom_series X) -> ~ In (copy_name col q) (fe_cols g) /\
    ((forall l', In l' (effects_of c) -> matched (l_regex l') (copy_name col q) -> False) ->
     exists g', nth_error (p_fitted (ft_prepared f)) (List.length (effects_of c)) = Some g' /\ fe_name g' = "exogenous_variables_effect" /\ In (copy_name col q) (fe_cols g')).
Proof.
  intros H HH NT W L NC CO k l g col Hk Hp Hg Hc NS. destruct (c106_columns _ _ _ _ _ _ H HH NT W L NC CO _ _ Hk) as (g' & Hg' & _ & C). rewrite Hg in Hg'. injection Hg' as <-.
  assert (LI : literal col) by (destruct CO as (_ & LI & _); rewrite Forall_forall in LI; auto). split.
  - rewrite Hp. apply matched_col, exact_literal; auto.
  - intros q Hq. split.
    + rewrite C, Hp. intros [_ M]. exact (exact_copy _ _ LI M).
    + intros NM. apply (c106_default _ _ _ _ _ _ H HH NT W L NC CO). split; [now apply offered_copy|exact NM].
Qed.
End Any.
