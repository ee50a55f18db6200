From Coq Require Import String Ascii Bool Arith Lia List.
From Verif.Model Require Import Base Regex.
From Verif.Spec Require Import RegexSpec.
Import ListNotations.

(* ---------- matcher = declarative semantics ---------- *)

Lemma Matches_suffix n r s s' : Matches n r s s' -> exists pre, s = pre ++ s'.
Proof.
  induction 1.
  - exists []; reflexivity.
  - exists [c]; reflexivity.
  - exists [c]; reflexivity.
  - exists []; reflexivity.
  - exists []; reflexivity.
  - exists []; reflexivity.
  - destruct IHMatches1 as [p ->], IHMatches2 as [q ->]. exists (p ++ q). now rewrite app_assoc.
  - assumption.
  - assumption.
  - exists []; reflexivity.
  - destruct IHMatches1 as [p ->], IHMatches2 as [q ->]. exists (p ++ q). now rewrite app_assoc.
Qed.

Lemma Matches_len n r s s' : Matches n r s s' -> length s' <= length s.
Proof. intros H; apply Matches_suffix in H as [p ->]. rewrite app_length; lia. Qed.

Lemma Matches_len_eq n r s s' : Matches n r s s' -> length s' = length s -> s' = s.
Proof.
  intros H E; apply Matches_suffix in H as [p ->].
  rewrite app_length in E. destruct p; simpl in *; [reflexivity|lia].
Qed.

Lemma Matches_seq_inv n a b s s'' :
  Matches n (RSeq a b) s s'' -> exists s', Matches n a s s' /\ Matches n b s' s''.
Proof. intros H; inversion H; subst; eauto. Qed.
Lemma Matches_chr_inv n c s s' : Matches n (RChr c) s s' -> s = c :: s'.
Proof. intros H; inversion H; subst; reflexivity. Qed.
Lemma Matches_bol_inv n s s' : Matches n RBol s s' -> s = s' /\ length s = n.
Proof. intros H; inversion H; subst; auto. Qed.
Lemma Matches_eps_inv n s s' : Matches n REps s s' -> s = s'.
Proof. intros H; inversion H; subst; auto. Qed.
Lemma Matches_eol_inv n s s' : Matches n REol s s' -> s = s' /\ (s = [] \/ s = [newline]).
Proof. intros H; inversion H; subst; auto. Qed.

Definition star_iter (a : re) (n : nat) :=
  (fix iter (fuel : nat) (s : list ascii) : list (list ascii) :=
     match fuel with
     | O => [s]
     | S fuel' => s :: flat_map (fun s' => if length s' <? length s then iter fuel' s' else [])
                                (ends a n s)
     end).

Lemma ends_star a n s : ends (RStar a) n s = star_iter a n (length s) s.
Proof. reflexivity. Qed.

Lemma ends_iff n r : forall s s', In s' (ends r n s) <-> Matches n r s s'.
Proof.
  induction r; intros s s'.
  - cbn [ends]. split; [intros [<-|[]]; constructor | intros H; inversion H; now left].
  - cbn [ends]. split.
    + destruct s as [|c' t]; [intros []|].
      destruct (Ascii.eqb_spec c c'); [|intros []].
      intros [<-|[]]; subst; constructor.
    + intros H; inversion H; subst. rewrite Ascii.eqb_refl. now left.
  - cbn [ends]. split.
    + destruct s as [|c' t]; [intros []|].
      destruct (Ascii.eqb_spec newline c'); [intros []|].
      intros [<-|[]]; subst; constructor; congruence.
    + intros H; inversion H; subst.
      destruct (Ascii.eqb_spec newline c); [congruence | now left].
  - cbn [ends]. split.
    + destruct (Nat.eqb_spec (length s) n); [|intros []]. intros [<-|[]]; now constructor.
    + intros H; inversion H; subst. rewrite Nat.eqb_refl; now left.
  - cbn [ends]. split.
    + destruct s as [|c [|c2 t]].
      * intros [<-|[]]; constructor.
      * destruct (Ascii.eqb_spec newline c); [|intros []]. intros [<-|[]]; subst; constructor.
      * intros [].
    + intros H; inversion H; subst; [now left|]. rewrite Ascii.eqb_refl. now left.
  - cbn [ends]. rewrite in_flat_map. split.
    + intros (x & Hx & Hs). econstructor; [apply IHr1, Hx | apply IHr2, Hs].
    + intros H; inversion H; subst. eexists; split; [apply IHr1 | apply IHr2]; eassumption.
  - cbn [ends]. rewrite in_app_iff, IHr1, IHr2. split.
    + intros [H|H]; [apply M_alt_l|apply M_alt_r]; assumption.
    + intros H; inversion H; subst; auto.
  - rewrite ends_star. split.
    + assert (G : forall fuel s, In s' (star_iter r n fuel s) -> Matches n (RStar r) s s').
      { induction fuel as [|f IH]; intros t H.
        - simpl in H. destruct H as [<-|[]]. constructor.
        - simpl in H. destruct H as [<-|H]; [constructor|].
          apply in_flat_map in H as (x & Hx & Hs).
          destruct (length x <? length t); [|destruct Hs].
          eapply M_star_cons; [apply IHr, Hx | apply IH, Hs]. }
      apply G.
    + assert (G : forall q s s', Matches n q s s' -> q = RStar r ->
                   forall fuel, length s <= fuel -> In s' (star_iter r n fuel s)).
      { intros q t t' H; induction H; intros E; try discriminate; intros fuel Hf.
        - destruct fuel; simpl; auto.
        - injection E as ->.
          destruct (Nat.eq_dec (length s'0) (length s0)) as [El|Nl].
          + apply Matches_len_eq in H; [|assumption]. subst. apply IHMatches2; auto.
          + pose proof (Matches_len _ _ _ _ H) as L.
            destruct fuel as [|f]; [lia|]. simpl. right.
            apply in_flat_map. exists s'0. split; [apply IHr, H|].
            destruct (Nat.ltb_spec (length s'0) (length s0)); [|lia].
            apply IHMatches2; auto; lia. }
      intros H. eapply G; eauto.
Qed.

Lemma re_match_iff r w :
  re_match r w = true <->
  exists s', Matches (length (list_ascii_of_string w)) r (list_ascii_of_string w) s'.
Proof.
  unfold re_match. split.
  - destruct (ends r _ _) as [|x l] eqn:E; [discriminate|]. intros _.
    exists x. apply ends_iff. rewrite E. now left.
  - intros [x H]. apply ends_iff in H. destruct (ends r _ _); [destruct H | reflexivity].
Qed.

(* ---------- parsing literals ---------- *)

Definition lit_items (s : list ascii) : list item := map (fun c => (RChr c, true)) s.

Lemma parse_chr c tl stack alts cur :
  ~ In c metachars -> parse (c :: tl) stack alts cur = parse tl stack alts ((RChr c, true) :: cur).
Proof.
  intros H.
  destruct c as [[] [] [] [] [] [] [] []]; try reflexivity;
    exfalso; apply H; unfold metachars; simpl; tauto.
Qed.

Lemma parse_lit s : (forall c, In c s -> ~ In c metachars) ->
  forall rest stack alts cur,
  parse (s ++ rest) stack alts cur = parse rest stack alts (rev (lit_items s) ++ cur).
Proof.
  induction s as [|c s IH]; intros H rest stack alts cur; [reflexivity|].
  rewrite <- app_comm_cons, parse_chr by (apply H; now left).
  rewrite IH by (intros; apply H; now right).
  simpl. now rewrite <- app_assoc.
Qed.

Lemma seq_of_rev l cur : seq_of (rev l ++ cur) =
  fold_left (fun acc it => RSeq (fst it) acc) cur (fold_right (fun it acc => RSeq (fst it) acc) REps l).
Proof. unfold seq_of. rewrite fold_left_app. f_equal. rewrite <- fold_left_rev_right, rev_involutive. reflexivity. Qed.

Definition lit_seq (s : list ascii) (k : re) : re :=
  fold_right (fun c acc => RSeq (RChr c) acc) k s.

Lemma Matches_lit_seq n s k : forall w w',
  Matches n (lit_seq s k) w w' <-> exists u, w = s ++ u /\ Matches n k u w'.
Proof.
  induction s as [|c s IH]; intros w w'; simpl.
  - split; [intros H; exists w; auto | intros (u & -> & H); exact H].
  - split.
    + intros H. apply Matches_seq_inv in H as (x & H1 & H2). apply Matches_chr_inv in H1 as ->.
      apply IH in H2 as (u & -> & H2). exists u; auto.
    + intros (u & -> & H). simpl. econstructor; [constructor|]. apply IH. exists u; auto.
Qed.

Lemma laos_app a b :
  list_ascii_of_string (a ++ b)%string = list_ascii_of_string a ++ list_ascii_of_string b.
Proof. induction a; simpl; congruence. Qed.

Lemma laos_inj a b : list_ascii_of_string a = list_ascii_of_string b -> a = b.
Proof.
  intros H. rewrite <- (string_of_list_ascii_of_string a), <- (string_of_list_ascii_of_string b).
  congruence.
Qed.

(* ---------- exact ---------- *)

Lemma lit_items_seq s k :
  fold_right (fun (it : item) acc => RSeq (fst it) acc) k (lit_items s) = lit_seq s k.
Proof. induction s; simpl; congruence. Qed.

Lemma compile_exact s : literal s ->
  compile (exact s) =
  Some (RSeq RBol (lit_seq (list_ascii_of_string s) (RSeq REol REps))).
Proof.
  intros L. unfold compile, exact. rewrite !laos_app. cbn [list_ascii_of_string app].
  change (parse ("^"%char :: list_ascii_of_string s ++ ["$"%char]) [] [] [])
    with (parse (list_ascii_of_string s ++ ["$"%char]) [] [] [(RBol, false)]).
  rewrite parse_lit by exact L.
  change (Some (seq_of ((REol, false) :: rev (lit_items (list_ascii_of_string s)) ++ [(RBol, false)]))
    = Some (RSeq RBol (lit_seq (list_ascii_of_string s) (RSeq REol REps)))).
  f_equal.
  unfold seq_of. cbn [fold_left fst]. rewrite fold_left_app. cbn [fold_left fst].
  f_equal. set (k := RSeq REol REps). rewrite <- fold_left_rev_right, rev_involutive.
  apply lit_items_seq.
Qed.

Lemma exact_literal s c : literal s ->
  col_match (exact s) c = Ok true <->
  (c = s \/ c = (s ++ String newline EmptyString)%string).
Proof.
  intros L. unfold col_match. rewrite (compile_exact s L).
  assert (E : re_match (RSeq RBol (lit_seq (list_ascii_of_string s) (RSeq REol REps))) c = true <->
     (c = s \/ c = (s ++ String newline EmptyString)%string)).
  { rewrite re_match_iff. split.
    - intros (s' & H). apply Matches_seq_inv in H as (x & H1 & H2).
      apply Matches_bol_inv in H1 as [<- _].
      apply Matches_lit_seq in H2 as (u & Hu & H2).
      apply Matches_seq_inv in H2 as (y & H2 & _). apply Matches_eol_inv in H2 as [_ [-> | ->]].
      + left. apply laos_inj. now rewrite Hu, app_nil_r.
      + right. apply laos_inj. now rewrite Hu, laos_app.
    - intros [->| ->].
      + exists []. econstructor; [constructor; reflexivity|].
        apply Matches_lit_seq. exists []. rewrite app_nil_r. split; [reflexivity|].
        econstructor; constructor.
      + exists [newline]. econstructor; [constructor; reflexivity|].
        apply Matches_lit_seq. exists [newline]. rewrite laos_app. split; [reflexivity|].
        econstructor; [apply M_eol_nl|constructor]. }
  rewrite <- E. split; [congruence | intros ->; reflexivity].
Qed.

(* ---------- starts_with ---------- *)

Lemma Matches_alt_of n s s' alts : forall acc,
  Matches n (fold_left (fun a r => RAlt r a) alts acc) s s' <->
  (exists r, In r alts /\ Matches n r s s') \/ Matches n acc s s'.
Proof.
  induction alts as [|r alts IH]; intros acc; simpl.
  - split; [auto | intros [(r & [] & _)|H]; exact H].
  - rewrite IH. split.
    + intros [(q & Hq & Hm)|H]; [left; exists q; auto|].
      inversion H; subst; [left; exists r; auto | auto].
    + intros [(q & [<-|Hq] & Hm)|H].
      * right. now apply M_alt_l.
      * left. exists q; auto.
      * right. now apply M_alt_r.
Qed.

Definition literal_l (s : list ascii) := forall c, In c s -> ~ In c metachars.

Lemma seq_of_lit s : seq_of (rev (lit_items s)) = lit_seq s REps.
Proof.
  rewrite <- (app_nil_r (rev (lit_items s))), seq_of_rev. cbn [fold_left]. apply lit_items_seq.
Qed.

Lemma concat_cons sep a b l :
  String.concat sep (a :: b :: l) = (a ++ sep ++ String.concat sep (b :: l))%string.
Proof. reflexivity. Qed.

Lemma parse_alternatives n A C : forall ps alts, ps <> [] -> Forall literal ps ->
  exists r,
    parse (list_ascii_of_string (String.concat "|" ps) ++ [")"%char]) [(A, C)] alts [] =
      Some (alt_of A ((r, true) :: C)) /\
    forall s s', Matches n r s s' <->
      (exists q, In q alts /\ Matches n q s s') \/
      (exists p, In p ps /\ Matches n (lit_seq (list_ascii_of_string p) REps) s s').
Proof.
  induction ps as [|p ps IH]; intros alts N F; [congruence|].
  inversion F; subst. destruct ps as [|p2 ps].
  - cbn [String.concat]. rewrite parse_lit by assumption.
    exists (alt_of alts (rev (lit_items (list_ascii_of_string p)) ++ [])). split; [reflexivity|].
    intros s s'. unfold alt_of. rewrite Matches_alt_of, app_nil_r, seq_of_lit.
    split.
    + intros [H|H]; [left; exact H | right; exists p; simpl; auto].
    + intros [H|(q & [<-|[]] & Hq)]; auto.
  - rewrite concat_cons, !laos_app, <- !app_assoc. rewrite parse_lit by assumption.
    rewrite app_nil_r.
    set (rest := list_ascii_of_string (String.concat "|" (p2 :: ps)) ++ [")"%char]).
    change (parse (list_ascii_of_string "|" ++ rest) [(A, C)] alts (rev (lit_items (list_ascii_of_string p))))
      with (parse rest [(A, C)] (seq_of (rev (lit_items (list_ascii_of_string p))) :: alts) []).
    destruct (IH (seq_of (rev (lit_items (list_ascii_of_string p))) :: alts)) as (r & Hr & Hm);
      [congruence | assumption |].
    exists r. split; [exact Hr|]. intros s s'. rewrite Hm, seq_of_lit. simpl. split.
    + intros [(q & [<-|Hq] & M)|(q & Hq & M)].
      * right. exists p; auto.
      * left. exists q; auto.
      * right. exists q; auto.
    + intros [(q & Hq & M)|(q & [<-|Hq] & M)].
      * left. exists q; auto.
      * left. eexists; split; [left; reflexivity|exact M].
      * right. exists q; auto.
Qed.

Lemma starts_with_literal ps c : ps <> [] -> Forall literal ps ->
  col_match (starts_with ps) c = Ok true <-> exists p, In p ps /\ starts_with_str p c.
Proof.
  intros N F. unfold col_match, compile, starts_with. rewrite !laos_app.
  change (list_ascii_of_string "^(?:") with ["^"; "("; "?"; ":"]%char.
  change (list_ascii_of_string ")") with [")"%char].
  set (body := list_ascii_of_string (String.concat "|" ps) ++ [")"%char]).
  change (parse (["^"; "("; "?"; ":"]%char ++ body) [] [] [])
    with (parse body [([], [(RBol, false)])] [] []).
  destruct (parse_alternatives (length (list_ascii_of_string c)) [] [(RBol, false)] ps [] N F)
    as (r & Hr & Hm).
  fold body in Hr.
  lazymatch goal with |- context [parse body ?x ?y ?z] =>
    replace (parse body x y z) with (Some (alt_of [] [(r, true); (RBol, false)]))
      by (symmetry; exact Hr) end.
  assert (E : re_match (alt_of [] [(r, true); (RBol, false)]) c = true <->
              exists p, In p ps /\ starts_with_str p c).
  { change (alt_of [] [(r, true); (RBol, false)]) with (RSeq RBol (RSeq r REps)).
    rewrite re_match_iff. split.
    - intros (s' & H). apply Matches_seq_inv in H as (x & H1 & H2).
      apply Matches_bol_inv in H1 as [<- _]. apply Matches_seq_inv in H2 as (y & H2 & _).
      apply Hm in H2 as [(q & [] & _)|(p & Hp & M)].
      exists p; split; [assumption|]. apply Matches_lit_seq in M as (u & Hu & _).
      exists (string_of_list_ascii u). apply laos_inj.
      now rewrite laos_app, list_ascii_of_string_of_list_ascii.
    - intros (p & Hp & (t & ->)).
      exists (list_ascii_of_string t). econstructor; [constructor; reflexivity|].
      econstructor; [|constructor]. apply Hm. right. exists p. split; [assumption|].
      apply Matches_lit_seq. exists (list_ascii_of_string t). rewrite laos_app. split; [reflexivity|].
      constructor. }
  rewrite <- E. split; [congruence | intros ->; reflexivity].
Qed.

Lemma no_input_columns_spec c :
  col_match no_input_columns c = Ok true <-> (c = EmptyString \/ c = String newline EmptyString).
Proof. apply (exact_literal EmptyString c). intros ? []. Qed.

Lemma match_columns_In regex r cols :
  compile regex = Some r ->
  match_columns cols (Some regex) = Ok (filter (re_match r) cols).
Proof. unfold match_columns. now intros ->. Qed.

Lemma match_columns_spec cols regex out :
  match_columns cols (Some regex) = Ok out ->
  forall c, In c out <-> In c cols /\ col_match regex c = Ok true.
Proof.
  unfold match_columns, col_match. destruct (compile regex); [|discriminate].
  intros [= <-] c. rewrite filter_In. split.
  - intros [H E]. rewrite E. auto.
  - intros [H E]. split; congruence.
Qed.

(** ** Selection as a filter *)

Lemma match_columns_filter cols regex p :
  (forall c, In c cols -> exists b, col_match regex c = Ok b /\ (b = true <-> p c = true)) ->
  (exists c, col_match regex c = Ok true \/ col_match regex c = Ok false) ->
  match_columns cols (Some regex) = Ok (filter p cols).
Proof.
  unfold match_columns, col_match. intros H [c0 Hc0].
  destruct (compile regex) as [r|]; [|destruct Hc0; discriminate].
  f_equal. apply filter_ext_in. intros c Hc. destruct (H c Hc) as (b & [= <-] & Hb).
  destruct (re_match r c), (p c); intuition congruence.
Qed.

Lemma col_match_total regex w c :
  col_match regex w = Ok true -> exists b, col_match regex c = Ok b.
Proof. unfold col_match. destruct (compile regex); [eauto|discriminate]. Qed.

Lemma exact_select s cols : literal s ->
  (forall c, In c cols -> c <> (s ++ String newline EmptyString)%string) ->
  match_columns cols (Some (exact s)) = Ok (filter (String.eqb s) cols).
Proof.
  intros L N.
  assert (T : col_match (exact s) s = Ok true) by (apply exact_literal; auto).
  apply match_columns_filter; [|eauto].
  intros c Hc. destruct (col_match_total _ _ c T) as [b Hb]. exists b. split; [exact Hb|].
  rewrite String.eqb_eq. specialize (N c Hc).
  assert (E := exact_literal s c L). rewrite Hb in E. split.
  - intros ->. destruct E as [E _]. destruct (E eq_refl); congruence.
  - intros <-. destruct E as [_ E]. assert (Ok b = Ok true) by (apply E; auto). congruence.
Qed.

Lemma prefix_starts p c : String.prefix p c = true <-> starts_with_str p c.
Proof.
  unfold starts_with_str. revert c. induction p as [|a p IH]; intros c.
  - split; [intros _; now exists c | destruct c; reflexivity].
  - destruct c as [|b c]; [split; [discriminate | intros [t H]; discriminate]|].
    cbn [String.prefix]. destruct (ascii_dec a b) as [<-|n].
    + rewrite IH. split; intros [t H]; exists t; simpl in *; congruence.
    + split; [discriminate|]. intros [t H]. simpl in H. congruence.
Qed.

Lemma starts_with_select ps cols : ps <> [] -> Forall literal ps ->
  match_columns cols (Some (starts_with ps)) =
  Ok (filter (fun c => existsb (fun p => String.prefix p c) ps) cols).
Proof.
  intros N F.
  destruct ps as [|p0 ps0]; [congruence|].
  assert (T : col_match (starts_with (p0 :: ps0)) p0 = Ok true).
  { apply starts_with_literal; auto. exists p0. split; [now left|]. exists EmptyString.
    clear. induction p0; simpl; congruence. }
  apply match_columns_filter; [|eauto].
  intros c Hc. destruct (col_match_total _ _ c T) as [b Hb]. exists b. split; [exact Hb|].
  rewrite existsb_exists. assert (E := starts_with_literal _ c N F). rewrite Hb in E.
  split.
  - intros ->. destruct E as [E _]. destruct (E eq_refl) as (p & Hp & Hs).
    exists p. split; [assumption|]. now apply prefix_starts.
  - intros (p & Hp & Hs). destruct E as [_ E].
    assert (Ok b = Ok true) by (apply E; exists p; split; [assumption|]; now apply prefix_starts).
    congruence.
Qed.

(** A plain name used as a pattern matches the names it is a prefix of. *)
Lemma compile_literal s : literal s ->
  compile s = Some (lit_seq (list_ascii_of_string s) REps).
Proof.
  intros L. unfold compile.
  replace (list_ascii_of_string s) with (list_ascii_of_string s ++ []) at 1 by apply app_nil_r.
  rewrite parse_lit by exact L. rewrite app_nil_r. cbn [parse alt_of fold_left]. f_equal.
  unfold seq_of. rewrite <- fold_left_rev_right, rev_involutive. apply lit_items_seq.
Qed.

Lemma literal_match p r c : literal p -> compile p = Some r ->
  re_match r c = String.prefix p c.
Proof.
  intros L E. rewrite compile_literal in E by assumption. injection E as <-.
  apply eq_true_iff_eq. rewrite prefix_starts, re_match_iff. split.
  - intros (s' & H). apply Matches_lit_seq in H as (u & Hu & _). exists (string_of_list_ascii u).
    apply laos_inj. now rewrite laos_app, list_ascii_of_string_of_list_ascii.
  - intros (t & ->). exists (list_ascii_of_string t). apply Matches_lit_seq.
    exists (list_ascii_of_string t). rewrite laos_app. split; [reflexivity|constructor].
Qed.
