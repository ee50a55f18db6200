(** The parser recognises exactly the grammar. *)
From Coq Require Import String Ascii Bool Arith Lia List.
From Verif.Model Require Import Base Regex.
From Verif.Spec Require Import RegexSpec PatternSpec.
From Verif.Facts Require Import BaseFacts RegexFacts.
Import ListNotations.

Scheme Alternatives_mind := Induction for Alternatives Sort Prop
  with Sequence_mind := Induction for Sequence Sort Prop
  with Item_mind := Induction for Item Sort Prop
  with Atom_mind := Induction for Atom Sort Prop.
Combined Scheme grammar_ind from Alternatives_mind, Sequence_mind, Item_mind, Atom_mind.

Lemma is_alnum_iff c : is_alnum c = true <-> alphanumeric c.
Proof.
  unfold alphanumeric. split.
  - intros H. destruct c as [[] [] [] [] [] [] [] []]; try (vm_compute in H; discriminate H); cbn; tauto.
  - intros H. repeat (destruct H as [<-|H]; [reflexivity|]). destruct H.
Qed.

Lemma parse_escaped c tl st alts cur : ~ alphanumeric c -> parse ("\"%char :: c :: tl) st alts cur = parse tl st alts ((RChr c, true) :: cur).
Proof. intros H. cbn [parse]. destruct (is_alnum c) eqn:E; [apply is_alnum_iff in E; tauto|reflexivity]. Qed.

Lemma meta_cases c : In c metachars \/ ~ In c metachars.
Proof. destruct (in_dec ascii_dec c metachars); auto. Qed.

(** no alternatives start with a question mark *)
Definition no_q (p : list ascii) := match p with c :: _ => c <> "?"%char | [] => True end.
Lemma no_q_app p q : no_q p -> p <> [] -> no_q (p ++ q).
Proof. destruct p; cbn; [congruence|auto]. Qed.
Lemma grammar_no_q :
  (forall p r, Alternatives p r -> no_q p) /\ (forall p r, Sequence p r -> no_q p) /\
  (forall p r, Item p r -> no_q p /\ p <> []) /\ (forall p r, Atom p r -> no_q p /\ p <> []).
Proof.
  assert (Q : forall p c, no_q p /\ p <> [] -> no_q (p ++ [c]) /\ (p ++ [c])%list <> []).
  { intros p c [H1 H2]. split; [now apply no_q_app|]. destruct p; discriminate. }
  apply grammar_ind; intros; try (apply Q; assumption); try (split; [cbn; discriminate|discriminate]); auto.
  - destruct p; cbn in *; [discriminate|auto].
  - cbn. auto.
  - destruct H as [H1 H2]. now apply no_q_app.
  - split; [|discriminate]. intros ->. apply n. cbn. tauto.
Qed.

Lemma parse_group p tl st alts cur : no_q p -> parse ("("%char :: p ++ ")"%char :: tl) st alts cur = parse (p ++ ")"%char :: tl) ((alts, cur) :: st) [] [].
Proof.
  destruct p as [|c p]; intros H; [reflexivity|]. cbn in H. cbn [app].
  destruct c as [[] [] [] [] [] [] [] []]; try reflexivity. congruence.
Qed.

(** ** The parser accepts the grammar *)
Definition seq_on (items : list item) (k : re) : re := fold_left (fun acc it => RSeq (fst it) acc) items k.
Definition alt_on (alts : list re) (k : re) : re := fold_left (fun acc r => RAlt r acc) alts k.

Lemma parse_complete :
  (forall p r, Alternatives p r -> exists alts' cur', alt_of alts' cur' = r /\
     forall tl st alts, parse (p ++ tl) st alts [] = parse tl st (alts' ++ alts) cur') /\
  (forall p r, Sequence p r -> exists items, seq_of items = r /\
     forall tl st alts cur, parse (p ++ tl) st alts cur = parse tl st alts (items ++ cur)) /\
  (forall p r, Item p r -> exists b, forall tl st alts cur, parse (p ++ tl) st alts cur = parse tl st alts ((r, b) :: cur)) /\
  (forall p r, Atom p r -> forall tl st alts cur, parse (p ++ tl) st alts cur = parse tl st alts ((r, true) :: cur)).
Proof.
  apply grammar_ind.
  - intros p r _ (items & E & H). exists [], items. split; [exact E|]. intros tl st alts. rewrite H, app_nil_r. reflexivity.
  - intros p r q r' _ (items & E & H) _ (alts' & cur' & E' & H'). exists (alts' ++ [r])%list, cur'. split.
    + unfold alt_of in *. rewrite fold_left_app. cbn. now rewrite E'.
    + intros tl st alts. rewrite <- app_assoc, H. cbn [app parse]. rewrite H', app_nil_r, E, <- app_assoc. reflexivity.
  - exists []. split; reflexivity.
  - intros p r q r' _ [b H] _ (items & E & H'). exists (items ++ [(r, b)])%list. split.
    + subst r'. unfold seq_of. rewrite fold_left_app. reflexivity.
    + intros tl st alts cur. rewrite <- app_assoc, H, H', <- app_assoc. reflexivity.
  - intros p r _ H. exists true. exact H.
  - intros p r _ H. exists false. intros tl st alts cur. rewrite <- app_assoc, H. reflexivity.
  - intros p r _ H. exists false. intros tl st alts cur. rewrite <- app_assoc, H. reflexivity.
  - intros p r _ H. exists false. intros tl st alts cur. rewrite <- app_assoc, H. reflexivity.
  - exists false. reflexivity.
  - exists false. reflexivity.
  - intros c N tl st alts cur. now apply parse_chr.
  - intros c N tl st alts cur. now apply parse_escaped.
  - reflexivity.
  - intros p r G (alts' & cur' & E & H) tl st alts cur. cbn [app]. rewrite <- app_assoc. cbn [app].
    rewrite parse_group by exact (proj1 grammar_no_q _ _ G). rewrite H, app_nil_r. cbn [parse]. now rewrite E.
  - intros p r G (alts' & cur' & E & H) tl st alts cur. cbn [app]. rewrite <- app_assoc. cbn [app parse]. rewrite H, app_nil_r. cbn [parse]. now rewrite E.
Qed.

(** ** and nothing else *)
(** what may follow when the items [cur] of the current sequence have been read: a quantifier of the last
    item, then a sequence *)
Definition SeqRest (p : list ascii) (cur : list item) (r : re) : Prop :=
  (exists k, Sequence p k /\ r = seq_on cur k) \/
  exists a tl q k, cur = (a, true) :: tl /\ Sequence q k /\
    ((p = "*"%char :: q /\ r = seq_on tl (RSeq (RStar a) k)) \/
     (p = "+"%char :: q /\ r = seq_on tl (RSeq (RSeq a (RStar a)) k)) \/
     (p = "?"%char :: q /\ r = seq_on tl (RSeq (RAlt a REps) k))).
Definition AltRest (p : list ascii) (alts : list re) (cur : list item) (r : re) : Prop :=
  (exists k, SeqRest p cur k /\ r = alt_on alts k) \/
  exists p1 k p2 k', p = (p1 ++ "|"%char :: p2)%list /\ SeqRest p1 cur k /\ Alternatives p2 k' /\ r = alt_on alts (RAlt k k').
Fixpoint Rest (p : list ascii) (st : list (list re * list item)) (alts : list re) (cur : list item) (r : re) : Prop :=
  match st with
  | [] => AltRest p alts cur r
  | (alts', cur') :: st' => exists p1 p2 r1, p = (p1 ++ ")"%char :: p2)%list /\ AltRest p1 alts cur r1 /\ Rest p2 st' alts' ((r1, true) :: cur') r
  end.

Lemma AltRest_step a p alts cur alts' cur' r :
  (forall p r, SeqRest p cur' r -> SeqRest (a ++ p) cur r) -> alts' = alts -> AltRest p alts' cur' r -> AltRest (a ++ p) alts cur r.
Proof.
  intros H -> [(k & S & E)|(p1 & k & p2 & k' & -> & S & A & E)].
  - left. exists k. split; [now apply H|exact E].
  - right. exists (a ++ p1)%list, k, p2, k'. rewrite <- app_assoc. repeat split; auto.
Qed.
Lemma Rest_step a p st alts cur alts' cur' r :
  (forall p r, AltRest p alts' cur' r -> AltRest (a ++ p) alts cur r) -> Rest p st alts' cur' r -> Rest (a ++ p) st alts cur r.
Proof.
  intros H. destruct st as [|[al cu] st]; cbn [Rest]; [apply H|].
  intros (p1 & p2 & r1 & -> & A & R). exists (a ++ p1)%list, p2, r1. rewrite <- app_assoc. auto.
Qed.

Lemma SeqRest_atom a x p cur r : Atom a x -> SeqRest p ((x, true) :: cur) r -> SeqRest (a ++ p) cur r.
Proof.
  intros A [(k & S & ->)|(y & tl & q & k & [= -> ->] & S & [[-> ->]|[[-> ->]|[-> ->]]])]; left.
  - exists (RSeq x k). split; [constructor; [now constructor|exact S]|reflexivity].
  - exists (RSeq (RStar y) k). split; [|reflexivity]. replace (a ++ "*"%char :: q)%list with ((a ++ ["*"%char]) ++ q)%list by (rewrite <- app_assoc; reflexivity). constructor; [now constructor|exact S].
  - exists (RSeq (RSeq y (RStar y)) k). split; [|reflexivity]. replace (a ++ "+"%char :: q)%list with ((a ++ ["+"%char]) ++ q)%list by (rewrite <- app_assoc; reflexivity). constructor; [now constructor|exact S].
  - exists (RSeq (RAlt y REps) k). split; [|reflexivity]. replace (a ++ "?"%char :: q)%list with ((a ++ ["?"%char]) ++ q)%list by (rewrite <- app_assoc; reflexivity). constructor; [now constructor|exact S].
Qed.
Lemma SeqRest_anchor a x p cur r : Item a x -> SeqRest p ((x, false) :: cur) r -> SeqRest (a ++ p) cur r.
Proof.
  intros A [(k & S & ->)|(y & tl & q & k & [=] & _)]. left. exists (RSeq x k). split; [constructor; assumption|reflexivity].
Qed.
Lemma Rest_atom a x p st alts cur r : Atom a x -> Rest p st alts ((x, true) :: cur) r -> Rest (a ++ p) st alts cur r.
Proof. intros A. apply Rest_step. intros p' r'. apply AltRest_step; [|reflexivity]. intros. eapply SeqRest_atom; eauto. Qed.
Lemma Rest_anchor a x p st alts cur r : Item a x -> Rest p st alts ((x, false) :: cur) r -> Rest (a ++ p) st alts cur r.
Proof. intros A. apply Rest_step. intros p' r'. apply AltRest_step; [|reflexivity]. intros. eapply SeqRest_anchor; eauto. Qed.

Lemma SeqRest_nil p r : SeqRest p [] r -> Sequence p r.
Proof. intros [(k & S & ->)|(y & tl & q & k & [=] & _)]. exact S. Qed.
Lemma AltRest_nil p r : AltRest p [] [] r -> Alternatives p r.
Proof.
  intros [(k & S & ->)|(p1 & k & p2 & k' & -> & S & A & ->)]; apply SeqRest_nil in S; [now constructor|now apply alt_more].
Qed.
Lemma SeqRest_end cur : SeqRest [] cur (seq_of cur).
Proof. left. exists REps. split; [constructor|reflexivity]. Qed.
Lemma AltRest_bar p alts cur r : AltRest p (seq_of cur :: alts) [] r -> AltRest ("|"%char :: p) alts cur r.
Proof.
  intros [(k & S & ->)|(p1 & k & p2 & k' & -> & S & A & ->)]; apply SeqRest_nil in S; right.
  - exists [], (seq_of cur), p, k. repeat split; [apply SeqRest_end|now constructor].
  - exists [], (seq_of cur), (p1 ++ "|"%char :: p2)%list, (RAlt k k'). repeat split; [apply SeqRest_end|now apply alt_more].
Qed.

Lemma quantify_inv f cur cur' : quantify f cur = Some cur' -> exists a tl, cur = (a, true) :: tl /\ cur' = (f a, false) :: tl.
Proof. destruct cur as [|[a []] tl]; cbn; intros [= <-]; eauto. Qed.
Lemma SeqRest_quantified (f : re -> re) p a tl r : SeqRest p ((f a, false) :: tl) r -> exists k, Sequence p k /\ r = seq_on tl (RSeq (f a) k).
Proof. intros [(k & S & ->)|(y & t & q & k & [=] & _)]. exists k. split; [exact S|reflexivity]. Qed.

Lemma parse_sound : forall n p st alts cur r, length p <= n -> parse p st alts cur = Some r -> Rest p st alts cur r.
Proof.
  induction n as [|n IH]; intros p st alts cur r L H.
  - destruct p; [|cbn in L; lia]. destruct st; [|discriminate H]. injection H as <-. left. exists (seq_of cur). split; [apply SeqRest_end|reflexivity].
  - destruct p as [|c p]; [apply (IH [] st alts cur r); [cbn; lia|exact H]|]. cbn [length] in L.
    destruct (meta_cases c) as [M|M].
    2:{ rewrite parse_chr in H by exact M. apply IH in H; [|lia]. exact (Rest_atom [c] _ p st alts cur r (atom_char c M) H). }
    unfold metachars in M.
    destruct M as [<-|[<-|[<-|[<-|[<-|[<-|[<-|[<-|[<-|[<-|[<-|[<-|[]]]]]]]]]]]]].
    + cbn [parse] in H. apply IH in H; [|lia]. exact (Rest_atom _ _ p st alts cur r atom_any H).
    + cbn [parse] in H. apply IH in H; [|lia]. exact (Rest_anchor _ _ p st alts cur r item_start H).
    + cbn [parse] in H. apply IH in H; [|lia]. exact (Rest_anchor _ _ p st alts cur r item_end H).
    + cbn [parse] in H. destruct (quantify RStar cur) as [cur'|] eqn:Q; [|discriminate H]. apply quantify_inv in Q as (a & tl & -> & ->). apply IH in H; [|lia].
      refine (Rest_step ["*"%char] p st alts _ alts _ r _ H). intros p' r'. apply AltRest_step; [|reflexivity]. clear. intros p r S. apply (SeqRest_quantified RStar) in S as (k & S & ->). right. exists a, tl, p, k. split; [reflexivity|]. split; [exact S|]. tauto.
    + cbn [parse] in H. destruct (quantify _ cur) as [cur'|] eqn:Q; [|discriminate H]. apply quantify_inv in Q as (a & tl & -> & ->). apply IH in H; [|lia].
      refine (Rest_step ["+"%char] p st alts _ alts _ r _ H). intros p' r'. apply AltRest_step; [|reflexivity]. clear. intros p r S. apply (SeqRest_quantified (fun a => RSeq a (RStar a))) in S as (k & S & ->). right. exists a, tl, p, k. split; [reflexivity|]. split; [exact S|]. tauto.
    + cbn [parse] in H. destruct (quantify _ cur) as [cur'|] eqn:Q; [|discriminate H]. apply quantify_inv in Q as (a & tl & -> & ->). apply IH in H; [|lia].
      refine (Rest_step ["?"%char] p st alts _ alts _ r _ H). intros p' r'. apply AltRest_step; [|reflexivity]. clear. intros p r S. apply (SeqRest_quantified (fun a => RAlt a REps)) in S as (k & S & ->). right. exists a, tl, p, k. split; [reflexivity|]. split; [exact S|]. tauto.
    + discriminate H.
    + discriminate H.
    + destruct p as [|c p]; [discriminate H|]. cbn [parse] in H. destruct (is_alnum c) eqn:N; [discriminate H|].
      apply IH in H; [|cbn in L; lia]. refine (Rest_atom ["\"%char; c] _ p st alts cur r (atom_escaped c _) H). rewrite <- is_alnum_iff, N. discriminate.
    + cbn [parse] in H. apply IH in H; [|lia]. refine (Rest_step ["|"%char] p st alts _ _ _ r _ H). intros p' r'. apply AltRest_bar.
    + assert (G : (exists q, p = "?"%char :: ":"%char :: q /\ parse q ((alts, cur) :: st) [] [] = Some r) \/ parse p ((alts, cur) :: st) [] [] = Some r).
      { destruct p as [|c p]; [right; exact H|]. destruct c as [[] [] [] [] [] [] [] []]; try (right; exact H).
        destruct p as [|c p]; [discriminate H|]. destruct c as [[] [] [] [] [] [] [] []]; try discriminate H. left. exists p. split; [reflexivity|exact H]. }
      destruct G as [(q & -> & G)|G]; apply IH in G; try (cbn in L; lia); destruct G as (p1 & p2 & r1 & -> & A & R); apply AltRest_nil in A.
      * replace ("("%char :: "?"%char :: ":"%char :: p1 ++ ")"%char :: p2)%list with (("("%char :: "?"%char :: ":"%char :: p1 ++ [")"%char]) ++ p2)%list by (cbn; rewrite <- app_assoc; reflexivity).
        exact (Rest_atom _ _ p2 st alts cur r (atom_plain_group _ _ A) R).
      * replace ("("%char :: p1 ++ ")"%char :: p2)%list with (("("%char :: p1 ++ [")"%char]) ++ p2)%list by (cbn; rewrite <- app_assoc; reflexivity).
        exact (Rest_atom _ _ p2 st alts cur r (atom_group _ _ A) R).
    + cbn [parse] in H. destruct st as [|[alts' cur'] st]; [discriminate H|]. apply IH in H; [|lia].
      exists [], p, (alt_of alts cur). split; [reflexivity|]. split; [|exact H]. left. exists (seq_of cur). split; [apply SeqRest_end|reflexivity].
Qed.

Lemma compile_iff p r : compile p = Some r <-> Pattern p r.
Proof.
  unfold compile, Pattern. split.
  - intros H. apply AltRest_nil. exact (parse_sound _ _ [] [] [] r (le_n _) H).
  - intros H. destruct (proj1 parse_complete _ _ H) as (alts' & cur' & E & P). specialize (P [] [] []). rewrite !app_nil_r in P. rewrite P. cbn. now rewrite E.
Qed.

(** * C83 *)
Lemma c83_columns regex r cols : Pattern regex r -> exists out, match_columns cols (Some regex) = Ok out /\
  (forall c, In c out <-> In c cols /\ selects r c).
Proof.
  intros P. apply compile_iff in P. unfold match_columns. rewrite P. eexists. split; [reflexivity|]. intros c. rewrite filter_In, re_match_iff. reflexivity.
Qed.
Lemma c83_order regex cols out : match_columns cols (Some regex) = Ok out -> exists keep, out = filter keep cols.
Proof. unfold match_columns. destruct (compile regex); [|discriminate]. intros [= <-]. eauto. Qed.
Lemma c83_rejected regex cols : (forall r, ~ Pattern regex r) -> match_columns cols (Some regex) = Err ValueError.
Proof. intros N. unfold match_columns. destruct (compile regex) as [r|] eqn:E; [apply compile_iff in E; elim (N r E)|reflexivity]. Qed.
Lemma c83_unique p r r' : Pattern p r -> Pattern p r' -> r = r'.
Proof. intros H H'. apply compile_iff in H, H'. congruence. Qed.

(** ** Escaped names *)
Lemma metachars_not_alnum c : In c metachars -> ~ alphanumeric c.
Proof. intros M A. apply is_alnum_iff in A. unfold metachars in M. repeat (destruct M as [<-|M]; [discriminate A|]). destruct M. Qed.
Lemma escaped_seq s q k : Sequence q k -> Sequence (list_ascii_of_string (escaped s) ++ q) (lit_seq (list_ascii_of_string s) k).
Proof.
  intros Q. induction s as [|c s IH]; [exact Q|]. cbn [escaped list_ascii_of_string lit_seq fold_right].
  destruct (in_dec ascii_dec c metachars) as [M|M].
  - refine (seq_cons ["\"%char; c] _ (list_ascii_of_string (escaped s) ++ q) _ _ IH). constructor. apply atom_escaped. now apply metachars_not_alnum.
  - refine (seq_cons [c] _ (list_ascii_of_string (escaped s) ++ q) _ _ IH). constructor. now apply atom_char.
Qed.
Lemma escaped_exact_pattern s : Pattern (exact (escaped s)) (RSeq RBol (lit_seq (list_ascii_of_string s) (RSeq REol REps))).
Proof.
  unfold Pattern, exact. rewrite !laos_app. constructor. refine (seq_cons ["^"%char] _ _ _ item_start _).
  apply escaped_seq. exact (seq_cons ["$"%char] _ [] _ item_end seq_nil).
Qed.
Lemma escaped_alternatives p ps : exists r, Alternatives (list_ascii_of_string (String.concat "|" (map escaped (p :: ps)))) r /\
  forall n s s', Matches n r s s' <-> exists x, In x (p :: ps) /\ s = list_ascii_of_string x ++ s'.
Proof.
  assert (B : forall x n s s', Matches n (lit_seq (list_ascii_of_string x) REps) s s' <-> s = list_ascii_of_string x ++ s').
  { intros x n s s'. rewrite Matches_lit_seq. split; [intros (u & -> & M); apply Matches_eps_inv in M as ->; reflexivity|intros ->; exists s'; split; [reflexivity|constructor]]. }
  revert p. induction ps as [|q ps IH]; intros p.
  - exists (lit_seq (list_ascii_of_string p) REps). split.
    + constructor. cbn. rewrite <- (app_nil_r (list_ascii_of_string _)). apply escaped_seq. constructor.
    + intros n s s'. rewrite B. split; [intros E; exists p; cbn; auto|intros (x & [<-|[]] & E); exact E].
  - destruct (IH q) as (r & A & M). exists (RAlt (lit_seq (list_ascii_of_string p) REps) r). split.
    + cbn [map]. rewrite concat_cons, !laos_app. cbn [list_ascii_of_string app]. apply alt_more; [|exact A].
      rewrite <- (app_nil_r (list_ascii_of_string _)). apply escaped_seq. constructor.
    + intros n s s'. split.
      * intros H. inversion H; subst; [exists p; split; [now left|now apply (B p n)]|]. apply M in H4 as (x & I & E). exists x. split; [now right|exact E].
      * intros (x & [<-|I] & E); [apply M_alt_l; now apply B|apply M_alt_r; apply M; eauto].
Qed.

Lemma c83_exact s cols : (forall c, In c cols -> c <> (s ++ String newline EmptyString)%string) ->
  match_columns cols (Some (exact (escaped s))) = Ok (filter (String.eqb s) cols).
Proof.
  intros N. pose proof (escaped_exact_pattern s) as P. apply compile_iff in P. unfold match_columns. rewrite P. f_equal.
  apply filter_ext_in. intros c Hc. apply eq_true_iff_eq. rewrite re_match_iff, String.eqb_eq. split.
  - intros (s' & H). apply Matches_seq_inv in H as (x & H1 & H2). apply Matches_bol_inv in H1 as [<- _].
    apply Matches_lit_seq in H2 as (u & Hu & H2). apply Matches_seq_inv in H2 as (y & H2 & _). apply Matches_eol_inv in H2 as [_ [-> | ->]].
    + apply laos_inj. now rewrite Hu, app_nil_r.
    + elim (N c Hc). apply laos_inj. now rewrite Hu, laos_app.
  - intros <-. exists []. econstructor; [constructor; reflexivity|]. apply Matches_lit_seq. exists []. rewrite app_nil_r. split; [reflexivity|].
    econstructor; constructor.
Qed.
Lemma c83_starts_with p ps cols : match_columns cols (Some (starts_with (map escaped (p :: ps)))) = Ok (filter (fun c => existsb (fun x => String.prefix x c) (p :: ps)) cols).
Proof.
  destruct (escaped_alternatives p ps) as (r & A & M).
  assert (P : Pattern (starts_with (map escaped (p :: ps))) (RSeq RBol (RSeq r REps))).
  { unfold Pattern, starts_with. rewrite !laos_app. constructor. refine (seq_cons ["^"%char] _ _ _ item_start _).
    rewrite <- (app_nil_r (_ :: _)). refine (seq_cons _ _ [] _ _ seq_nil). constructor. exact (atom_plain_group _ _ A). }
  apply compile_iff in P. unfold match_columns. rewrite P. f_equal. apply filter_ext_in. intros c _. apply eq_true_iff_eq. rewrite re_match_iff, existsb_exists. split.
  - intros (s' & H). apply Matches_seq_inv in H as (x & H1 & H2). apply Matches_bol_inv in H1 as [<- _]. apply Matches_seq_inv in H2 as (y & H2 & _).
    apply M in H2 as (x & I & E). exists x. split; [exact I|]. apply prefix_starts. exists (string_of_list_ascii y). apply laos_inj. now rewrite laos_app, list_ascii_of_string_of_list_ascii.
  - intros (x & I & E). apply prefix_starts in E as [t ->]. exists (list_ascii_of_string t). econstructor; [constructor; reflexivity|]. econstructor; [|constructor]. apply M. exists x. split; [exact I|apply laos_app].
Qed.
