(** Property C83: the pattern given with an effect selects the columns it matches, for every pattern of the
    grammar of PatternSpec. *)
From Coq Require Import String Ascii Bool List.
From Verif.Model Require Import Base Regex.
From Verif.Spec Require Import RegexSpec PatternSpec.
From Verif.Facts Require Import PatternFacts.
Import ListNotations.
Local Open Scope string_scope.

(** A pattern of the grammar selects the columns whose name it matches at the start ... *)
Theorem C83_columns : forall regex r cols, Pattern regex r -> exists out, match_columns cols (Some regex) = Ok out /\
  (forall c, In c out <-> In c cols /\ selects r c).
Proof. exact c83_columns. Qed.
Print Assumptions C83_columns.

(** ... in the order of the columns ... *)
Theorem C83_order : forall regex cols out, match_columns cols (Some regex) = Ok out -> exists keep, out = filter keep cols.
Proof. exact c83_order. Qed.
Print Assumptions C83_order.

(** ... a pattern has one meaning ... *)
Theorem C83_unambiguous : forall p r r', Pattern p r -> Pattern p r' -> r = r'.
Proof. exact c83_unique. Qed.
Print Assumptions C83_unambiguous.

(** ... and what is not in the grammar is an error. *)
Theorem C83_rejected : forall regex cols, (forall r, ~ Pattern regex r) -> match_columns cols (Some regex) = Err ValueError.
Proof. exact c83_rejected. Qed.
Print Assumptions C83_rejected.

(** The helpers [exact] and [starts_with] do what C42 asks for when their arguments are escaped: for every
    name and every list of prefixes, without a condition on the characters. *)
Theorem C83_exact_escaped : forall s cols, (forall c, In c cols -> c <> s ++ String newline EmptyString) ->
  match_columns cols (Some (exact (escaped s))) = Ok (filter (String.eqb s) cols).
Proof. exact c83_exact. Qed.
Print Assumptions C83_exact_escaped.
Theorem C83_starts_with_escaped : forall p ps cols,
  match_columns cols (Some (starts_with (map escaped (p :: ps)))) = Ok (filter (fun c => existsb (fun x => String.prefix x c) (p :: ps)) cols).
Proof. exact c83_starts_with. Qed.
Print Assumptions C83_starts_with_escaped.

(** names of every kind are among the columns selected *)
Example C83_example :
  (exists r, Pattern "^(?:tv|radio)_(a+b)?\.x*.$" r) /\
  match_columns ["tv_aab.xx1"; "radio_.z"; "web_.z"; "tv_b.x1"; "tv_.12"] (Some "^(?:tv|radio)_(a+b)?\.x*.$") = Ok ["tv_aab.xx1"; "radio_.z"].
Proof. split; [eexists; apply compile_iff; vm_compute; reflexivity|vm_compute; reflexivity]. Qed.
Example C83_rejected_example : forall regex, In regex ["a**"; "(a"; "a)"; "^*"; "+a"; "a|?"; "(?=a)"; "\"] -> forall r, ~ Pattern regex r.
Proof.
  intros regex I r P. apply compile_iff in P. repeat (destruct I as [<-|I]; [vm_compute in P; discriminate P|]). destruct I.
Qed.
Example C83_escaped_example :
  match_columns ["sales (net)"; "sales net"; "a.b"; "axb"] (Some (exact (escaped "sales (net)"))) = Ok ["sales (net)"] /\
  match_columns ["a.b"; "axb"; "a.bc"] (Some (starts_with (map escaped ["a.b"; "(x"]))) = Ok ["a.b"; "a.bc"].
Proof. split; vm_compute; reflexivity. Qed.
