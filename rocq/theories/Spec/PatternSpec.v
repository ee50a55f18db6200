(** The grammar of patterns (the modelled subset of Python's [re] syntax, see Regex) with the meaning of
    each pattern as an abstract syntax tree; [Matches] (RegexSpec) is the meaning of the trees. *)
From Coq Require Import String Ascii List Arith.
From Verif.Model Require Import Regex.
From Verif.Spec Require Import RegexSpec.
Import ListNotations.

Definition alphanumeric (c : ascii) : Prop :=
  In c (list_ascii_of_string "0123456789ABCDEFGHIJKLMNOPQRSTUVWXYZabcdefghijklmnopqrstuvwxyz").

(** alternatives ::= sequence | sequence "|" alternatives
    sequence     ::= nothing | item sequence
    item         ::= atom | atom "*" | atom "+" | atom "?" | "^" | "$"
    atom         ::= plain character | "\" punctuation | "." | "(" alternatives ")" | "(?:" alternatives ")" *)
Inductive Alternatives : list ascii -> re -> Prop :=
| alt_last p r : Sequence p r -> Alternatives p r
| alt_more p r q r' : Sequence p r -> Alternatives q r' -> Alternatives (p ++ "|"%char :: q) (RAlt r r')
with Sequence : list ascii -> re -> Prop :=
| seq_nil : Sequence [] REps
| seq_cons p r q r' : Item p r -> Sequence q r' -> Sequence (p ++ q) (RSeq r r')
with Item : list ascii -> re -> Prop :=
| item_atom p r : Atom p r -> Item p r
| item_star p r : Atom p r -> Item (p ++ ["*"%char]) (RStar r)
| item_plus p r : Atom p r -> Item (p ++ ["+"%char]) (RSeq r (RStar r))
| item_optional p r : Atom p r -> Item (p ++ ["?"%char]) (RAlt r REps)
| item_start : Item ["^"%char] RBol
| item_end : Item ["$"%char] REol
with Atom : list ascii -> re -> Prop :=
| atom_char c : ~ In c metachars -> Atom [c] (RChr c)
| atom_escaped c : ~ alphanumeric c -> Atom ["\"%char; c] (RChr c)
| atom_any : Atom ["."%char] RAny
| atom_group p r : Alternatives p r -> Atom ("("%char :: p ++ [")"%char]) r
| atom_plain_group p r : Alternatives p r -> Atom ("("%char :: "?"%char :: ":"%char :: p ++ [")"%char]) r.

Definition Pattern (p : string) (r : re) : Prop := Alternatives (list_ascii_of_string p) r.

(** the pattern matches at the start of the name *)
Definition selects (r : re) (name : string) : Prop :=
  let s := list_ascii_of_string name in exists rest, Matches (List.length s) r s rest.

(** a name with its special characters escaped (Python's [re.escape] escapes a few more punctuation
    characters, with the same meaning) *)
Fixpoint escaped (s : string) : string :=
  match s with
  | EmptyString => EmptyString
  | String c tl => if in_dec ascii_dec c metachars then String "\" (String c (escaped tl)) else String c (escaped tl)
  end.
