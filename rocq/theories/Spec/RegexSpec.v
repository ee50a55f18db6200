(** Specification vocabulary for column selection; independent of the matcher. *)
From Coq Require Import String Ascii List Arith.
From Verif.Model Require Import Regex.
Import ListNotations.

(** Declarative meaning of a pattern: [Matches n r s s'] holds when [r] can consume the part
    of the subject between suffix [s] and suffix [s']; [n] is the subject length. *)
Inductive Matches (n : nat) : re -> list ascii -> list ascii -> Prop :=
| M_eps s : Matches n REps s s
| M_chr c s : Matches n (RChr c) (c :: s) s
| M_any c s : c <> newline -> Matches n RAny (c :: s) s
| M_bol s : List.length s = n -> Matches n RBol s s
| M_eol_end : Matches n REol [] []
| M_eol_nl : Matches n REol [newline] [newline]
| M_seq a b s s' s'' : Matches n a s s' -> Matches n b s' s'' -> Matches n (RSeq a b) s s''
| M_alt_l a b s s' : Matches n a s s' -> Matches n (RAlt a b) s s'
| M_alt_r a b s s' : Matches n b s s' -> Matches n (RAlt a b) s s'
| M_star_nil a s : Matches n (RStar a) s s
| M_star_cons a s s' s'' :
    Matches n a s s' -> Matches n (RStar a) s' s'' -> Matches n (RStar a) s s''.

(** Characters with a special meaning in a pattern. *)
Definition metachars : list ascii :=
  ["."; "^"; "$"; "*"; "+"; "?"; "{"; "["; "\"; "|"; "("; ")"]%char.

(** A plain name: contains no special character. *)
Definition literal (s : string) : Prop :=
  forall c, In c (list_ascii_of_string s) -> ~ In c metachars.

Definition starts_with_str (p c : string) : Prop := exists t, c = (p ++ t)%string.
