(** Regular expressions: the subset of Python's [re] syntax that prophetverse's helpers
    generate (literals, [.], anchors, groups, alternation, [* + ?], escaped punctuation),
    [re.match], and src/prophetverse/utils/regex.py. *)
From Coq Require Import String Ascii Bool Arith List.
From Verif.Model Require Import Base.
Import ListNotations.

(** Abstract syntax of patterns. *)
Inductive re :=
| REps
| RChr (c : ascii)
| RAny
| RBol
| REol
| RSeq (a b : re)
| RAlt (a b : re)
| RStar (a : re).

Definition newline : ascii := ascii_of_nat 10.

(** Items of the sequence being parsed, most recent first; the flag says whether a
    quantifier may follow (Python: "nothing to repeat", "multiple repeat"). *)
Definition item := (re * bool)%type.

Definition seq_of (cur : list item) : re :=
  fold_left (fun acc it => RSeq (fst it) acc) cur REps.

Definition alt_of (alts : list re) (cur : list item) : re :=
  fold_left (fun acc r => RAlt r acc) alts (seq_of cur).

Definition quantify (q : re -> re) (cur : list item) : option (list item) :=
  match cur with
  | (r, true) :: tl => Some ((q r, false) :: tl)
  | _ => None
  end.

Definition is_alnum (c : ascii) : bool :=
  let n := nat_of_ascii c in
  ((48 <=? n) && (n <=? 57)) || ((65 <=? n) && (n <=? 90)) || ((97 <=? n) && (n <=? 122)).

(** Pattern parser.  [stack] holds the enclosing groups (their alternatives and current
    sequence), [alts] the finished alternatives and [cur] the items of the current one.
    [None]: Python raises re.error, or the syntax ([[]], [{}], [\d], [(?...)] other than
    [(?:], lazy and possessive quantifiers) is outside the modelled subset. *)
Fixpoint parse (p : list ascii) (stack : list (list re * list item))
         (alts : list re) (cur : list item) : option re :=
  match p with
  | [] => match stack with [] => Some (alt_of alts cur) | _ => None end
  | "("%char :: "?"%char :: ":"%char :: tl => parse tl ((alts, cur) :: stack) [] []
  | "("%char :: "?"%char :: _ => None
  | "("%char :: tl => parse tl ((alts, cur) :: stack) [] []
  | ")"%char :: tl =>
      match stack with
      | (alts', cur') :: stack' => parse tl stack' alts' ((alt_of alts cur, true) :: cur')
      | [] => None
      end
  | "|"%char :: tl => parse tl stack (seq_of cur :: alts) []
  | "*"%char :: tl =>
      match quantify RStar cur with Some cur' => parse tl stack alts cur' | None => None end
  | "+"%char :: tl =>
      match quantify (fun r => RSeq r (RStar r)) cur with
      | Some cur' => parse tl stack alts cur' | None => None end
  | "?"%char :: tl =>
      match quantify (fun r => RAlt r REps) cur with
      | Some cur' => parse tl stack alts cur' | None => None end
  | "."%char :: tl => parse tl stack alts ((RAny, true) :: cur)
  | "^"%char :: tl => parse tl stack alts ((RBol, false) :: cur)
  | "$"%char :: tl => parse tl stack alts ((REol, false) :: cur)
  | "["%char :: _ => None
  | "{"%char :: _ => None
  | "\"%char :: c :: tl =>
      if is_alnum c then None else parse tl stack alts ((RChr c, true) :: cur)
  | "\"%char :: [] => None
  | c :: tl => parse tl stack alts ((RChr c, true) :: cur)
  end.

Definition compile (p : string) : option re := parse (list_ascii_of_string p) [] [] [].

(** Matching.  A position in the subject is represented by the remaining suffix; [n] is the
    length of the whole subject.  [ends r n s] lists the suffixes left after matching [r] at
    [s] (the existence of a match does not depend on Python's preference order). *)
Fixpoint ends (r : re) (n : nat) (s : list ascii) : list (list ascii) :=
  match r with
  | REps => [s]
  | RChr c => match s with c' :: s' => if Ascii.eqb c c' then [s'] else [] | [] => [] end
  | RAny => match s with c' :: s' => if Ascii.eqb newline c' then [] else [s'] | [] => [] end
  | RBol => if length s =? n then [s] else []
  | REol => match s with
            | [] => [s]
            | [c] => if Ascii.eqb newline c then [s] else []
            | _ => []
            end
  | RSeq a b => flat_map (ends b n) (ends a n s)
  | RAlt a b => ends a n s ++ ends b n s
  | RStar a =>
      (fix iter (fuel : nat) (s : list ascii) : list (list ascii) :=
         match fuel with
         | O => [s]
         | S fuel' => s :: flat_map (fun s' => if length s' <? length s then iter fuel' s' else [])
                                    (ends a n s)
         end) (length s) s
  end.

(** [re.match(p, w)] succeeded (a match of some prefix of [w]). *)
Definition re_match (r : re) (w : string) : bool :=
  let s := list_ascii_of_string w in
  match ends r (length s) s with [] => false | _ => true end.

(** utils/regex.py:5 *)
Definition no_input_columns : string := "^$".

(** utils/regex.py:8-25; a plain string argument is the one-element list (lines 23-24). *)
Definition starts_with (prefixes : list string) : string :=
  ("^(?:" ++ String.concat "|" prefixes ++ ")")%string.

(** utils/regex.py:28-42 *)
Definition exact (s : string) : string := ("^" ++ s ++ "$")%string.

(** [columns.str.match(regex)] for one column; re.error / unsupported syntax is an error. *)
Definition col_match (regex : string) (col : string) : res bool :=
  match compile regex with
  | Some r => Ok (re_match r col)
  | None => Err ValueError
  end.

(** sktime/base.py:1088-1115 [_match_columns].  Column labels are strings in the model, so
    [astype(str)] is the identity. *)
Definition match_columns (columns : list string) (regex : option string) : res (list string) :=
  match regex with
  | None => Ok []
  | Some p =>
      match compile p with
      | Some r => Ok (filter (re_match r) columns)
      | None => Err ValueError
      end
  end.
