(** The characters of an LP file: what the specifications of the lexer, the parser and the
    writer mean by a blank, a digit, a name, a number, a keyword. Nothing here follows the
    code; words are compared without regard to case. *)
From Coq Require Import Ascii String.
From Verif Require Import Base Problem_model.
Open Scope string_scope.
Open Scope list_scope.
Open Scope nat_scope.

Definition one_of (c : ascii) (s : string) : bool := existsb (Ascii.eqb c) (list_ascii_of_string s).
Definition between (lo hi : nat) (c : ascii) : bool := let n := nat_of_ascii c in Nat.leb lo n && Nat.leb n hi.

(** space, tabulation, line feed, vertical tabulation, form feed, carriage return *)
Definition char_blank (c : ascii) : bool := let n := nat_of_ascii c in Nat.eqb n 32 || (Nat.leb 9 n && Nat.leb n 13).
Definition char_end_of_line : ascii := ascii_of_nat 10.
Definition char_comment : ascii := ascii_of_nat 92. (* backslash *)
Definition char_digit (c : ascii) : bool := between 48 57 c.
Definition char_letter (c : ascii) : bool := between 97 122 c || between 65 90 c.
(** letters, digits, the double quote and [! # $ % & ( ) , . ; ? @ _ { } ~] *)
Definition char_name (c : ascii) : bool :=
  char_letter c || char_digit c || existsb (Ascii.eqb c) (ascii_of_nat 34 :: list_ascii_of_string "!#$%&(),.;?@_{}~").
(** what a number is made of, what it starts with *)
Definition char_number (c : ascii) : bool := char_digit c || one_of c ".eE-+".
Definition char_number_start (c : ascii) : bool := char_digit c || one_of c ".-+".
(** the characters that are tokens on their own *)
Definition char_separator (c : ascii) : bool := one_of c "<=>:-+[]*^".

(** equality of words without regard to case *)
Definition lower (c : ascii) : ascii := if between 65 90 c then ascii_of_nat (nat_of_ascii c + 32) else c.
Fixpoint same_word (a b : text) : bool :=
  match a, b with
  | [], [] => true
  | c :: a', d :: b' => Ascii.eqb (lower c) (lower d) && same_word a' b'
  | _, _ => false
  end.
Definition is_word (t : text) (s : string) : bool := same_word t (list_ascii_of_string s).
Definition is_one_of (t : text) (l : list text) : bool := existsb (same_word t) l.

Definition reserved : list string :=
  ["binary"; "binaries"; "bin"; "bound"; "bounds"; "general"; "generals"; "gen"; "end";
   "st"; "subject"; "sush"; "s.t."; "st."].
Definition keyword (t : text) : bool := existsb (fun k => same_word k t) (map list_ascii_of_string reserved).

(** a text that starts like a number: with inf or infinity, or a character of a number *)
Definition number_like (t : text) : bool :=
  match t with
  | [] => false
  | c :: _ => (one_of c "iI" && (is_word t "infinity" || is_word t "inf")) || char_number c
  end.
Definition name_like (t : text) : bool := match t with c :: _ => char_name c | [] => false end.

(** the words that announce the direction of the objective *)
Definition direction (t : text) : option objective_type :=
  if is_word t "maximize" || is_word t "maximum" || is_word t "max" then Some maximize
  else if is_word t "minimize" || is_word t "minimum" || is_word t "min" then Some minimize
  else None.
