(** What the token buffer has to show: the tokens of the file, in order. *)
From Coq Require Import Ascii String.
From Verif Require Import Base Problem_model ResultIO_model Chars_spec Lexer_model.
Open Scope list_scope.
Open Scope nat_scope.

(** The lines of a text and the words of a line. *)
Fixpoint lines (l : text) : list text :=
  match l with
  | [] => [[]]
  | c :: l' => if Ascii.eqb c char_end_of_line then [] :: lines l'
               else match lines l' with h :: r => (c :: h) :: r | [] => [[c]] end
  end.
Definition flush (cur : text) : list text := match cur with [] => [] | _ => [cur] end.
Fixpoint words_from (cur : text) (l : text) : list text :=
  match l with
  | [] => flush cur
  | c :: l' => if char_blank c then flush cur ++ words_from [] l' else words_from (cur ++ [c]) l'
  end.
Definition words (l : text) : list text := words_from [] l.
(** A comment starts at a word that starts with a backslash and ends with the line. *)
Definition comment_word (w : text) : bool := match w with c :: _ => Ascii.eqb c char_comment | [] => false end.
Fixpoint uncomment (ws : list text) : list text :=
  match ws with [] => [] | w :: r => if comment_word w then [] else w :: uncomment r end.
Definition file_words (t : text) : list text := flat_map (fun l => uncomment (words l)) (lines t).

(** The tokens of a word: each of [< = > : - + \[ \] * ^] is a token; what is between them is one
    too, except that after a first character digit or point, the token ends at the first
    character that cannot be in a number. [cur]: the token being read. *)
Definition extends (cur : text) (c : ascii) : bool :=
  match cur with [] => true | d :: _ => if char_number_start d then char_number c else true end.
Fixpoint split (cur : text) (l : text) : list text :=
  match l with
  | [] => flush cur
  | c :: l' =>
    if char_separator c then flush cur ++ [c] :: split [] l'
    else if extends cur c then split (cur ++ [c]) l'
    else cur :: split [c] l'
  end.
Definition file_tokens (t : text) : list text := flat_map (split []) (file_words t).

(** No character 0 and no word of more than 511 characters. *)
Definition readable (t : text) : Prop :=
  Forall (fun c => is_nul c = false) t /\
  Forall (fun w => length w < 512) (flat_map words (lines t)).
(** The last line that is not blank has no comment. *)
Definition ends_plain (t : text) : Prop :=
  existsb comment_word (last (filter (fun ws => match ws with [] => false | _ => true end) (map words (lines t))) []) = false.
