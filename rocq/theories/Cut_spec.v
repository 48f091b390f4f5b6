(** LP files that are cut: what is left of a file when the program that writes it, or a copy, is interrupted. *)
From Coq Require Import Ascii String.
From Verif Require Import Base Problem_model ResultIO_model Chars_spec Lexer_model Lexer_spec Parser_model Parser_spec.
Open Scope string_scope.
Open Scope list_scope.
Open Scope nat_scope.

(** A word whose first three letters are end, in any case: the word that closes the file when its rest is cut. *)
Definition end_like (w : text) : bool := same_word (firstn 3 w) (str "end").
(** The labels of a document: of the objective and of the constraints. *)
Definition opt_list (l : option text) : list text := match l with Some x => [x] | None => [] end.
Definition document_labels (d : document) : list text :=
  opt_list (dc_label d) ++ flat_map (fun k => opt_list (k_label k)) (dc_constraints d).
(** [c] is what is left of [t]. *)
Definition cut_of (c t : text) : Prop := exists r, t = c ++ r.
(** No word of the text starts a comment. *)
Definition without_comment (t : text) : Prop := Forall (fun w => comment_word w = false) (words t).
