(** What the storage of the names owes its users. *)
From Coq Require Import Ascii.
From Verif Require Import Base Problem_model Classify_model Validate_model ResultIO_model Utils_model StringBuffer_model.
Open Scope nat_scope.

(** The number of characters of some names. *)
Definition total (l : list text) : nat := fold_right (fun s n => length s + n) 0 l.
(** The views [ws] show the names [l], in the same order. *)
Definition show (b : sbuffer) (l : list text) (ws : list view) : Prop := Forall2 (fun s w => sb_read b w = Some s) l ws.
(** A line of a solution file for a name of [n] letters: aa...a=1 *)
Definition long_line (n : nat) : text := repeat (ascii_of_nat 97) n ++ [equal_sign; ascii_of_nat 49].
