(** Vocabulary for the generated n-queens file: the variable of each cell, and what reading a
    number has to give. *)
From Coq Require Import Ascii String.
From Verif Require Import Base Problem_model Lexer_model Parser_model Parser_spec Writer_model Queens_model Queens_spec.
Open Scope string_scope.
Open Scope list_scope.
Open Scope Z_scope.

(** The name of the variable of the cell in row [i] and column [j]: x_i_j. *)
Definition queen_name (i j : Z) : text := str "x_" ++ show_int i ++ str "_" ++ show_int j.
(** The cells are numbered row by row. *)
Definition cell_number (n i j : Z) : nat := Z.to_nat (i * n + j).

(** What is assumed of sscanf and of double: a text that starts with an x is not a number, 1 is
    read as a number that converts to the integer 1, and so does 1.0. *)
Definition reads_one {D} (dn : dops D) : Prop :=
  (forall t, d_scan dn ("x"%char :: t) = None) /\
  (exists v, d_scan dn (str "1") = Some v /\ d_int dn v = Some 1) /\
  d_int dn (d_one dn) = Some 1.
