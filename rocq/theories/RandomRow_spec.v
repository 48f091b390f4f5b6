(** Vocabulary for the row update of the random solver. *)
From Verif Require Import Base Problem_model Merged_model.
Open Scope Z_scope.

(** The value of the left-hand side when all the variables of the row are 1. *)
Definition coefficient_sum (r : merged) : Z := fold_right Z.add 0 (map f_factor (m_elements r)).
