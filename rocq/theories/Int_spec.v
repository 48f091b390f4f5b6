(** When the numbers of a problem are small enough for [int]. *)
From Verif Require Import Base Problem_model Merged_model Rows_model.
Open Scope Z_scope.

(** The sum of the absolute values of the coefficients. *)
Definition weight (l : list felem) : Z := fold_right (fun e a => Z.abs (f_factor e) + a) 0 l.
(** A constraint fits: its coefficients and its right-hand side, all taken positive, sum to at
    most 2147483647. *)
Definition constraint_fits (c : constraint) : Prop := weight (c_elements c) + Z.abs (c_value c) <= 2147483647.
Definition problem_fits (pb : problem) : Prop :=
  forall c, In c (p_equal pb ++ p_greater pb ++ p_less pb) -> constraint_fits c.
(** The same for coefficients in the buffer of a sub-solver. *)
Definition rc_weight {F} (l : list (rc F)) : Z := fold_right (fun r a => Z.abs (rc_f r) + a) 0 l.
