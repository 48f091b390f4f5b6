(** When two problems are the same. *)
From Coq Require Import QArith.
From Verif Require Import Base Problem_model Problem_spec Params_model Compare_model.
Open Scope Z_scope.

(** The same constraint, up to its number. *)
Definition same_constraint (c d : constraint) : Prop := c_label c = c_label d /\ c_elements c = c_elements d /\ c_value c = c_value d.
(** The same variables, constraints in the same order, direction, linear costs and constant. *)
Definition same_linear (a b : problem) : Prop :=
  o_elements (p_objective a) = o_elements (p_objective b) /\ o_value (p_objective a) = o_value (p_objective b) /\
  Forall2 same_constraint (p_equal a) (p_equal b) /\ Forall2 same_constraint (p_greater a) (p_greater b) /\ Forall2 same_constraint (p_less a) (p_less b) /\
  p_vars a = p_vars b /\ p_type a = p_type b.
(** A number. *)
Definition a_number (d : dbl) : Prop := d <> NaN.
