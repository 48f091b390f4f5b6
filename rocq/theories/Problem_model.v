(** Data types shared by the library: lib/include/baryonyx/core and lib/src/problem.hpp. *)
From Coq Require String.
From Coq Require Export Ascii.
From Verif Require Import Base.
Open Scope Z_scope.

(** Text (std::string_view contents) as a list of characters. *)
Definition text := list ascii.
(** A string literal. *)
Definition str (s : String.string) : text := String.list_ascii_of_string s.

(** core:586-597. [variable_index] is a [nat]; the default -1 never names a variable. *)
Record felem := mk_felem { f_factor : Z; f_var : nat }.

(** core:627-645 *)
Record constraint := mk_constraint {
  c_label : text; c_elements : list felem; c_value : Z; c_id : Z }.

(** core:599-608 and 610-625. Cost factors are doubles in the code; here integers (see
    DESIGN.md, "double"). *)
Record oelem := mk_oelem { o_factor : Z; o_var : nat }.
(** objective_quadratic_element, core:610-625 *)
Record qelem := mk_qelem { q_factor : Z; q_vara : nat; q_varb : nat }.

(** core:647-652 *)
Record objective := mk_objective {
  o_elements : list oelem; o_qelements : list qelem; o_value : Z }.

(** core:535-540, 565-578, 580-584 *)
Inductive variable_type := vt_real | vt_binary | vt_general.
(** core:565-578 *)
Record variable_value := mk_variable_value { v_min : Z; v_max : Z; v_type : variable_type }.
(** core:580-584 *)
Record variables := mk_variables { v_names : list text; v_values : list variable_value }.

(** core:552-556 *)
Inductive objective_type := maximize | minimize.

(** core:558-563 *)
Inductive operator_type := op_equal | op_greater | op_less.

(** core:654-664 *)
Record affected_variables := mk_affected { a_names : list text; a_values : list bool }.

(** core:542-550 *)
Inductive problem_solver_type :=
| equalities_01 | equalities_101 | equalities_Z
| inequalities_01 | inequalities_101 | inequalities_Z.

(** problem.hpp:43-149 (problem) and core:666-690 (raw_problem): raw_problem is the same
    record with no affected variables and no problem_type. The string storage ([strings])
    is modelled separately (StringBuffer). *)
Record problem := mk_problem {
  p_objective : objective;
  p_equal : list constraint;
  p_greater : list constraint;
  p_less : list constraint;
  p_vars : variables;
  p_affected : affected_variables;
  p_type : objective_type;
  p_problem_type : problem_solver_type }.

(** int limits on the supported platforms (32-bit int). *)
Definition int_min : Z := - 2 ^ 31.
(** std::numeric_limits<int>::max() *)
Definition int_max : Z := 2 ^ 31 - 1.

(** core-compare:48-53 *)
Definition felem_eqb (a b : felem) : bool :=
  (f_factor a =? f_factor b) && Nat.eqb (f_var a) (f_var b).
(** operator == on vectors of function_element, core-compare:48-53 *)
Fixpoint felems_eqb (a b : list felem) : bool :=
  match a, b with
  | [], [] => true
  | x :: a', y :: b' => felem_eqb x y && felems_eqb a' b'
  | _, _ => false
  end.

Lemma felem_eqb_spec a b : reflect (a = b) (felem_eqb a b).
Proof.
  unfold felem_eqb. destruct a as [fa va], b as [fb vb]; cbn.
  destruct (Z.eqb_spec fa fb), (Nat.eqb_spec va vb); cbn; constructor; congruence.
Qed.
Lemma felems_eqb_spec a b : reflect (a = b) (felems_eqb a b).
Proof.
  revert b; induction a as [|x a IH]; intros [|y b]; cbn; try (constructor; congruence).
  destruct (felem_eqb_spec x y); cbn; [|constructor; congruence].
  destruct (IH b); constructor; congruence.
Qed.
