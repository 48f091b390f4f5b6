(** Comparisons of problems and of solutions, and clear(): lib/include/baryonyx/core-compare, lib/src/problem.hpp:151-169,
    lib/src/problem.cpp:59-73. Costs are integers in problems: a cost that is not a number, which differs from itself in the code, is not modelled there. *)
From Coq Require Import QArith.
From Verif Require Import Base Problem_model Validate_model Params_model.
Open Scope Z_scope.

(** operator == on std::vector: same size and elements equal in order *)
Fixpoint vec_eqb {A} (eqb : A -> A -> bool) (a b : list A) : bool :=
  match a, b with
  | [], [] => true
  | x :: a', y :: b' => eqb x y && vec_eqb eqb a' b'
  | _, _ => false
  end.
(** == on the values of enum class variable_type, core:535-540 *)
Definition vtype_eqb (a b : variable_type) : bool :=
  match a, b with vt_real, vt_real | vt_binary, vt_binary | vt_general, vt_general => true | _, _ => false end.
(** == on the values of enum class objective_function_type, core:552-556 *)
Definition otype_eqb (a b : objective_type) : bool :=
  match a, b with maximize, maximize | minimize, minimize => true | _, _ => false end.
(** == on the values of enum class problem_solver_type, core:542-550 *)
Definition ptype_eqb (a b : problem_solver_type) : bool :=
  match a, b with
  | equalities_01, equalities_01 | equalities_101, equalities_101 | equalities_Z, equalities_Z
  | inequalities_01, inequalities_01 | inequalities_101, inequalities_101 | inequalities_Z, inequalities_Z => true
  | _, _ => false
  end.
(** core-compare:30-34 *)
Definition value_eqb (a b : variable_value) : bool := (v_min a =? v_min b) && (v_max a =? v_max b) && vtype_eqb (v_type a) (v_type b).
(** core-compare:36-40 *)
Definition variables_eqb (a b : variables) : bool := vec_eqb text_eqb (v_names a) (v_names b) && vec_eqb value_eqb (v_values a) (v_values b).
(** core-compare:62-68 *)
Definition oelem_eqb (a b : oelem) : bool := (o_factor a =? o_factor b) && Nat.eqb (o_var a) (o_var b).
(** core-compare:70-75 *)
Definition affected_eqb (a b : affected_variables) : bool := vec_eqb text_eqb (a_names a) (a_names b) && vec_eqb Bool.eqb (a_values a) (a_values b).
(** core-compare:77-82; the identifier is not compared *)
Definition constraint_eqb (a b : constraint) : bool :=
  felems_eqb (c_elements a) (c_elements b) && (c_value a =? c_value b) && text_eqb (c_label a) (c_label b).
(** core-compare:84-89; the quadratic elements are not compared *)
Definition objective_eqb (a b : objective) : bool := vec_eqb oelem_eqb (o_elements a) (o_elements b) && (o_value a =? o_value b).
(** core-compare:91-99: raw_problem is a problem without affected variables and type of solver (Problem_model) *)
Definition raw_eqb (a b : problem) : bool :=
  objective_eqb (p_objective a) (p_objective b) && vec_eqb constraint_eqb (p_equal a) (p_equal b) &&
  vec_eqb constraint_eqb (p_greater a) (p_greater b) && vec_eqb constraint_eqb (p_less a) (p_less b) &&
  variables_eqb (p_vars a) (p_vars b) && otype_eqb (p_type a) (p_type b).
(** problem.hpp:151-160 *)
Definition problem_eqb (a b : problem) : bool :=
  objective_eqb (p_objective a) (p_objective b) && vec_eqb constraint_eqb (p_equal a) (p_equal b) &&
  vec_eqb constraint_eqb (p_greater a) (p_greater b) && vec_eqb constraint_eqb (p_less a) (p_less b) &&
  variables_eqb (p_vars a) (p_vars b) && affected_eqb (p_affected a) (p_affected b) &&
  otype_eqb (p_type a) (p_type b) && ptype_eqb (p_problem_type a) (p_problem_type b).
(** problem.hpp:162-166 *)
Definition problem_neqb (a b : problem) : bool := negb (problem_eqb a b).
(** problem.cpp:59-73: the vectors are emptied, the type becomes maximize; the constant of the objective is not touched. *)
Definition clear (pb : problem) : problem :=
  mk_problem (mk_objective [] [] (o_value (p_objective pb))) [] [] [] (mk_variables [] []) (p_affected pb) maximize (p_problem_type pb).
(** core:666-690: raw_problem() *)
Definition raw_problem0 : problem := mk_problem (mk_objective [] [] 0) [] [] [] (mk_variables [] []) (mk_affected [] []) maximize equalities_01.

(** core:703-714: a solution with its value, a double *)
Record dsolution := mk_dsolution { ds_variables : list bool; ds_value : dbl }.
(** core-compare:125-129 *)
Definition solution_eqb (a b : dsolution) : bool := deq (ds_value a) (ds_value b) && vec_eqb Bool.eqb (ds_variables a) (ds_variables b).
(** core-compare:131-135: the larger value first *)
Definition solution_ltb (a b : dsolution) : bool := dlt (ds_value b) (ds_value a).
