(** The memory of a problem, independently of the code that counts it. *)
From Coq Require Import QArith.
From Verif Require Import Base Memory_model.
Open Scope Z_scope.

(** The bytes of one unit. *)
Definition bytes (u : unit_of_size) : Z := match u with GB => 1024 * 1024 * 1024 | MB => 1024 * 1024 | KB => 1024 | B => 1 end.
Definition sum (l : list Z) : Z := fold_right Z.add 0 l.
(** The bytes of the objects and of the arrays of a problem, with its blocks of 2^20 characters: each element of each array has its size. *)
Definition held (z : sizes) (h : shape) (blocks : Z) : Z :=
  z_problem z + blocks * 1048576 + z_objective z + h_objective h * z_objective_element z + h_qobjective h * z_objective_qelement z +
  sum (map (fun c => z_constraint z + c * z_function_element z) (h_equal h ++ h_greater h ++ h_less h)) +
  z_variables z + h_values h * z_variable_value z + h_names h * z_string_view z +
  z_affected z + h_affected_values h + h_affected_names h * z_string_view z.
