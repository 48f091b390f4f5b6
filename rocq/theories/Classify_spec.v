(** What each problem class promises. *)
From Verif Require Import Base Problem_model Problem_spec.
Open Scope Z_scope.

Definition all_factors (P : Z -> Prop) (pb : problem) : Prop :=
  forall c e, In c (all_constraints pb) -> In e (c_elements c) -> P (f_factor e).
Definition only_equalities (pb : problem) : Prop := p_greater pb = [] /\ p_less pb = [].

Definition factor_1 (z : Z) := z = 1.
Definition factor_101 (z : Z) := z = 1 \/ z = -1.
Definition factor_nonzero (z : Z) := z <> 0.

(** The coefficients and operators a class stands for. *)
Definition class_coefficients (t : problem_solver_type) (pb : problem) : Prop :=
  match t with
  | equalities_01 | inequalities_01 => all_factors factor_1 pb
  | equalities_101 | inequalities_101 => all_factors factor_101 pb
  | equalities_Z | inequalities_Z => True
  end.
Definition class_operators (t : problem_solver_type) (pb : problem) : Prop :=
  match t with
  | equalities_01 | equalities_101 | equalities_Z => only_equalities pb
  | _ => True
  end.

(** [t] is the most specific class that fits [pb]. *)
Definition class_fits (t : problem_solver_type) (pb : problem) : Prop :=
  class_coefficients t pb /\ class_operators t pb.
Definition rank_coef (t : problem_solver_type) : nat :=
  match t with
  | equalities_01 | inequalities_01 => 0
  | equalities_101 | inequalities_101 => 1
  | equalities_Z | inequalities_Z => 2
  end.
Definition rank_op (t : problem_solver_type) : nat :=
  match t with equalities_01 | equalities_101 | equalities_Z => 0 | _ => 1 end.
