(** Vocabulary for the branch-and-bound sub-solver. *)
From Coq Require Import Permutation.
From Verif Require Import Base Problem_model Rows_model Subsolver_model Subsolver_spec.
Open Scope Z_scope.

(** Some choice of the elements of R gives a value between the bounds. *)
Definition reachable_between {F} (R : list (rc F)) (lo hi : Z) : Prop :=
  exists u, length u = length R /\ lo <= sum_factors (chosen R u) <= hi.

(** The initial bound is worse than every sum of some of the reduced costs, in whatever order
    they are added: no such sum is an infinity or a NaN. *)
Definition sums_finite {F} (fo : fops F) (mode : objective_type) (init_z : F) (R : list (rc F)) : Prop :=
  forall l l', Permutation (l ++ l') R ->
    cheaper fo mode (sum_costs fo l (fl_of_Z fo 0)) init_z = true /\
    match l with [] => True | r :: k => cheaper fo mode (sum_costs fo k (rc_value r)) init_z = true end.
(** The sum of the reduced costs of a choice, as branch-and-bound adds them: from the first
    element to the last, starting with the first one if it is chosen and with 0 otherwise. *)
Definition path_cost {F} (fo : fops F) (items : list (rc F)) (y : list bool) : F :=
  match items, y with
  | r :: l, b :: y' => sum_costs fo (chosen l y') (if b then rc_value r else fl_of_Z fo 0)
  | _, _ => fl_of_Z fo 0
  end.
