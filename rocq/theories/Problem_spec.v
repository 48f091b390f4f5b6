(** Meaning of problems: 0/1 assignments, left-hand sides, objective. Nothing here follows
    the code. *)
From Verif Require Import Base Problem_model.
Open Scope Z_scope.

(** A 0/1 assignment of the variables, by variable index. *)
Definition assignment := nat -> bool.

Definition bz (b : bool) : Z := if b then 1 else 0.

(** Value of a sum of products. *)
Fixpoint lhs (x : assignment) (l : list felem) : Z :=
  match l with
  | [] => 0
  | e :: l' => f_factor e * bz (x (f_var e)) + lhs x l'
  end.

Definition sat_equal (x : assignment) (c : constraint) : Prop := lhs x (c_elements c) = c_value c.
Definition sat_greater (x : assignment) (c : constraint) : Prop := lhs x (c_elements c) >= c_value c.
Definition sat_less (x : assignment) (c : constraint) : Prop := lhs x (c_elements c) <= c_value c.

(** [x] satisfies every constraint of the problem. *)
Definition feasible (x : assignment) (pb : problem) : Prop :=
  (forall c, In c (p_equal pb) -> sat_equal x c) /\
  (forall c, In c (p_greater pb) -> sat_greater x c) /\
  (forall c, In c (p_less pb) -> sat_less x c).

(** Objective function at [x]. *)
Fixpoint lin_value (x : assignment) (l : list oelem) : Z :=
  match l with
  | [] => 0
  | e :: l' => o_factor e * bz (x (o_var e)) + lin_value x l'
  end.
Fixpoint quad_value (x : assignment) (l : list qelem) : Z :=
  match l with
  | [] => 0
  | e :: l' => q_factor e * (bz (x (q_vara e)) * bz (x (q_varb e))) + quad_value x l'
  end.
Definition objective_value (x : assignment) (o : objective) : Z :=
  o_value o + lin_value x (o_elements o) + quad_value x (o_qelements o).

Definition all_constraints (pb : problem) : list constraint :=
  p_equal pb ++ p_greater pb ++ p_less pb.

(** The left-hand side of every constraint is representable as an int. *)
Definition fits_int (x : assignment) (pb : problem) : Prop :=
  forall c, In c (all_constraints pb) -> int_min <= lhs x (c_elements c) <= int_max.
