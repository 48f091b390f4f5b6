(** Vocabulary for the preprocessing properties. Nothing here follows the code. *)
From Verif Require Import Base Problem_model Problem_spec.
From Coq Require Export Permutation.
Open Scope Z_scope.

(** Each variable index names a variable; a constraint or the linear objective mentions
    a variable at most once (the parser guarantees it, C22); names are distinct. *)
Definition well_formed (pb : problem) : Prop :=
  let n := length (v_values (p_vars pb)) in
  length (v_names (p_vars pb)) = n /\ NoDup (v_names (p_vars pb)) /\
  (forall c e, In c (all_constraints pb) -> In e (c_elements c) -> (f_var e < n)%nat) /\
  (forall c, In c (all_constraints pb) -> NoDup (map f_var (c_elements c))) /\
  (forall e, In e (o_elements (p_objective pb)) -> (o_var e < n)%nat) /\
  NoDup (map o_var (o_elements (p_objective pb))) /\
  (forall q, In q (o_qelements (p_objective pb)) -> (q_vara q < n)%nat /\ (q_varb q < n)%nat).

(** Variable bounds. *)
Definition in_bounds (x : assignment) (pb : problem) : Prop :=
  forall i v, nth_error (v_values (p_vars pb)) i = Some v -> v_min v <= bz (x i) <= v_max v.
Definition solution (x : assignment) (pb : problem) : Prop := feasible x pb /\ in_bounds x pb.

(** The same without the objective. *)
Definition well_formed_rows (pb : problem) : Prop :=
  let n := length (v_values (p_vars pb)) in
  length (v_names (p_vars pb)) = n /\ NoDup (v_names (p_vars pb)) /\
  (forall c e, In c (all_constraints pb) -> In e (c_elements c) -> (f_var e < n)%nat) /\
  (forall c, In c (all_constraints pb) -> NoDup (map f_var (c_elements c))).

(** Each variable is either a free 0/1 variable or fixed by its bounds to 0 or 1. *)
Definition binary_bounds (pb : problem) : Prop :=
  forall v, In v (v_values (p_vars pb)) ->
    (v_min v <= 0 /\ 1 <= v_max v) \/ (v_min v = v_max v /\ (v_max v = 0 \/ v_max v = 1)).

Definition linear_objective (pb : problem) : Prop := o_qelements (p_objective pb) = [].

(** [q] says that the variable called [nm] is fixed to [b]. *)
Definition fixed_to (q : problem) (nm : text) (b : bool) : Prop :=
  exists k, nth_error (a_names (p_affected q)) k = Some nm /\
            nth_error (a_values (p_affected q)) k = Some b.
(** variable [i] of a problem is called [nm] *)
Definition called (pb : problem) (i : nat) (nm : text) : Prop :=
  nth_error (v_names (p_vars pb)) i = Some nm.

(** [x] (on the variables of [pb]) is [y] (on the variables of [q]) completed with the
    values fixed in [q]; variables are matched by name. *)
Definition completes (y : assignment) (q : problem) (x : assignment) (pb : problem) : Prop :=
  forall i nm, called pb i nm ->
    (forall j, called q j nm -> x i = y j) /\ (forall b, fixed_to q nm b -> x i = b).

(** [x] with variable [i] set to [b]. *)
Definition set_var (x : assignment) (i : nat) (b : bool) : assignment :=
  fun v => if Nat.eqb v i then b else x v.

(** [a] is at least as good as [b]. *)
Definition no_worse (t : objective_type) (a b : Z) : Prop :=
  match t with minimize => a <= b | maximize => a >= b end.
Definition is_optimum (pb : problem) (z : Z) : Prop :=
  (exists x, solution x pb /\ objective_value x (p_objective pb) = z) /\
  (forall x, solution x pb -> no_worse (p_type pb) z (objective_value x (p_objective pb))).

(** [a] is [b] with some elements removed. *)
Inductive sublist {A} : list A -> list A -> Prop :=
| sublist_nil : sublist [] []
| sublist_keep a l l' : sublist l l' -> sublist (a :: l) (a :: l')
| sublist_skip a l l' : sublist l l' -> sublist l (a :: l').

(** Every constraint mentions at least two variables. *)
Definition reduced (pb : problem) : Prop :=
  forall c, In c (all_constraints pb) -> (2 <= length (c_elements c))%nat.
(** The variables already fixed are not variables of the problem any more. *)
Definition affected_apart (pb : problem) : Prop :=
  length (a_names (p_affected pb)) = length (a_values (p_affected pb)) /\
  forall nm, In nm (a_names (p_affected pb)) -> ~ In nm (v_names (p_vars pb)).

(** [c] is a constraint of [pb] that [x] does not satisfy. *)
Definition violates (x : assignment) (pb : problem) (c : constraint) : Prop :=
  (In c (p_equal pb) /\ ~ sat_equal x c) \/ (In c (p_greater pb) /\ ~ sat_greater x c) \/ (In c (p_less pb) /\ ~ sat_less x c).
