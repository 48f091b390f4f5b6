(** Vocabulary for the optimizers that tune or branch. *)
From Verif Require Import Base Problem_model Problem_spec.

(** The constraints mention variables of the problem. *)
Definition index_ok (pb : problem) : Prop :=
  forall c e, In c (all_constraints pb) -> In e (c_elements c) -> (f_var e < length (v_values (p_vars pb)))%nat.

(** What a call of the solver has found: nothing, or a solution with this value. *)
From Verif Require Import Tuning_model.
Open Scope Z_scope.
Definition found (r : bresult) : option Z := if b_success r then hd_error (b_values r) else None.
Definition better_value (t : objective_type) (a b : Z) : Prop := match t with minimize => a < b | maximize => b < a end.
(** [a] is a better find than [b]. *)
Definition better_find (t : objective_type) (a b : option Z) : Prop :=
  match a, b with
  | Some u, Some v => better_value t u v
  | Some _, None => True
  | None, _ => False
  end.
(** A job is more promising than another: it has a solution and the other has none, or it has a
    better one, or neither has one and it violates fewer constraints. *)
Definition more_promising (t : objective_type) (a b : node) : Prop :=
  (n_remaining a = 0 /\ n_remaining b <> 0) \/
  (n_remaining a = 0 /\ n_remaining b = 0 /\ better_value t (n_solution a) (n_solution b)) \/
  (n_remaining a <> 0 /\ n_remaining b <> 0 /\ n_remaining a < n_remaining b).
(** The jobs wait in order: none is more promising than one placed before it. *)
Definition in_order (t : objective_type) (jobs : list node) : Prop :=
  forall i j a b, (i < j)%nat -> nth_error jobs i = Some a -> nth_error jobs j = Some b -> ~ more_promising t b a.
