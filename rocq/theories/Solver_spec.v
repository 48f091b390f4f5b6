(** Vocabulary for the sweeps and the solving loop. *)
From Coq Require Import Permutation Sorted.
From Verif Require Import Base Problem_model Problem_spec Merged_model Merged_spec Classify_model Matrix_model
  Rows_model Rows_spec Solver_model.
Open Scope Z_scope.

(** Whether an assignment violates a row; by how much. *)
Definition violates (x : list bool) (c : merged) : bool :=
  negb ((m_min c <=? lhs (as_assignment x) (m_elements c)) && (lhs (as_assignment x) (m_elements c) <=? m_max c)).

(** Numbers of the rows violated, in increasing order, and how many there are. *)
Fixpoint violated_at (k : nat) (x : list bool) (cs : list merged) : list nat :=
  match cs with
  | [] => []
  | c :: cs' => if violates x c then k :: violated_at (S k) x cs' else violated_at (S k) x cs'
  end.
Definition violated_rows (cs : list merged) (x : list bool) : list nat := violated_at 0 x cs.
Definition violations (cs : list merged) (x : list bool) : Z := Z.of_nat (length (filter (violates x) cs)).

(** How far the left-hand side of a row is from its bounds. *)
Definition distance (x : list bool) (c : merged) : Z :=
  let v := lhs (as_assignment x) (m_elements c) in
  if v <? m_min c then m_min c - v else if m_max c <? v then v - m_max c else 0.
Definition distance_of (cs : list merged) (x : list bool) (k : nat) : Z :=
  match nth_error cs k with Some c => distance x c | None => 0 end.

(** Comparison of objective values; [None] is the initial value (worse than all). *)
Definition no_worse (mode : objective_type) (v : option Z) (w : Z) : Prop :=
  match v with
  | None => False
  | Some u => match mode with minimize => u <= w | maximize => w <= u end
  end.

(** Each constraint of the problem mentions distinct variables of the problem, as in every
    problem made by the parser. *)
Definition distinct_vars (pb : problem) : Prop :=
  forall c, In c (all_constraints pb) -> NoDup (map f_var (c_elements c)).

(** The histories of a run: the sweep order after initialisation, then after any number of
    sweeps with any parameters. Between two sweeps only the random engine may be used. *)
Inductive history {F G : Type} (fo : fops F) (ro : rops G)
  (std_sort : forall A : Type, (A -> A -> bool) -> list A -> list A) (sv : solver F) (o : constraint_order) (n : nat)
  : order_state -> state F G -> Prop :=
| history_init s od : order_init sv (s_x s) (make_order o n) = Some od -> length (s_x s) = n ->
    history fo ro std_sort sv o n od s
| history_run push kappa delta theta od s r od' s' : history fo ro std_sort sv o n od s ->
    run fo ro std_sort sv push kappa delta theta od s = Some (r, od', s') ->
    history fo ro std_sort sv o n od' s'
| history_draw od s g : history fo ro std_sort sv o n od s ->
    history fo ro std_sort sv o n od (mk_state (s_x s) (s_P s) (s_pi s) (s_R s) g).

(** The order in which an option asks for the rows [l] violated by [x] to be visited. *)
Definition in_order {F} (fo : fops F) (o : constraint_order) (cs : list merged) (x : list bool) (pi : list F)
  (rows : list nat) : Prop :=
  match o with
  | co_none | co_cycle => rows = violated_rows cs x
  | co_reversing => rows = rev (violated_rows cs x)
  | co_infeasibility_decr => StronglySorted (fun a b => distance_of cs x b <= distance_of cs x a) rows
  | co_infeasibility_incr => StronglySorted (fun a b => distance_of cs x a <= distance_of cs x b) rows
  | co_lagrangian_decr => StronglySorted (fun a b => forall p q, nth_error pi a = Some p -> nth_error pi b = Some q -> fl_lt fo p q = false) rows
  | co_lagrangian_incr => StronglySorted (fun a b => forall p q, nth_error pi a = Some p -> nth_error pi b = Some q -> fl_lt fo q p = false) rows
  | co_random_sorting | co_pi_sign_change => True
  end.

(** fl_lt is a strict weak order (true of floats that are not NaN). *)
Definition weak_order {F} (lt : F -> F -> bool) : Prop :=
  (forall a, lt a a = false) /\
  (forall a b c, lt a b = true -> lt b c = true -> lt a c = true) /\
  (forall a b c, lt a b = false -> lt b c = false -> lt a c = false).

(** A best record at least as good: no more remaining constraints and, from a solution, no
    worse a value. *)
Definition at_least (mode : objective_type) (b' b : best) : Prop :=
  be_remaining b' <= be_remaining b /\
  (be_remaining b = 0 -> forall w, be_value b = Some w -> no_worse mode (be_value b') w).
