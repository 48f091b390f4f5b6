(** Vocabulary for the row update. *)
From Coq Require Import Permutation.
From Verif Require Import Base Problem_model Problem_spec Merged_model Classify_model Rows_model.
Open Scope Z_scope.

(** A list of booleans read as an assignment. *)
Definition as_assignment (x : list bool) : assignment := fun v => nth v x false.

(** std::shuffle only reorders. *)
Definition shuffles {G} (ro : rops G) : Prop :=
  forall A g l, Permutation (fst (rg_shuffle ro A g l)) l.

(** The four solvers that share select_variables and affect. *)
Definition shares_affect (cl : solver_class) : Prop :=
  match cl with S_inequalities_Z | S_random => False | _ => True end.

(** Each row has distinct variables, all of them in the problem. *)
Definition row_ok (n : nat) (c : merged) : Prop :=
  NoDup (map f_var (m_elements c)) /\ forall e, In e (m_elements c) -> (f_var e < n)%nat.
Definition row_satisfied (x : list bool) (c : merged) : Prop :=
  m_min c <= lhs (as_assignment x) (m_elements c) <= m_max c.
Definition row_satisfiable (c : merged) : Prop := exists x, m_min c <= lhs x (m_elements c) <= m_max c.

(** The cost of every variable is defined for every assignment of the right size. *)
Definition cost_defined {F} (n : nat) (c : nat -> list bool -> option F) : Prop :=
  forall v x, (v < n)%nat -> length x = n -> exists f, c v x = Some f.

(** Number of elements, longest row. *)
Definition elements_number (cs : list merged) : nat := list_sum (map (fun c => length (m_elements c)) cs).
Definition longest_row (cs : list merged) : nat := list_max (map (fun c => length (m_elements c)) cs).

(** The arrays have the size they were allocated with. *)
Definition sized {F G} (cs : list merged) (n : nat) (s : state F G) : Prop :=
  length (s_x s) = n /\ length (s_P s) = elements_number cs /\ length (s_pi s) = length cs /\
  length (s_R s) = longest_row cs.

(** Number of positive coefficients of a row: the largest value its left-hand side takes. *)
Definition positives (c : merged) : Z := Z.of_nat (length (filter (fun e => 0 <? f_factor e) (m_elements c))).

(** The selection loop stays inside the buffer of reduced costs: the row is an equality, or
    its upper bound excludes some value, or there is a longer row (the buffer is as long as
    the longest row), or its lower bound leaves a single possible value. Or the memory after the
    buffer can be read. *)
Definition buffer_long_enough {R} (cs : list merged) (after : list R) (c : merged) : Prop :=
  after <> [] \/ m_min c = m_max c \/ m_max c < positives c \/ (length (m_elements c) < longest_row cs)%nat \/
  positives c <= m_min c.
