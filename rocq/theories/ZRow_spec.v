(** Vocabulary for the row update of the solver for arbitrary integer coefficients. *)
From Verif Require Import Base Problem_model Problem_spec Merged_model Rows_model Rows_spec.
Open Scope Z_scope.

(** Every coefficient is 1 or -1. *)
Definition unit_row (r : merged) : Prop := forall e, In e (m_elements r) -> f_factor e = 1 \/ f_factor e = -1.
(** The sum of all the coefficients: the left-hand side when every variable is 1. *)
Definition total (r : merged) : Z := lhs (fun _ => true) (m_elements r).
Definition allowed (r : merged) (v : Z) : Prop := m_min r <= v <= m_max r.

(** The row can be satisfied by the solver, whatever the reduced costs:
    - all its variables at 0, or all at 1, satisfy it;
    - or its coefficients are 1 and -1 and it allows a value between 0 and their sum;
    - or some coefficient is neither and it has at least ten variables;
    - or some coefficient is neither, it is satisfiable, and it is an equality or each of its two
      bounds forbids some value. *)
Definition supported (r : merged) : Prop :=
  allowed r 0 \/ allowed r (total r) \/
  (unit_row r /\ exists v, allowed r v /\ (0 <= v <= total r \/ total r <= v <= 0)) \/
  (~ unit_row r /\ row_satisfiable r /\ (10 <= length (m_elements r))%nat) \/
  (~ unit_row r /\ row_satisfiable r /\
    (m_min r = m_max r \/ (exists x, lhs x (m_elements r) < m_min r) /\ (exists x, m_max r < lhs x (m_elements r)))).

(** The buffer of reduced costs has one more place than this row needs, or what follows it
    can be read. *)
Definition buffer_one_more {R} (cs : list merged) (after : list R) (r : merged) : Prop :=
  after <> [] \/ (length (m_elements r) < longest_row cs)%nat.
