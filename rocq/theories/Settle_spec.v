(** Vocabulary for what a row update does to the reduced costs of its own row. *)
From Coq Require Import QArith.
From Verif Require Import Base Problem_model Problem_spec Merged_model Rows_model Rows_spec Greedy_spec Delta_spec.
Open Scope Z_scope.

(** The reduced cost of variable [v], of cost [cost], for the multipliers [pi] and the preferences [P],
    in exact arithmetic: cost - sum of coefficient * multiplier - sum of coefficient * preference. *)
Definition current_cost (cs : list merged) (P pi : list Q) (v : nat) (cost : Q) : Q :=
  (cost - sum_over q_fops (multiplier q_fops pi) (occurrences cs v)
        - sum_over q_fops (fun p => let '(slot, _, _) := p in nth slot P 0%Q) (occurrences cs v))%Q.

(** The cost of a variable does not depend on the assignment (the objective is linear). *)
Definition linear_cost (c : nat -> list bool -> option Q) : Prop := forall v x y, c v x = c v y.

(** The value of a variable agrees with its reduced cost: when minimising, a variable at 1 has a reduced
    cost that is not positive and a variable at 0 has one that is not negative; the other way round when
    maximising. *)
Definition agrees (mode : objective_type) (x : bool) (q : Q) : Prop :=
  match mode, x with
  | minimize, true | maximize, false => (q <= 0)%Q
  | minimize, false | maximize, true => (0 <= q)%Q
  end.

(** Some variable of the row is at 0, and either some variable of the row is at 1 or the row allows one. *)
Definition free_choice (r : merged) (x : list bool) : Prop :=
  (exists e, In e (m_elements r) /\ nth_error x (f_var e) = Some false) /\
  ((exists e, In e (m_elements r) /\ nth_error x (f_var e) = Some true) \/ 0 < m_max r).

(** [m] updates of row [k], one after the other. *)
Fixpoint updates {F G} (fo : fops F) (ro : rops G) std_sort (sv : solver F) (kappa delta theta : F) (k m : nat) (s : state F G)
  : option (state F G) :=
  match m with
  | O => Some s
  | S m' => do (s', _) <- update_row fo ro std_sort sv None kappa delta theta k s; updates fo ro std_sort sv kappa delta theta k m' s'
  end.
