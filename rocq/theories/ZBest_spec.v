(** Vocabulary for the choice made by a row update of the solver for arbitrary integer
    coefficients when the exhaustive sub-solver answers. *)
From Verif Require Import Base Problem_model Problem_spec Merged_model Rows_model Rows_spec ZRow_spec Greedy_spec.
Open Scope Z_scope.

(** A row for which every fitting choice is listed in a table: some coefficient is neither 1 nor
    -1, there are from two to nine variables, and the row is an equality or each of its two
    bounds forbids some value. *)
Definition tabled_row (r : merged) : Prop :=
  ~ unit_row r /\ (2 <= length (m_elements r) < 10)%nat /\
  (m_min r = m_max r \/ (exists x, lhs x (m_elements r) < m_min r) /\ (exists x, m_max r < lhs x (m_elements r))).

Section Values.
Context {F : Type} (fo : fops F).
Let zero := fl_of_Z fo 0.
(** cost - sum of |coefficient| * (multiplier + preference) over the rows where the variable
    occurs; the preferences of row [k] fade by theta. *)
Definition z_reduced_cost (cs : list merged) (theta : F) (k : nat) (P pi : list F) (v : nat) (cost : F) : F :=
  fl_sub fo cost
    (fold_left (fun s p => fl_add fo s (fl_mul fo (fl_of_Z fo (Z.abs (f_factor (snd p))))
                                          (fl_add fo (multiplier fo pi p) (preference fo theta k P p))))
               (occurrences cs v) zero).
(** A push with amplifier [a] adds a * cost. *)
Definition amplified (push : option F) (value cost : F) : F :=
  match push with None => value | Some a => fl_add fo value (fl_mul fo a cost) end.
(** The sum of the values of the variables at 1, in the order of the row. *)
Definition sum_at_1 (r : merged) (val : nat -> F) (x : nat -> bool) : F :=
  fold_left (fun s p => if x (f_var (snd p)) then fl_add fo s (val (fst p)) else s)
            (combine (seq 0 (length (m_elements r))) (m_elements r)) zero.
End Values.
