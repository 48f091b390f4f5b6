(** Vocabulary for the optimizer: runs of the workers, what is expected of an entry. *)
From Coq Require Import Permutation.
From Verif Require Import Base Problem_model Problem_spec Merged_model Classify_model Matrix_model Rows_model Rows_spec
  Validate_model Solver_model Solver_spec Pool_model.
Open Scope Z_scope.

(** Runs along which every state meets [Q]. *)
Inductive steps {F G} (stp : sys F G -> sys F G -> Prop) (Q : sys F G -> Prop) : sys F G -> sys F G -> Prop :=
| steps_refl s : Q s -> steps stp Q s s
| steps_next s s1 s2 : steps stp Q s s1 -> stp s1 s2 -> Q s2 -> steps stp Q s s2.
Definition any {F G} (s : sys F G) : Prop := True.

(** The entry a worker has chosen to replace and has not finished to write. *)
Definition victim {F G} (w : worker F G) : option nat := match wk_pc w with W_write _ id _ _ => Some id | _ => None end.
(** No two workers replace the same entry at the same time. *)
Definition no_shared_victim {F G} (s : sys F G) : Prop :=
  forall i j wi wj id, i <> j -> nth_error (sy_workers s) i = Some wi -> nth_error (sy_workers s) j = Some wj ->
  victim wi = Some id -> victim wj = Some id -> False.
(** A worker is inserting from the choice of the entry to replace to the end of the sort. *)
Definition inserting {F G} (w : worker F G) : Prop := match wk_pc w with W_write _ _ _ _ | W_sort _ => True | _ => False end.
Definition one_insertion {F G} (s : sys F G) : Prop :=
  forall i j wi wj, nth_error (sy_workers s) i = Some wi -> nth_error (sy_workers s) j = Some wj ->
  inserting wi -> inserting wj -> i = j.

(** [a] is strictly better than [b]: fewer violated constraints or, with as many, a better value. *)
Definition strictly_better (mode : objective_type) (a b : entry) : Prop :=
  e_remaining a < e_remaining b \/
  (e_remaining a = e_remaining b /\
   match mode with minimize => e_value a < e_value b | maximize => e_value b < e_value a end).
(** A value is better than another. *)
Definition better_value (mode : objective_type) (a b : Z) : Prop :=
  match mode with minimize => a < b | maximize => b < a end.

(** What an entry claims is true: its value is the objective at its assignment and, when it says
    that no constraint remains, there is none. Otherwise at least as many are violated as it
    says, or it says INT_MAX: its worker was stopped before its first sweep. *)
Definition truthful (obj : objective) (cs : list merged) (n : nat) (e : entry) : Prop :=
  length (e_x e) = n /\ e_value e = objective_value (as_assignment (e_x e)) obj /\ 0 <= e_remaining e /\
  (e_remaining e = 0 -> violations cs (e_x e) = 0) /\
  (e_remaining e <= violations cs (e_x e) \/ e_remaining e = int_max).

(** The pool has [size] entries and each is in the ranking once. *)
Definition well_formed (size : nat) (p : pool) : Prop :=
  length (pl_data p) = size /\ Permutation (pl_indices p) (seq 0 size).

(** A worker has [ev] to send. *)
Definition has_to_send {F G} (s : sys F G) (ev : event) : Prop :=
  exists w evs, In w (sy_workers s) /\ wk_pc w = W_events evs /\ In ev evs.
