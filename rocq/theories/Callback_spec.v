(** Vocabulary for the calls of the functions of the user. *)
From Verif Require Import Base Problem_model Solver_model Pool_model Pool_spec Params_model Optimize_model Callback_model.
Open Scope Z_scope.

Definition is_update (c : call) : Prop := match c with C_update _ _ _ => True | _ => False end.
Definition is_finish (c : call) : Prop := match c with C_finish _ => True | _ => False end.
Definition is_start (c : call) : bool := match c with C_start => true | _ => false end.
(** The start first, then updates, then the end with the result [r]: each function only if there is one, and the first and the last once. *)
Definition called (reg : registered) (calls : list call) (r : sresult) : Prop :=
  exists us, calls = (if reg_start reg then [C_start] else []) ++ us ++ (if reg_finish reg then [C_finish r] else []) /\
    Forall is_update us /\ (reg_update reg = false -> us = []).
(** A report (constraints remaining, value) is better than another one. *)
Definition better_report (mode : objective_type) (a b : Z * Z) : Prop :=
  fst a < fst b \/ fst a = fst b /\ match mode with minimize => snd a < snd b | maximize => snd b < snd a end.
(** The threads of a run insert in the pool one after the other: there is only one thread, or the schedule is such. *)
Definition insert_in_turn {F G} (hardware : nat) (c : octx F) (Q : sys F G -> Prop) : Prop :=
  get_thread_number hardware (oc_thread c) = 1%nat \/ forall s, Q s -> one_insertion s.
