(** Vocabulary for optimize(). *)
From Verif Require Import Base Params_model Pool_model Pool_spec Optimize_model.
Open Scope Z_scope.

(** The threads of a run do not spoil each other's entries of the pool: there is only one thread, or the schedule never
    lets two threads replace the same entry at the same time. *)
Definition threads_apart {F G} (hardware : nat) (c : octx F) (Q : sys F G -> Prop) : Prop :=
  get_thread_number hardware (oc_thread c) = 1%nat \/ forall s, Q s -> no_shared_victim s.

(** The nlopt library is used with vectors of five numbers (nlopt-optimizer.cpp:95-99): it only gives such vectors back. *)
Fixpoint five_numbers {D} (l : library D) : Prop :=
  match l with
  | L_return _ x => length x = 5%nat
  | L_ask x k => length x = 5%nat /\ forall d, five_numbers (k d)
  end.
(** The library evaluates the function at least once or ends well. *)
Definition does_something {D} (l : library D) : Prop :=
  match l with L_return code _ => 1 <= code \/ code = -4 | L_ask _ _ => True end.
