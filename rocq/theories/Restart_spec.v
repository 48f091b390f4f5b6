(** How a thread of the optimizer starts a new run. *)
From Verif Require Import Base Problem_model Pool_model.

(** Each variable of [y] has its value in [y1] or its value in [y2]. *)
Definition mixed (n : nat) (y1 y2 y : list bool) : Prop :=
  length y = n /\ forall i b, nth_error y i = Some b -> nth_error y1 i = Some b \/ nth_error y2 i = Some b.
(** What is drawn for the variable [i]: a value when the variable is mutated. *)
Definition drawn (draws : list (option bool)) (i : nat) : option bool := nth i draws None.
(** Mutation as it is meant: a variable for which a value is drawn takes that value, the others keep theirs. *)
Definition mutated (draws : list (option bool)) (y x : list bool) : Prop :=
  length x = length y /\
  forall i b, nth_error y i = Some b -> nth_error x i = Some (match drawn draws i with Some v => v | None => b end).
(** Mutation as it is: only the variables 0, 64, 128, ... take the value drawn, the others become 0. *)
Definition mutated_in_place (draws : list (option bool)) (y x : list bool) : Prop :=
  length x = length y /\
  forall i b, nth_error y i = Some b ->
    nth_error x i = Some (match drawn draws i with
                          | Some v => if Nat.eqb (Nat.modulo i 64) 0 then v else false
                          | None => b
                          end).

(** One member of the pool has its assignment replaced by [z], and keeps its value, counts and hash. *)
Definition member_replaced (p p' : pool) (id : nat) (z : list bool) : Prop :=
  length (pl_data p') = length (pl_data p) /\
  forall k e, nth_error (pl_data p) k = Some e -> exists e', nth_error (pl_data p') k = Some e' /\
    e_value e' = e_value e /\ e_remaining e' = e_remaining e /\ e_hash e' = e_hash e /\
    e_x e' = if Nat.eqb k id then z else e_x e.
(** A new assignment from two different members of the pool, which does not change. *)
Definition from_two_members (n : nat) (p p' : pool) (y : list bool) : Prop :=
  p' = p /\ exists i j e1 e2, i <> j /\ nth_error (pl_data p) i = Some e1 /\ nth_error (pl_data p) j = Some e2 /\ mixed n (e_x e1) (e_x e2) y.
(** With the insertion: a member is mixed with the assignment [z] or is replaced by it, and then the thread goes on from its own assignment [x]. *)
Definition with_another (n : nat) (p p' : pool) (x z y : list bool) : Prop :=
  length z = n /\ exists i e, nth_error (pl_data p) i = Some e /\
    ((pl_data p' = pl_data p /\ mixed n (e_x e) z y) \/ (y = x /\ member_replaced p p' i z)).
