(** Arrays as values, without memory. *)
From Verif Require Import Base Fixed_model.

Section Spec.
Context {T : Type}.
Variable z : T.
(** An array has a value, or it was moved from and only knows a length. *)
Inductive avalue := A_array (l : list T) | A_gone (n : nat).
(** The arrays made so far; None: destroyed. *)
Definition values := list (option avalue).
Definition value_at (s : values) (a : nat) : option avalue := do v <- nth_error s a; v.
Definition length_of (v : avalue) : nat := match v with A_array l => length l | A_gone n => n end.
(** The value of a copy. A copy of an array moved from is undefined unless its length is 0. *)
Definition copy_of (v : avalue) : option avalue :=
  match v with A_array l => Some (A_array l) | A_gone 0 => Some (A_array []) | A_gone _ => None end.
Definition perform (s : values) (op : operation T) : option values :=
  match op with
  | O_default => Some (s ++ [Some (A_gone 0)])
  | O_size n => Some (s ++ [Some (A_array (repeat z n))])
  | O_fill n v => Some (s ++ [Some (A_array (repeat v n))])
  | O_copy src => do v <- value_at s src; do c <- copy_of v; Some (s ++ [Some c])
  | O_move src => do v <- value_at s src; do s' <- list_upd s src (Some (A_gone (length_of v))); Some (s' ++ [Some v])
  | O_assign dst src => do v <- value_at s src; do _ <- value_at s dst; do c <- copy_of v; list_upd s dst (Some c)
  | O_move_assign dst src =>
    do v <- value_at s src; do _ <- value_at s dst;
    if Nat.eqb dst src then Some s else do s' <- list_upd s src (Some (A_gone (length_of v))); list_upd s' dst (Some v)
  | O_swap a b => do v <- value_at s a; do w <- value_at s b; do s' <- list_upd s a (Some w); list_upd s' b (Some v)
  | O_set a i v => do w <- value_at s a; match w with A_array l => do l' <- list_upd l i v; list_upd s a (Some (A_array l')) | A_gone _ => None end
  | O_destroy a => do _ <- value_at s a; list_upd s a None
  end.
Fixpoint perform_all (s : values) (l : list (operation T)) : option values :=
  match l with [] => Some s | op :: l' => do s' <- perform s op; perform_all s' l' end.
End Spec.
Arguments avalue T : clear implicits. Arguments values T : clear implicits.
(** The memory in use: the blocks that are not freed. *)
Definition blocks_in_use {T} (m : memory T) : nat := length (filter (fun b => match b with Some _ => true | None => false end) (heap m)).
(** The arrays that have elements or a buffer of 0 elements. *)
Definition with_buffer {T} (s : values T) : nat := length (filter (fun v => match v with Some (A_array _) => true | _ => false end) s).
(** *** Arrays of two dimensions *)
(** The value of a cell after some cells were written, in this order; [d]: the value before. *)
Fixpoint cell_after {T} (d : T) (writes : list (Z * Z * T)) (r c : Z) : T :=
  match writes with
  | [] => d
  | (r', c', v) :: w => cell_after (if (r =? r') && (c =? c') then v else d) w r c
  end.
Definition inside (rows columns r c : Z) : Prop := 0 <= r < rows /\ 0 <= c < columns.
(** The calls of set, one after the other. *)
Fixpoint write_all {T} (a : @array2 T) (writes : list (Z * Z * T)) : outcome (@array2 T) :=
  match writes with
  | [] => Ok a
  | (r, c, v) :: w => let! a' := a2_set a r c v in write_all a' w
  end.
