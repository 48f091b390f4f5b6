(** Specification of bit vectors: an array of booleans, and the client programs the
    properties range over. *)
From Verif Require Import Base BitArray_model.

Inductive bop :=
| OSet (i : nat)      (* set(i)    *)
| OUnset (i : nat)    (* unset(i)  *)
| OInvert (i : nat)   (* invert(i) *)
| OOnes               (* ones()    *)
| OZeros.             (* zeros()   *)

(** [None]: an index was out of range (the caller broke the contract). *)
Definition spec_step (l : list bool) (o : bop) : option (list bool) :=
  match o with
  | OSet i => list_upd l i true
  | OUnset i => list_upd l i false
  | OInvert i => list_modify l i negb
  | OOnes => Some (map (fun _ => true) l)
  | OZeros => Some (map (fun _ => false) l)
  end.

Fixpoint spec_run (l : list bool) (ops : list bop) : option (list bool) :=
  match ops with
  | [] => Some l
  | o :: ops' => do l' <- spec_step l o; spec_run l' ops'
  end.

(** The same operations on the modelled class. *)
Definition model_step (v : bits) (o : bop) : option bits :=
  match o with
  | OSet i => bits_set v i
  | OUnset i => bits_unset v i
  | OInvert i => bits_invert v i
  | OOnes => Some (bits_ones v)
  | OZeros => Some (bits_zeros v)
  end.
Fixpoint model_run (v : bits) (ops : list bop) : option bits :=
  match ops with
  | [] => Some v
  | o :: ops' => do v' <- model_step v o; model_run v' ops'
  end.

(** Every vector a client can hold, with the size it was built with, when it never calls
    [ones()]: construction, the element operations, copies, the crossover of the
    optimizer, set(i, v) with i in range and assign. *)
Inductive reach : nat -> bits -> Prop :=
| R_new n : reach n (bits_new n)
| R_set n v i v' : reach n v -> bits_set v i = Some v' -> reach n v'
| R_unset n v i v' : reach n v -> bits_unset v i = Some v' -> reach n v'
| R_invert n v i v' : reach n v -> bits_invert v i = Some v' -> reach n v'
| R_zeros n v : reach n v -> reach n (bits_zeros v)
| R_copy n m v w : reach n v -> reach m w -> reach m (bits_copy_assign v w)
| R_cross n x a b r v : reach n x -> reach n a -> reach n b ->
    bits_crossover x a b r = Some v -> reach n v
| R_set_val n v i b v' : reach n v -> i < n -> bits_set_val v i b = Some v' -> reach n v'
| R_assign n a b from to v : reach n a -> reach n b ->
    bits_assign a b from to = Some v -> reach n v.
