(** Vocabulary for the utilities. *)
From Coq Require Import Ascii.
From Verif Require Import Base.
Open Scope Z_scope.

(** The values of an integer type given by its signedness and number of value bits. *)
Definition representable (signed : bool) (digits : Z) (z : Z) : Prop :=
  (if signed then - 2 ^ digits else 0) <= z <= 2 ^ digits - 1.

Definition white (c : ascii) : Prop := In (nat_of_ascii c) [32; 9; 10; 11; 12; 13]%nat.
(** [t] is [s] without its surrounding blanks. *)
Definition trimmed (s t : list ascii) : Prop :=
  (exists a b, s = a ++ t ++ b /\ Forall white a /\ Forall white b) /\
  (forall c t', t = c :: t' -> ~ white c) /\ (forall c t', t = t' ++ [c] -> ~ white c).
