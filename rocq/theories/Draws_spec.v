(** Sources of random numbers. *)
From Coq Require Import QArith.
From Verif Require Import Base.
Open Scope Q_scope.

(** A source that enters every interval again and again: what one expects of draws from a normal distribution. *)
Definition enters_every_interval (next : nat -> Q) : Prop := forall a b i, a < b -> exists k, (i <= k)%nat /\ a < next k < b.
