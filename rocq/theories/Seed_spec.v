(** What the seed decides. *)
From Verif Require Import Base.
Open Scope Z_scope.

(** Two seeds in the same class: equal modulo 2^31 - 1, where 0 counts as 1. *)
Definition same_class (s s' : Z) : Prop :=
  s mod 2147483647 = s' mod 2147483647 \/ (s mod 2147483647 < 2 /\ s' mod 2147483647 < 2).
(** No number at the same place in two lists. *)
Definition never_meet (l l' : list Z) : Prop := forall k x y, nth_error l k = Some x -> nth_error l' k = Some y -> x <> y.
