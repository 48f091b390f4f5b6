(** What costs mean: the change of the objective when a variable goes from 0 to 1. *)
From Coq Require Import QArith.
From Verif Require Import Base Problem_model Problem_spec Cost_model.
Open Scope Z_scope.

Definition of_list (x : list bool) : assignment := fun v => nth v x false.
Definition set_var (x : assignment) (v : nat) (b : bool) : assignment := fun u => if Nat.eqb u v then b else x u.
(** The objective with the variable at 1 minus the objective with the variable at 0. *)
Definition marginal (o : objective) (x : assignment) (v : nat) : Z :=
  objective_value (set_var x v true) o - objective_value (set_var x v false) o.
(** The linear coefficient of a variable. *)
Definition linear_coef (o : objective) (v : nat) : Z := lin_value (fun u => Nat.eqb u v) (o_elements o).
(** Every term of the objective names one of the n variables. *)
Definition objective_in (n : nat) (o : objective) : Prop :=
  (forall e, In e (o_elements o) -> (o_var e < n)%nat) /\
  (forall e, In e (o_qelements o) -> (q_vara e < n /\ q_varb e < n)%nat).

(** A nonnegative coefficient of the objective. *)
Definition has_nonneg (n : nat) (o : objective) : Prop :=
  (exists v, (v < n)%nat /\ 0 <= linear_coef o v) \/ (exists e, In e (o_qelements o) /\ 0 <= q_factor e).

(** The second costs order the variables as the first, under every assignment. *)
Definition keeps_order (n : nat) (c c' : costs) : Prop :=
  forall x u v a b a' b', length x = n -> (u < n)%nat -> (v < n)%nat ->
  cost_at c u x = Some a -> cost_at c v x = Some b -> cost_at c' u x = Some a' -> cost_at c' v x = Some b' ->
  (a < b)%Q -> (a' < b')%Q.
(** Equal costs stay equal. *)
Definition keeps_ties (n : nat) (c c' : costs) : Prop :=
  forall x u v a b a' b', length x = n -> (u < n)%nat -> (v < n)%nat ->
  cost_at c u x = Some a -> cost_at c v x = Some b -> cost_at c' u x = Some a' -> cost_at c' v x = Some b' ->
  (a == b)%Q -> (a' == b')%Q.
Definition keeps_sign (n : nat) (c c' : costs) : Prop :=
  forall x v a a', length x = n -> (v < n)%nat -> cost_at c v x = Some a -> cost_at c' v x = Some a' ->
  ((0 < a)%Q -> (0 < a')%Q) /\ ((a < 0)%Q -> (a' < 0)%Q) /\ ((a == 0)%Q -> (a' == 0)%Q).
(** Every cost can be read. *)
Definition readable (n : nat) (c : costs) : Prop :=
  forall x v, length x = n -> (v < n)%nat -> exists q, cost_at c v x = Some q.

(** uniform_real_distribution draws in [lo, hi). *)
Definition draws_between {G} (uniform : G -> Q -> Q -> Q * G) : Prop :=
  forall g lo hi, (lo < hi)%Q -> (lo <= fst (uniform g lo hi))%Q /\ (fst (uniform g lo hi) < hi)%Q.
