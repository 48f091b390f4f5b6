(** What a start by solving the constraints one by one means (the options pessimistic-solve and optimistic-solve). *)
From Coq Require Import Permutation Sorted.
From Verif Require Import Base Problem_model Problem_spec Merged_model Rows_model Rows_spec Solver_model.
Open Scope Z_scope.

Section Initial.
Context {F : Type} (fo : fops F) (mode : objective_type) (cost : nat -> option F).

(** The objective gets better with [a] than with [b]; a variable of cost [a] makes the objective worse. *)
Definition preferred (a b : F) : Prop :=
  match mode with minimize => fl_lt fo a b = true | maximize => fl_lt fo b a = true end.
Definition makes_worse (a : F) : Prop :=
  match mode with minimize => fl_lt fo (fl_of_Z fo 0) a = true | maximize => fl_lt fo a (fl_of_Z fo 0) = true end.
Definition makes_better (a : F) : Prop :=
  match mode with minimize => fl_lt fo a (fl_of_Z fo 0) = true | maximize => fl_lt fo (fl_of_Z fo 0) a = true end.

(** [l] has the terms of the constraint, the variables that are best for the objective first. *)
Definition best_first (c : merged) (l : list felem) : Prop :=
  Permutation l (m_elements c) /\
  StronglySorted (fun d e => forall a b, cost (f_var d) = Some a -> cost (f_var e) = Some b -> ~ preferred b a) l.

(** Setting the first [t] variables of [l], and no other, satisfies the constraint. *)
Fixpoint total (l : list felem) : Z := match l with [] => 0 | e :: l' => f_factor e + total l' end.
Definition enough (c : merged) (l : list felem) (t : nat) : Prop :=
  (t <= length l)%nat /\ m_min c <= total (firstn t l) <= m_max c.
Definition first_enough (c : merged) (l : list felem) (t : nat) : Prop :=
  enough c l t /\ forall u, (u < t)%nat -> ~ enough c l u.
Definition never_enough (c : merged) (l : list felem) : Prop := forall u, ~ enough c l u.

(** One of the variables at the places [a], ..., [b] - 1 makes the objective worse. *)
Definition worse_between (l : list felem) (a b : nat) : Prop :=
  exists i e v, (a <= i < b)%nat /\ nth_error l i = Some e /\ cost (f_var e) = Some v /\ makes_worse v.

(** The number of variables set. Pessimistic: as few as possible. Optimistic: as many as possible without a variable, after
    the first ones that are enough, that makes the objective worse. None when no number is enough. *)
Definition chosen (optimistic : bool) (c : merged) (l : list felem) (t : nat) : Prop :=
  (never_enough c l /\ t = O) \/
  (if optimistic then
     exists f, first_enough c l f /\ (f <= t)%nat /\ enough c l t /\ ~ worse_between l f t /\
               forall u, (t < u)%nat -> enough c l u -> worse_between l f u
   else first_enough c l t).

(** How many variables of the constraint do not make the objective worse. *)
Definition harmless (e : felem) : bool :=
  match cost (f_var e) with
  | Some a => negb (match mode with minimize => fl_lt fo (fl_of_Z fo 0) a | maximize => fl_lt fo a (fl_of_Z fo 0) end)
  | None => false
  end.
Definition harmless_number (c : merged) : Z := Z.of_nat (length (filter harmless (m_elements c))).

(** One constraint is solved: its first variables are set, its other variables are cleared, the rest is left alone. *)
Definition solved (optimistic : bool) (c : merged) (x x' : list bool) : Prop :=
  exists l t, best_first c l /\ chosen optimistic c l t /\ length x' = length x /\
    (forall i e, nth_error l i = Some e -> nth_error x' (f_var e) = Some (Nat.ltb i t)) /\
    (forall v, ~ In v (map f_var (m_elements c)) -> nth_error x' v = nth_error x v).

(** The constraints are solved one after the other; [drawn] tells which ones are not skipped. *)
Inductive solved_in_turn (optimistic : bool) : list bool -> list merged -> list bool -> list bool -> Prop :=
| sit_nil x : solved_in_turn optimistic [] [] x x
| sit_solve c x x1 drawn cs x' : solved optimistic c x x1 -> solved_in_turn optimistic drawn cs x1 x' ->
    solved_in_turn optimistic (true :: drawn) (c :: cs) x x'
| sit_skip c x drawn cs x' : solved_in_turn optimistic drawn cs x x' -> solved_in_turn optimistic (false :: drawn) (c :: cs) x x'.

(** The three starts, before variables are inverted at random. *)
Definition starts_with (ip : init_policy) (cs : list merged) (n : nat) (x : list bool) : Prop :=
  match ip with
  | ip_bastert => length x = n /\ forall v, (v < n)%nat -> (nth_error x v = Some true <-> exists a, cost v = Some a /\ makes_better a)
  | ip_pessimistic_solve => solved_in_turn false (repeat true (length cs)) cs (repeat false n) x
  | ip_optimistic_solve => solved_in_turn true (repeat true (length cs)) cs (repeat false n) x
  end.
End Initial.

(** Each variable of [x] is the one of [y], inverted where [flips] says so. *)
Definition inverted (flips y x : list bool) : Prop :=
  length flips = length y /\ x = map (fun p => xorb (fst p) (snd p)) (combine flips y).

(** Constraint [c] has no variable in common with those of [cs]. *)
Definition shares_none (c : merged) (cs : list merged) : Prop :=
  forall d v, In d cs -> In v (map f_var (m_elements c)) -> ~ In v (map f_var (m_elements d)).

(** The part of an objective with the integer costs [w] that the terms of [l] decide; the floating-point costs are in the same
    order as the integers and have the same signs. *)
Fixpoint weigh (w : nat -> Z) (x : assignment) (l : list felem) : Z :=
  match l with [] => 0 | e :: l' => w (f_var e) * bz (x (f_var e)) + weigh w x l' end.
Definition same_order {F} (fo : fops F) (cost : nat -> option F) (w : nat -> Z) : Prop :=
  forall u v a b, cost u = Some a -> cost v = Some b ->
    (fl_lt fo a b = true <-> w u < w v) /\ (fl_lt fo (fl_of_Z fo 0) a = true <-> 0 < w u) /\ (fl_lt fo a (fl_of_Z fo 0) = true <-> w u < 0).

(** All the coefficients of the constraints are 1; every variable is in a constraint. *)
Definition sums_of_variables (pb : problem) : Prop :=
  forall c e, In c (all_constraints pb) -> In e (c_elements c) -> f_factor e = 1.
Definition all_constrained (pb : problem) : Prop :=
  forall v, (v < length (v_values (p_vars pb)))%nat -> exists c e, In c (all_constraints pb) /\ In e (c_elements c) /\ f_var e = v.
