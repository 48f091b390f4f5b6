(** Vocabulary for the sub-solvers of one constraint. *)
From Coq Require Import Permutation.
From Verif Require Import Base Problem_model Rows_model Subsolver_model.
Open Scope Z_scope.

(** The left-hand side of a row for a choice of its variables, one boolean for each. *)
Fixpoint row_value (l : list felem) (u : list bool) : Z :=
  match l, u with
  | e :: l', b :: u' => f_factor e * (if b then 1 else 0) + row_value l' u'
  | _, _ => 0
  end.
Definition choice_ok (l : list felem) (lo hi : Z) (u : list bool) : Prop :=
  length u = length l /\ lo <= row_value l u <= hi.

(** The rows given to the solver: number, elements, bounds. *)
Record xrow := mk_xrow { x_k : nat; x_elements : list felem; x_lo : Z; x_hi : Z }.
(** The history of a solver object: the rows are registered one after the other. *)
Fixpoint built (ex : exhaustive) (rows : list xrow) : option exhaustive :=
  match rows with
  | [] => Some ex
  | r :: rows' => do ex' <- ex_build ex (x_k r) (x_elements r) (x_lo r) (x_hi r); built ex' rows'
  end.
(** Different numbers; no coefficient is 0; at least two variables; some choice fits. *)
Definition xrows_ok (rows : list xrow) : Prop :=
  NoDup (map x_k rows) /\
  forall r, In r rows -> (2 <= length (x_elements r))%nat /\
    (forall e, In e (x_elements r) -> f_factor e <> 0) /\ exists u, choice_ok (x_elements r) (x_lo r) (x_hi r) u.

(** The table of a row, as choices. *)
Definition table_of (ex : exhaustive) (r : xrow) : option (list (list bool)) :=
  do c <- find (fun c => Nat.eqb (ec_k c) (x_k r)) (ex_csts ex);
  let n := length (x_elements r) in
  Some (map (fun i => map (fun f => negb (f =? 0)) (firstn n (skipn (ec_start c + i * n) (ex_flat ex))))
            (seq 0 (ec_solutions c))).

(** The elements chosen, and the others. *)
Fixpoint chosen {A} (R : list A) (u : list bool) : list A :=
  match R, u with r :: R', b :: u' => if b then r :: chosen R' u' else chosen R' u' | _, _ => [] end.
Definition not_chosen {A} (R : list A) (u : list bool) : list A := chosen R (map negb u).
(** The sum of the reduced costs of the elements chosen, added from left to right. *)
Fixpoint sum_costs {F} (fo : fops F) (l : list (rc F)) (z : F) : F :=
  match l with [] => z | r :: l' => sum_costs fo l' (fl_add fo z (rc_value r)) end.
Definition choice_cost {F} (fo : fops F) (R : list (rc F)) (u : list bool) : F :=
  sum_costs fo (chosen R u) (fl_of_Z fo 0).

(** [a] is a strictly better sum of reduced costs than [b]. *)
Definition cheaper {F} (fo : fops F) (mode : objective_type) (a b : F) : bool :=
  match mode with minimize => fl_lt fo a b | maximize => fl_lt fo b a end.

(** The left-hand side when the first [sel] + 1 elements of R are set to 1 and the others to 0:
    what the row update does with the answer of a sub-solver. *)
Fixpoint sum_factors {F} (R : list (rc F)) : Z := match R with [] => 0 | r :: R' => rc_f r + sum_factors R' end.
Definition selected_value {F} (R : list (rc F)) (sel : Z) : Z := sum_factors (firstn (Z.to_nat (sel + 1)) R).
