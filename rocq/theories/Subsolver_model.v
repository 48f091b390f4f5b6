(** Model of the sub-solvers of one constraint with arbitrary integer coefficients, first part:
    the exhaustive solver, lib/src/exhaustive-solver.hpp, and the end of solve shared with
    lib/src/branch-and-bound-solver.hpp. Integers are unbounded. [None]: a failed contract or
    an access out of bounds. *)
From Verif Require Import Base Problem_model Rows_model.
Open Scope Z_scope.

(** ** exhaustive-solver.hpp *)
(** struct constraint, 58-95 *)
Record ecst := mk_ecst { ec_k : nat; ec_start : nat; ec_solutions : nat; ec_min : Z; ec_max : Z }.
(** 97-100: flat_constraints, walkers (each is 0 or 1), constraints (a std::set ordered by k,
    here in insertion order); items is local to solve. *)
Record exhaustive := mk_ex { ex_flat : list Z; ex_walkers : list bool; ex_csts : list ecst }.
(** The default constructor, exhaustive-solver.hpp:97-100. *)
Definition ex_new : exhaustive := mk_ex [] [] [].

(** 132-135 *)
Fixpoint walk_sum (l : list felem) (w : list bool) : Z :=
  match l, w with
  | e :: l', b :: w' => (if b then f_factor e else 0) + walk_sum l' w'
  | _, _ => 0
  end.
(** 139-142 *)
Fixpoint walk_row (l : list felem) (w : list bool) : list Z :=
  match l, w with
  | e :: l', b :: w' => (if b then f_factor e else 0) :: walk_row l' w'
  | _, _ => []
  end.
(** 128-160: one turn of the inner loop for each unit of fuel. [i] is the current walker; the
    outer loop starts again from the last walker. A walker that would become 2 is reset and
    the previous one is incremented in the next turn. [None] also when the fuel is out, which
    Subsolver_proofs excludes. *)
Fixpoint walk (fuel : nat) (l : list felem) (lo hi : Z) (w : list bool) (i : nat) (flat : list Z) (nb : nat)
  : option (list bool * list Z * nat) :=
  match fuel with
  | O => None
  | S fuel' =>
    let sum := walk_sum l w in
    let ok := (lo <=? sum) && (sum <=? hi) in
    let flat := if ok then flat ++ walk_row l w else flat in
    let nb := if ok then S nb else nb in
    do b <- nth_error w i;
    do w' <- list_upd w i (negb b);
    if b then (if Nat.eqb i 0 then Some (w', flat, nb) else walk fuel' l lo hi w' (i - 1) flat nb)
    else walk fuel' l lo hi w' (length w - 1) flat nb
  end.
(** std::vector::resize(n, 0) *)
Definition resize (w : list bool) (n : nat) : list bool := firstn n w ++ repeat false (n - length w).
(** build_constraints, 111-167. [k] is not negative. *)
Definition ex_build (ex : exhaustive) (k : nat) (l : list felem) (lo hi : Z) : option exhaustive :=
  let n := length l in
  if Nat.ltb 0 n then
    do w <- list_upd (resize (ex_walkers ex) n) (n - 1) true;
    do (w, flat, nb) <- walk (n * 2 ^ n + n) l lo hi w (n - 1) (ex_flat ex) 0;
    if Nat.ltb 0 nb then
      Some (mk_ex flat w
        (if existsb (fun c => Nat.eqb (ec_k c) k) (ex_csts ex) then ex_csts ex
         else ex_csts ex ++ [mk_ecst k (length (ex_flat ex)) nb lo hi]))
    else None
  else None.

Section Solve.
Context {F : Type} (fo : fops F)
        (std_sort : forall A : Type, (A -> A -> bool) -> list A -> list A).

(** exhaustive-solver.hpp:219-249 and branch-and-bound-solver.hpp:499-530: the items with
    their result are sorted (selected first), written back, and the position of the last
    selected one is returned. *)
Definition result_lt (mode : objective_type) (a b : rc F * bool) : bool :=
  if Bool.eqb (snd a) (snd b) then rc_lt fo mode (fst a) (fst b) else snd a && negb (snd b).
(** The search of the first item not selected, exhaustive-solver.hpp:219-249. *)
Fixpoint find_zero (l : list (rc F * bool)) (i : Z) : option Z :=
  match l with [] => None | (_, b) :: l' => if b then find_zero l' (i + 1) else Some i end.
(** exhaustive-solver.hpp:219-249 and branch-and-bound-solver.hpp:499-530 *)
Definition finish (mode : objective_type) (items : list (rc F * bool)) : option (list (rc F) * Z) :=
  let items := std_sort _ (result_lt mode) items in
  match find_zero items 0 with
  | None => do it <- nth_error items 0;
            Some (map fst items, if snd it then Z.of_nat (length items) else -1)
  | Some d => Some (map fst items, d - 1)
  end.

(** is_best_solution, 177-184 *)
Definition better (mode : objective_type) (a b : F) : bool :=
  match mode with minimize => fl_lt fo a b | maximize => fl_lt fo b a end.
(** 203-206, 212-215: the cost of the solution that starts at [start] in the table *)
Fixpoint table_cost (flat : list Z) (start : nat) (R : list (rc F)) (z : F) : option F :=
  match R with
  | [] => Some z
  | r :: R' => do f <- nth_error flat start;
               table_cost flat (S start) R' (if f =? 0 then z else fl_add fo z (rc_value r))
  end.
(** 208-221: solutions i, i+1, ... ([n] of them) *)
Fixpoint table_best (mode : objective_type) (flat : list Z) (start : nat) (R : list (rc F)) (n i : nat) (z_best : F) (best : nat) : option nat :=
  match n with
  | O => Some best
  | S n' => do z <- table_cost flat (start + i * length R) R (fl_of_Z fo 0);
            if better mode z z_best then table_best mode flat start R n' (S i) z i
            else table_best mode flat start R n' (S i) z_best best
  end.
(** 223-225 *)
Fixpoint table_items (flat : list Z) (start : nat) (R : list (rc F)) : option (list (rc F * bool)) :=
  match R with
  | [] => Some []
  | r :: R' => do f <- nth_error flat start; do l <- table_items flat (S start) R';
               Some ((r, negb (f =? 0)) :: l)
  end.
(** solve, 186-252, on the first r_size elements of R *)
Definition ex_solve (mode : objective_type) (ex : exhaustive) (k : nat) (R : list (rc F)) : option (list (rc F) * Z) :=
  do c <- find (fun c => Nat.eqb (ec_k c) k) (ex_csts ex);
  do z0 <- table_cost (ex_flat ex) (ec_start c) R (fl_of_Z fo 0);
  do best <- table_best mode (ex_flat ex) (ec_start c) R (ec_solutions c - 1) 1 z0 0%nat;
  do items <- table_items (ex_flat ex) (ec_start c + best * length R) R;
  finish mode items.
End Solve.
