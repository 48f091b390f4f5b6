(** Model of lib/src/branch-and-bound-solver.hpp, branch_and_bound_solver (184-533).

    The variables of a node live in a shared_subvector; that different nodes never share
    memory is C37 (Subvector_props), so here each node has its own list of booleans. The
    fields node::z, item::sum_z and upper_bound are computed but never read: they are not
    modelled. Integers are unbounded. [None]: a failed contract or an access out of bounds. *)
From Verif Require Import Base Problem_model Rows_model Subsolver_model.
Open Scope Z_scope.

Section BranchBound.
Context {F : Type} (fo : fops F)
        (std_sort : forall A : Type, (A -> A -> bool) -> list A -> list A)
        (** init_z, 244-250: an infinity *)
        (init_z : F).

(** item::factor, 463 *)
Definition bb_factor (r : rc F) : Z := Z.abs (rc_f r).
(** item::operator<, 203-211 (the factor of the left item is used on both sides) *)
Definition item_lt (mode : objective_type) (a b : rc F) : bool :=
  let f := fl_of_Z fo (bb_factor a) in
  match mode with
  | minimize => fl_lt fo (fl_div fo (rc_value a) f) (fl_div fo (rc_value b) f)
  | maximize => fl_lt fo (fl_div fo (rc_value b) f) (fl_div fo (rc_value a) f)
  end.

(** struct node, 214-231 *)
Record node := mk_node { nd_variables : list bool; nd_sumr : F; nd_sumfactor : Z; nd_level : nat }.
(** nodes (the head is the back of the vector), solution, lower_bound *)
Record bb := mk_bb { bb_nodes : list node; bb_solution : list bool; bb_lower : F }.

(** make_init_node_0, 283-290; make_init_node_1, 292-300 *)
Definition init_node_0 (items : list (rc F)) : node := mk_node (repeat false (length items)) (fl_of_Z fo 0) 0 0.
(** make_init_node_1, branch-and-bound-solver.hpp:292-300 *)
Definition init_node_1 (items : list (rc F)) : option node :=
  do it <- nth_error items 0;
  do v <- list_upd (repeat false (length items)) 0 true;
  Some (mk_node v (rc_value it) (bb_factor it) 0).

(** make_next_equality_node, 302-343 ([equality]); make_next_inequality_node, 345-385. They
    differ only in the tests at the end. Not called on an empty stack. *)
Definition make_next (equality : bool) (mode : objective_type) (items : list (rc F)) (b_min b_max : Z) (s : bb) : option bb :=
  match bb_nodes s with
  | [] => None
  | nd :: nodes =>
    let level := S (nd_level nd) in
    if Nat.leb (length items) level then Some (mk_bb nodes (bb_solution s) (bb_lower s))
    else
      let node_0 := mk_node (nd_variables nd) (nd_sumr nd) (nd_sumfactor nd) level in
      do it <- nth_error items level;
      do v1 <- list_upd (nd_variables nd) level true;
      let node_1 := mk_node v1 (fl_add fo (nd_sumr nd) (rc_value it)) (nd_sumfactor nd + bb_factor it) level in
      (* copy and invert *)
      do b <- nth_error (nd_variables nd) level;
      do sol <- list_upd (nd_variables nd) level (negb b);
      let stored := if better fo mode (nd_sumr node_1) (bb_lower s) then (sol, nd_sumr node_1)
                    else (bb_solution s, bb_lower s) in
      if equality then
        if nd_sumfactor node_1 =? b_min then Some (mk_bb (node_0 :: nodes) (fst stored) (snd stored))
        else Some (mk_bb (node_1 :: node_0 :: nodes) (bb_solution s) (bb_lower s))
      else
        if (b_min <=? nd_sumfactor node_1) && (nd_sumfactor node_1 <=? b_max) then
          Some (mk_bb (node_1 :: node_0 :: nodes) (fst stored) (snd stored))
        else if b_max <? nd_sumfactor node_1 then Some (mk_bb (node_0 :: nodes) (bb_solution s) (bb_lower s))
        else Some (mk_bb (node_1 :: node_0 :: nodes) (bb_solution s) (bb_lower s))
  end.
(** while (!nodes.empty()), 408-409, 436-437. [None] also when the fuel is out
    (BranchBound_proofs shows that 2^(n+1) turns are enough). *)
Fixpoint explore (fuel : nat) (equality : bool) (mode : objective_type) (items : list (rc F)) (b_min b_max : Z) (s : bb) : option bb :=
  match bb_nodes s with
  | [] => Some s
  | _ => match fuel with
         | O => None
         | S fuel' => do s' <- make_next equality mode items b_min b_max s;
                      explore fuel' equality mode items b_min b_max s'
         end
  end.
(** Not in the code: a number of turns of the loops of lines 408-409 and 436-437 that is enough. *)
Definition bb_fuel (items : list (rc F)) : nat := 2 ^ S (length items).

(** solve_equality, 387-410. The solution starts full of 0 (468-469). *)
Definition solve_equality (mode : objective_type) (items : list (rc F)) (b_min b_max : Z) : option (list bool) :=
  let n0 := init_node_0 items in
  if nd_sumfactor n0 =? b_min then Some (nd_variables n0)
  else
    do n1 <- init_node_1 items;
    let s := if nd_sumfactor n1 =? b_min then mk_bb [n0] (nd_variables n1) init_z
             else mk_bb [n1; n0] (repeat false (length items)) init_z in
    do s' <- explore (bb_fuel items) true mode items b_min b_max s;
    Some (bb_solution s').

(** One of the blocks 417-424, 427-434: the node is pushed, then copied or removed. *)
Definition push_init (b_min b_max : Z) (nd : node) (nodes : list node) (sol : list bool) : list node * list bool :=
  if (b_min <=? nd_sumfactor nd) && (nd_sumfactor nd <=? b_max) then (nd :: nodes, nd_variables nd)
  else if b_max <? nd_sumfactor nd then (nodes, sol)
  else (nd :: nodes, sol).
(** solve_inequality, 412-438 *)
Definition solve_inequality (mode : objective_type) (items : list (rc F)) (b_min b_max : Z) : option (list bool) :=
  do n1 <- init_node_1 items;
  let '(nodes0, sol0) := push_init b_min b_max (init_node_0 items) [] (repeat false (length items)) in
  let '(nodes, sol) := push_init b_min b_max n1 nodes0 sol0 in
  do s' <- explore (bb_fuel items) false mode items b_min b_max (mk_bb nodes sol init_z);
  Some (bb_solution s').

(** 474-479: the sum of the factors of the items whose original factor is negative *)
Fixpoint negative_sum (items : list (rc F)) : Z :=
  match items with
  | [] => 0
  | r :: l => (if rc_f r <? 0 then bb_factor r else 0) + negative_sum l
  end.
(** 491-496 *)
Fixpoint bb_results (items : list (rc F)) (sol : list bool) : list (rc F * bool) :=
  match items, sol with
  | r :: l, b :: s => (r, if 0 <? rc_f r then b else negb b) :: bb_results l s
  | _, _ => []
  end.
(** solve, 440-531, on the first r_size elements of R. The assertion and the exception of
    446-453 give [None]. *)
Definition bb_solve (mode : objective_type) (R : list (rc F)) (bk_min bk_max : Z) : option (list (rc F) * Z) :=
  if Nat.leb 4 (length R) && (bk_min <=? bk_max) then
    let items := std_sort _ (item_lt mode) R in
    let b_min := bk_min + negative_sum items in
    let b_max := bk_max + negative_sum items in
    do sol <- (if b_max =? b_min then solve_equality mode items b_min b_max
               else solve_inequality mode items b_min b_max);
    finish fo std_sort mode (bb_results items sol)
  else None.
End BranchBound.
