(** The integer sums of the code with the range of [int]: the functions of Preprocess_model,
    Classify_model, Rows_model, Solver_model, Subsolver_model and BranchBound_model that add or
    multiply coefficients, written again with every addition, subtraction and product of the code
    in the order of the code, each checked against the range of [int] ([int_ok], Validate_model).
    A result out of the range is undefined behaviour: [Crash] or [None]. *)
From Verif Require Import Base Problem_model Classify_model Merged_model Preprocess_model Validate_model
  Rows_model Solver_model Subsolver_model BranchBound_model Matrix_model.
Open Scope Z_scope.

(** One operation on [int] (C++ [expr.pre]/4): undefined out of the range; used by every function
    below (preprocessor.cpp:70, 177-178, 855). *)
Definition checked (z : Z) : option Z := if int_ok z then Some z else None.

(** ** preprocessor.cpp *)
(** sum_factor, 64-72 *)
Fixpoint int_sum_factor (l : list felem) (init : Z) : option Z :=
  match l with
  | [] => Some init
  | e :: l' => do s <- checked (init + f_factor e); int_sum_factor l' s
  end.

(** reduce, 157-188: the product, its opposite and the sum *)
Fixpoint int_reduce_loop (vars : vmap) (l : list felem) (res : Z) (rem : option felem)
  : outcome (option felem * Z) :=
  match l with
  | [] => Ok (rem, res)
  | e :: l' =>
    match vfind vars (f_var e) with
    | None => match rem with
              | None => int_reduce_loop vars l' res (Some e)
              | Some _ => Crash (* bx_assert, line 171 *)
              end
    | Some b =>
      let! p := of_opt (checked (f_factor e * if b then 1 else 0)) in
      let! m := of_opt (checked (-1 * p)) in
      let! r := of_opt (checked (res + m)) in
      int_reduce_loop vars l' r rem
    end
  end.
(** lines 190-263; the products [factor * 0] and [factor * 1] are in the range *)
Definition int_reduce_constraint (op : operator_type) (vars : vmap) (c : constraint)
  : outcome (option (nat * bool)) :=
  let! (rem, result) := int_reduce_loop vars (c_elements c) (c_value c) None in
  match rem with
  | None => Ok None
  | Some e =>
    let! f0 := of_opt (checked (f_factor e * 0)) in
    let! f1 := of_opt (checked (f_factor e * 1)) in
    let affect_0 := compare_op op f0 result in
    let affect_1 := compare_op op f1 result in
    if affect_0 && affect_1 then Ok None
    else if affect_0 then Ok (Some (f_var e, false))
    else if affect_1 then Ok (Some (f_var e, true))
    else Crash (* bx_reach *)
  end.
(** lines 372-429, one operator *)
Fixpoint int_affect_csts (op : operator_type) (csts : list constraint) (vars : vmap) (idx : list nat)
  (cnt : list nat) (lf : lifo) : outcome (list nat * lifo) :=
  match idx with
  | [] => Ok (cnt, lf)
  | i :: idx' =>
    let! k := of_opt (nth_error cnt i) in
    if Nat.eqb k 0 then int_affect_csts op csts vars idx' cnt lf
    else
      let k' := Nat.pred k in
      if Nat.eqb k' 1 then
        let! c := of_opt (nth_error csts i) in
        let! v := int_reduce_constraint op vars c in
        let! cnt' := of_opt (list_upd cnt i 0%nat) in
        int_affect_csts op csts vars idx' cnt' (lifo_emplace_opt lf v)
      else
        let! cnt' := of_opt (list_upd cnt i k') in
        int_affect_csts op csts vars idx' cnt' lf
  end.
(** lines 361-431, one turn *)
Definition int_affect_step (pb : problem) (ch : caches) (s : pstate) (v : nat) (b : bool) (lf : lifo)
  : outcome pstate :=
  let vars := vemplace (s_vars s) v b in
  let! ie := of_opt (nth_error (in_equal ch) v) in
  let! (eq, lf1) := int_affect_csts op_equal (p_equal pb) vars ie (s_equal s) lf in
  let! ig := of_opt (nth_error (in_greater ch) v) in
  let! (gr, lf2) := int_affect_csts op_greater (p_greater pb) vars ig (s_greater s) lf1 in
  let! il := of_opt (nth_error (in_less ch) v) in
  let! (le, lf3) := int_affect_csts op_less (p_less pb) vars il (s_less s) lf2 in
  Ok (mk_pstate vars lf3 eq gr le).
(** lines 361-431. [Ok None]: the loop did not end within [fuel] turns. *)
Fixpoint int_affects (fuel : nat) (pb : problem) (ch : caches) (s : pstate) : outcome (option pstate) :=
  match fuel with
  | O => Ok None
  | S fuel' =>
    match s_lifo s with
    | [] => Ok (Some s)
    | (v, b) :: lf => let! s' := int_affect_step pb ch s v b lf in int_affects fuel' pb ch s'
    end
  end.
(** lines 457-487, 491-522, 526-555: one constraint. The sum is computed first, except for a
    "less" constraint whose value is 0 or less. *)
Definition int_affect_unit (op : operator_type) (vars : vmap) (c : constraint) (k : nat) (lf : lifo)
  : outcome (nat * lifo) :=
  if Nat.eqb k 1 then
    let! v := int_reduce_constraint op vars c in Ok (0%nat, lifo_emplace_opt lf v)
  else if is_all_factor_ge_than_zero c then
    match op with
    | op_equal =>
      let! s := of_opt (int_sum_factor (c_elements c) 0) in
      if (s =? c_value c) || (c_value c =? 0)
      then Ok (0%nat, emplace_all (c_elements c) (negb (c_value c =? 0)) lf)
      else Ok (k, lf)
    | op_greater =>
      let! s := of_opt (int_sum_factor (c_elements c) 0) in
      if s =? c_value c then Ok (0%nat, emplace_all (c_elements c) true lf)
      else if c_value c =? 0 then Ok (0%nat, lf)
      else Ok (k, lf)
    | op_less =>
      if c_value c <=? 0 then Ok (0%nat, emplace_all (c_elements c) false lf)
      else let! s := of_opt (int_sum_factor (c_elements c) 0) in
           if s =? c_value c then Ok (0%nat, lf) else Ok (k, lf)
    end
  else Ok (k, lf).
(** lines 457-555, the loops *)
Fixpoint int_affect_units (op : operator_type) (vars : vmap) (csts : list constraint) (cnt : list nat) (lf : lifo)
  : outcome (list nat * lifo) :=
  match csts, cnt with
  | [], _ => Ok ([], lf)
  | c :: csts', k :: cnt' =>
    let! (k', lf') := int_affect_unit op vars c k lf in
    let! (cnt'', lf'') := int_affect_units op vars csts' cnt' lf' in
    Ok (k' :: cnt'', lf'')
  | _ :: _, [] => Crash
  end.
(** lines 454-557 *)
Definition int_try_affect_variable (pb : problem) (s : pstate) : outcome pstate :=
  let! (eq, lf1) := int_affect_units op_equal (s_vars s) (p_equal pb) (s_equal s) (s_lifo s) in
  let! (gr, lf2) := int_affect_units op_greater (s_vars s) (p_greater pb) (s_greater s) lf1 in
  let! (le, lf3) := int_affect_units op_less (s_vars s) (p_less pb) (s_less s) lf2 in
  Ok (mk_pstate (s_vars s) lf3 eq gr le).
(** lines 848-857 *)
Fixpoint int_copy_elements (m : mapping) (l : list felem) (value : Z) : option (list felem * Z) :=
  match l with
  | [] => Some ([], value)
  | e :: l' =>
    do mi <- nth_error m (f_var e);
    match fst mi with
    | Some j => do r <- int_copy_elements m l' value; Some (mk_felem (f_factor e) j :: fst r, snd r)
    | None => do v <- (if snd mi then checked (value - f_factor e) else Some value);
              int_copy_elements m l' v
    end
  end.
(** lines 828-859 *)
Fixpoint int_constraints_exclude_copy (m : mapping) (cnt : list nat) (l : list constraint) {struct l} : option (list constraint) :=
  match l, cnt with
  | [], _ => Some []
  | c :: l', k :: cnt' =>
    if Nat.leb k 1 then int_constraints_exclude_copy m cnt' l'
    else
      do r <- int_copy_elements m (c_elements c) (c_value c);
      do l'' <- int_constraints_exclude_copy m cnt' l';
      Some (mk_constraint (c_label c) (fst r) (snd r) (c_id c) :: l'')
  | _ :: _, [] => None
  end.
(** lines 651-716 *)
Definition int_make_problem (pb : problem) (aff : affected_variables) (mo : merge_obj) (s : pstate)
  : outcome problem :=
  let n := length (v_values (p_vars pb)) in
  let m := make_mapping (s_vars s) (seq 0 n) 0 in
  let c := length (filter (fun mi => match fst mi with Some _ => true | None => false end) m) in
  ensures (Nat.eqb c (n - length (s_vars s)))
 (let! obj := of_opt (objective_function_exclude_copy m (p_objective pb) mo) in
  let! (vs, af) := of_opt (variables_exclude_copy (s_vars s) (p_vars pb) (seq 0 n) (mk_variables [] []) aff) in
  ensures (names_kept m (v_names (p_vars pb)) (v_names vs))
 (let! eq := of_opt (int_constraints_exclude_copy m (s_equal s) (p_equal pb)) in
  let! gr := of_opt (int_constraints_exclude_copy m (s_greater s) (p_greater pb)) in
  let! le := of_opt (int_constraints_exclude_copy m (s_less s) (p_less pb)) in
  let size := length (v_values vs) in
  ensures (is_valid_variable_index eq size && is_valid_variable_index gr size && is_valid_variable_index le size)
 (let q := mk_problem obj eq gr le vs af (p_type pb) (p_problem_type pb) in
  Ok (mk_problem obj eq gr le vs af (p_type pb) (which_problem_type q))))).
(** lines 616-625 and 638-647 *)
Definition int_finish (fuel : nat) (pb : problem) (aff : affected_variables) (ch : caches) (s : pstate)
  : outcome (option problem) :=
  let! r1 := int_affects fuel pb ch s in
  match r1 with
  | None => Ok None
  | Some s1 =>
    let! mo := of_opt (make_lp_from_bqp_objective pb ch s1) in
    let! s2 := of_opt (try_remove_unused_variable pb ch s1) in
    let! r2 := int_affects fuel pb ch s2 in
    match r2 with
    | None => Ok None
    | Some s3 => let! q := int_make_problem pb aff mo s3 in Ok (Some q)
    end
  end.
(** preprocess, lines 628-648 and 903-913 *)
Definition int_preprocess (fuel : nat) (pb : problem) : outcome (option problem) :=
  let! ch := of_opt (make_caches pb) in
  let s0 := init_state pb in
  let s1 := mk_pstate (s_vars s0) (try_affect_bounded_variable pb (s_lifo s0))
              (s_equal s0) (s_greater s0) (s_less s0) in
  let! s2 := int_try_affect_variable pb s1 in
  int_finish fuel pb (mk_affected [] []) ch s2.
(** affect, lines 607-626 and 883-901 *)
Definition int_affect (fuel : nat) (pb : problem) (v : nat) (b : bool) : outcome (option problem) :=
  ensures (Nat.ltb v (length (v_values (p_vars pb))))
 (let! ch := of_opt (make_caches pb) in
  let s0 := init_state pb in
  int_finish fuel pb (p_affected pb) ch
    (mk_pstate (s_vars s0) (lifo_emplace (s_lifo s0) v b) (s_equal s0) (s_greater s0) (s_less s0))).

(** ** The solvers *)
(** itm-solver-inequalities-Z.cpp:125-142: the two sums of the constructor, (lower, upper) *)
Fixpoint int_z_sums (l : list felem) (lower upper : Z) : option (Z * Z) :=
  match l with
  | [] => Some (lower, upper)
  | e :: l' => if 0 <? f_factor e then do u <- checked (upper + f_factor e); int_z_sums l' lower u
               else do w <- checked (lower + f_factor e); int_z_sums l' w upper
  end.

Section Rows.
Context {F : Type}.
(** itm-common.hpp:84-86 *)
Fixpoint int_row_sum (sv : solver F) (x : list bool) (row : list (nat * nat)) (v : Z) : option Z :=
  match row with
  | [] => Some v
  | (slot, col) :: row' =>
    do f <- factor sv slot; do b <- nth_error x col;
    do p <- checked (f * (if b then 1 else 0));
    do v' <- checked (v + p);
    int_row_sum sv x row' v'
  end.
(** itm-common.hpp:76-89 *)
Definition int_is_valid_constraint (sv : solver F) (k : nat) (x : list bool) : option bool :=
  do row <- mx_row (sv_ap sv) k;
  do v <- int_row_sum sv x row 0;
  do lo <- bound_min sv k; do hi <- bound_max sv k;
  Some ((lo <=? v) && (v <=? hi)).
(** itm-common.hpp:894-914: the differences are computed when the row is violated *)
Fixpoint int_infeasibility_from (sv : solver F) (x : list bool) (ks : list nat) : option (list (nat * Z)) :=
  match ks with
  | [] => Some []
  | k :: ks' =>
    do row <- mx_row (sv_ap sv) k; do v <- int_row_sum sv x row 0;
    do lo <- bound_min sv k; do hi <- bound_max sv k;
    do entry <- (if v <? lo then do d <- checked (lo - v); Some [(k, d)]
                 else if hi <? v then do d <- checked (v - hi); Some [(k, d)] else Some []);
    do r <- int_infeasibility_from sv x ks';
    Some (entry ++ r)
  end.
(** itm-common.hpp:894-914 *)
Definition int_infeasibility (sv : solver F) (x : list bool) := int_infeasibility_from sv x (seq 0 (sv_m sv)).
End Rows.

(** ** exhaustive-solver.hpp *)
(** 132-135 *)
Fixpoint int_walk_sum (l : list felem) (w : list bool) (sum : Z) : option Z :=
  match l, w with
  | e :: l', b :: w' => do s <- (if b then checked (sum + f_factor e) else Some sum); int_walk_sum l' w' s
  | _, _ => Some sum
  end.
(** 128-160 *)
Fixpoint int_walk (fuel : nat) (l : list felem) (lo hi : Z) (w : list bool) (i : nat) (flat : list Z) (nb : nat)
  : option (list bool * list Z * nat) :=
  match fuel with
  | O => None
  | S fuel' =>
    do sum <- int_walk_sum l w 0;
    let ok := (lo <=? sum) && (sum <=? hi) in
    let flat := if ok then flat ++ walk_row l w else flat in
    let nb := if ok then S nb else nb in
    do b <- nth_error w i;
    do w' <- list_upd w i (negb b);
    if b then (if Nat.eqb i 0 then Some (w', flat, nb) else int_walk fuel' l lo hi w' (i - 1) flat nb)
    else int_walk fuel' l lo hi w' (length w - 1) flat nb
  end.
(** build_constraints, 111-167 *)
Definition int_ex_build (ex : exhaustive) (k : nat) (l : list felem) (lo hi : Z) : option exhaustive :=
  let n := length l in
  if Nat.ltb 0 n then
    do w <- list_upd (resize (ex_walkers ex) n) (n - 1) true;
    do (w, flat, nb) <- int_walk (n * 2 ^ n + n) l lo hi w (n - 1) (ex_flat ex) 0;
    if Nat.ltb 0 nb then
      Some (mk_ex flat w
        (if existsb (fun c => Nat.eqb (ec_k c) k) (ex_csts ex) then ex_csts ex
         else ex_csts ex ++ [mk_ecst k (length (ex_flat ex)) nb lo hi]))
    else None
  else None.

(** ** branch-and-bound-solver.hpp *)
Section BranchBound.
Context {F : Type} (fo : fops F)
        (std_sort : forall A : Type, (A -> A -> bool) -> list A -> list A)
        (init_z : F).
(** make_next_equality_node and make_next_inequality_node, 302-385: the sum of the new node *)
Definition int_make_next (equality : bool) (mode : objective_type) (items : list (rc F)) (b_min b_max : Z) (s : bb (F := F)) : option bb :=
  match bb_nodes s with
  | [] => None
  | nd :: nodes =>
    let level := S (nd_level nd) in
    if Nat.leb (length items) level then Some (mk_bb nodes (bb_solution s) (bb_lower s))
    else
      let node_0 := mk_node (nd_variables nd) (nd_sumr nd) (nd_sumfactor nd) level in
      do it <- nth_error items level;
      do v1 <- list_upd (nd_variables nd) level true;
      do sf <- checked (nd_sumfactor nd + bb_factor it);
      let node_1 := mk_node v1 (fl_add fo (nd_sumr nd) (rc_value it)) sf level in
      do b <- nth_error (nd_variables nd) level;
      do sol <- list_upd (nd_variables nd) level (negb b);
      let stored := if better fo mode (nd_sumr node_1) (bb_lower s) then (sol, nd_sumr node_1)
                    else (bb_solution s, bb_lower s) in
      if equality then
        if nd_sumfactor node_1 =? b_min then Some (mk_bb (node_0 :: nodes) (fst stored) (snd stored))
        else Some (mk_bb (node_1 :: node_0 :: nodes) (bb_solution s) (bb_lower s))
      else
        if (b_min <=? nd_sumfactor node_1) && (nd_sumfactor node_1 <=? b_max) then
          Some (mk_bb (node_1 :: node_0 :: nodes) (fst stored) (snd stored))
        else if b_max <? nd_sumfactor node_1 then Some (mk_bb (node_0 :: nodes) (bb_solution s) (bb_lower s))
        else Some (mk_bb (node_1 :: node_0 :: nodes) (bb_solution s) (bb_lower s))
  end.
(** 408-409, 436-437 *)
Fixpoint int_explore (fuel : nat) (equality : bool) (mode : objective_type) (items : list (rc F)) (b_min b_max : Z) (s : bb (F := F)) : option bb :=
  match bb_nodes s with
  | [] => Some s
  | _ => match fuel with
         | O => None
         | S fuel' => do s' <- int_make_next equality mode items b_min b_max s;
                      int_explore fuel' equality mode items b_min b_max s'
         end
  end.
(** solve_equality, 387-410 *)
Definition int_solve_equality (mode : objective_type) (items : list (rc F)) (b_min b_max : Z) : option (list bool) :=
  let n0 := init_node_0 fo items in
  if nd_sumfactor n0 =? b_min then Some (nd_variables n0)
  else
    do n1 <- init_node_1 items;
    let s := if nd_sumfactor n1 =? b_min then mk_bb [n0] (nd_variables n1) init_z
             else mk_bb [n1; n0] (repeat false (length items)) init_z in
    do s' <- int_explore (bb_fuel items) true mode items b_min b_max s;
    Some (bb_solution s').
(** solve_inequality, 412-438 *)
Definition int_solve_inequality (mode : objective_type) (items : list (rc F)) (b_min b_max : Z) : option (list bool) :=
  do n1 <- init_node_1 items;
  let '(nodes0, sol0) := push_init b_min b_max (init_node_0 fo items) [] (repeat false (length items)) in
  let '(nodes, sol) := push_init b_min b_max n1 nodes0 sol0 in
  do s' <- int_explore (bb_fuel items) false mode items b_min b_max (mk_bb nodes sol init_z);
  Some (bb_solution s').
(** 463: std::abs is undefined on the least [int] *)
Fixpoint int_abs_all (R : list (rc F)) : option unit :=
  match R with
  | [] => Some tt
  | r :: l => do _ <- checked (Z.abs (rc_f r)); int_abs_all l
  end.
(** 474-479 *)
Fixpoint int_shift (items : list (rc F)) (b_min b_max : Z) : option (Z * Z) :=
  match items with
  | [] => Some (b_min, b_max)
  | r :: l => if rc_f r <? 0 then
                do lo <- checked (b_min + bb_factor r);
                do hi <- checked (b_max + bb_factor r);
                int_shift l lo hi
              else int_shift l b_min b_max
  end.
(** solve, 440-531 *)
Definition int_bb_solve (mode : objective_type) (R : list (rc F)) (bk_min bk_max : Z) : option (list (rc F) * Z) :=
  if Nat.leb 4 (length R) && (bk_min <=? bk_max) then
    do _ <- int_abs_all R;
    let items := std_sort _ (item_lt fo mode) R in
    do (b_min, b_max) <- int_shift items bk_min bk_max;
    do sol <- (if b_max =? b_min then int_solve_equality mode items b_min b_max
               else int_solve_inequality mode items b_min b_max);
    finish fo std_sort mode (bb_results items sol)
  else None.
End BranchBound.
