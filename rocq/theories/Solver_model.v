(** Model of the sweeps and of the solving loop: lib/src/itm-common.hpp (255-374, 627-914) and
    lib/src/itm-solver-common.hpp. Conventions as in Rows_model. *)
From Verif Require Import Base Problem_model Merged_model Classify_model Matrix_model Rows_model Validate_model
  Subsolver_model BranchBound_model ZRow_model RandomRow_model.
Open Scope Z_scope.

(** core:346-357 *)
Inductive constraint_order :=
| co_none | co_reversing | co_random_sorting | co_infeasibility_decr | co_infeasibility_incr
| co_lagrangian_decr | co_lagrangian_incr | co_pi_sign_change | co_cycle.
(** core (init_policy_type) *)
Inductive init_policy := ip_bastert | ip_pessimistic_solve | ip_optimistic_solve.

(** compute_order: itm-common.hpp:627-643 *)
Record order_state := mk_order { od_R : list nat; od_m : list (nat * Z); od_order : constraint_order; od_cycle : bool }.
(** The constructor of compute_order, itm-common.hpp:627-643. *)
Definition make_order (o : constraint_order) (n : nat) : order_state :=
  mk_order (repeat 0%nat n) (repeat (0%nat, 0) n)
    (match o with co_cycle => co_none | _ => o end) (match o with co_cycle => true | _ => false end).
(** next_state: itm-common.hpp:644-658 *)
Definition next_state (o : constraint_order) : constraint_order :=
  match o with
  | co_none => co_reversing | co_reversing => co_random_sorting
  | co_random_sorting => co_infeasibility_decr | co_infeasibility_decr => co_infeasibility_incr
  | co_infeasibility_incr => co_lagrangian_decr | co_lagrangian_decr => co_lagrangian_incr
  | co_lagrangian_incr => co_pi_sign_change | co_pi_sign_change => co_none | co_cycle => co_none
  end.

(** Parameters read by the loop (core:410-461), already converted to Float. [pa_delta] is the
    delta used (given or computed), [pa_w] the integer part of w (w >= 0). *)
Record sparams (F : Type) := mk_sparams {
  pa_limit : Z; pa_w : Z; pa_kappa_min : F; pa_kappa_step : F; pa_kappa_max : F; pa_alpha : F;
  pa_theta : F; pa_delta : F; pa_pushing_k_factor : F; pa_amplifier : F;
  pa_pushes_limit : Z; pa_pushing_iteration_limit : Z;
  pa_order : constraint_order; pa_init : init_policy }.
Arguments pa_limit {F}. Arguments pa_w {F}. Arguments pa_kappa_min {F}. Arguments pa_kappa_step {F}.
Arguments pa_kappa_max {F}. Arguments pa_alpha {F}. Arguments pa_theta {F}. Arguments pa_delta {F}.
Arguments pa_pushing_k_factor {F}. Arguments pa_amplifier {F}. Arguments pa_pushes_limit {F}.
Arguments pa_pushing_iteration_limit {F}. Arguments pa_order {F}. Arguments pa_init {F}.

(** raw_result<Mode>: result.hpp:34-93. The value bad_value (infinity) is [None]; duration,
    hash and loop are not modelled. *)
Record best := mk_best { be_x : list bool; be_value : option Z; be_remaining : Z }.
(** The initial values of raw_result, result.hpp:34-93. *)
Definition best0 : best := mk_best [] None int_max.

(** is_better_solution, itm-common.hpp:192-200; the second value may be infinite. *)
Definition is_better (mode : objective_type) (v : Z) (b : option Z) : bool :=
  match b with
  | None => true
  | Some w => match mode with minimize => v <? w | maximize => w <? v end
  end.
(** store_if_better, itm-solver-common.hpp:242-261 *)
Definition store_remaining (b : best) (x : list bool) (remaining : Z) : best :=
  if remaining <? be_remaining b then mk_best x (be_value b) remaining else b.
(** store_if_better, itm-solver-common.hpp:242-261 *)
Definition store_value (mode : objective_type) (b : best) (x : list bool) (v : Z) : best :=
  if is_better mode v (be_value b) then mk_best x (Some v) 0 else b.

(** results(): default_cost_type (itm-common.hpp:1140-1147) and quadratic_cost_type
    (1427-1439) compute the same when there is no quadratic element. *)
Fixpoint results_lin (x : list bool) (l : list oelem) (v : Z) : option Z :=
  match l with
  | [] => Some v
  | e :: l' => do b <- nth_error x (o_var e); results_lin x l' (if b then v + o_factor e else v)
  end.
(** The quadratic part of results(), itm-common.hpp:1427-1439. *)
Fixpoint results_quad (x : list bool) (l : list qelem) (v : Z) : option Z :=
  match l with
  | [] => Some v
  | e :: l' => do a <- nth_error x (q_vara e);
               do b <- (if a then nth_error x (q_varb e) else Some false);
               results_quad x l' (if a && b then v + q_factor e else v)
  end.
(** results(), itm-common.hpp:1140-1147 and 1427-1439 *)
Definition results (o : objective) (x : list bool) : option Z :=
  do v <- results_lin x (o_elements o) (o_value o); results_quad x (o_qelements o) v.

(** The end of a loop: itm-solver-common.hpp:135-166. *)
Inductive stop := stop_found | stop_limit | stop_kappa | stop_time.
(** [OutOfFuel]: the model's bound on iterations was reached, not an outcome of the code. *)
Inductive run_result (A : Type) := Finished (a : A) | Aborted | OutOfFuel.
Arguments Finished {A}. Arguments Aborted {A}. Arguments OutOfFuel {A}.

(** core:721-748, the fields set or left by solve. *)
Record sresult := mk_sresult {
  sr_status : result_status; sr_solutions : list (list bool * option Z); sr_remaining : Z;
  sr_names : list text; sr_affected : affected_variables; sr_variables : nat; sr_constraints : nat }.

Section Solver.
Context {F G : Type} (fo : fops F) (ro : rops G)
        (std_sort : forall A : Type, (A -> A -> bool) -> list A -> list A).

(** The solver for arbitrary coefficients of a [solver] (itm-solver-inequalities-Z.cpp:98-190). The code
    computes the tables once, in the constructor; here the same value is computed at each use. *)
Definition zsolver_of (sv : solver F) : option (zsolver F) :=
  do ex <- build_tables 0 (sv_rows sv) (sv_b sv) ex_new;
  Some (mk_zsolver sv (map z_kind (sv_rows sv)) ex).
(** The constructor of each solver class. *)
Definition make_any_solver (cl : solver_class) (cs : list merged) (n : nat) (c : nat -> list bool -> option F)
  (mode : objective_type) (after : list (rc F)) (x : list bool) (g : G) : outcome (solver F * state F G) :=
  let! (sv, s) := make_solver fo cl cs n c mode after x g in
  match cl with
  | S_inequalities_Z => let! _ := of_opt (zsolver_of sv) in Ok (sv, s)
  | _ => Ok (sv, s)
  end.
(** One row, by the update of the solver class (Rows_model, ZRow_model, RandomRow_model). *)
Definition any_update_row (sv : solver F) (push : option F) (kappa delta theta : F) (k : nat) (s : state F G)
  : option (state F G * bool) :=
  match sv_class sv with
  | S_inequalities_Z =>
    do zs <- zsolver_of sv;
    zupdate_row fo ro std_sort (fl_worst fo (sv_mode sv)) zs push kappa delta theta k s
  | S_random => random_update_row fo ro std_sort sv kappa delta theta k s
  | _ => update_row fo ro std_sort sv push kappa delta theta k s
  end.
(** compute_update_row / push_and_compute_update_row over the rows [ks], as itm-solver-equalities-101.cpp:208-306
    and itm-solver-inequalities-Z.cpp:441-564 *)
Fixpoint update_rows (sv : solver F) (push : option F) (kappa delta theta : F) (ks : list nat) (s : state F G) (changed : bool)
  : option (state F G * bool) :=
  match ks with
  | [] => Some (s, changed)
  | k :: ks' => do (s', c) <- any_update_row sv push kappa delta theta k s;
                update_rows sv push kappa delta theta ks' s' (changed || c)
  end.

(** compute_violated_constraints, itm-common.hpp:102-115 *)
Fixpoint violated_from (sv : solver F) (x : list bool) (ks : list nat) : option (list nat) :=
  match ks with
  | [] => Some []
  | k :: ks' => do ok <- is_valid_constraint sv k x; do r <- violated_from sv x ks';
                Some (if ok then r else k :: r)
  end.
(** compute_violated_constraints, itm-common.hpp:102-115 *)
Definition violated (sv : solver F) (x : list bool) : option (list nat) := violated_from sv x (seq 0 (sv_m sv)).
(** infeasibility_local_compute_violated_constraints, itm-common.hpp:894-914 *)
Fixpoint infeasibility_from (sv : solver F) (x : list bool) (ks : list nat) : option (list (nat * Z)) :=
  match ks with
  | [] => Some []
  | k :: ks' =>
    do row <- mx_row (sv_ap sv) k; do v <- row_sum sv x row 0;
    do lo <- bound_min sv k; do hi <- bound_max sv k;
    do r <- infeasibility_from sv x ks';
    Some (if v <? lo then (k, lo - v) :: r else if hi <? v then (k, v - hi) :: r else r)
  end.
(** itm-common.hpp:894-914 *)
Definition infeasibility (sv : solver F) (x : list bool) := infeasibility_from sv x (seq 0 (sv_m sv)).
(** local_compute_violated_constraints, itm-common.hpp:883-892 *)
Definition count_violated (sv : solver F) (x : list bool) : option Z :=
  do l <- violated sv x; Some (Z.of_nat (length l)).

(** compute_order::init, itm-common.hpp:660-681 *)
Definition order_init (sv : solver F) (x : list bool) (od : order_state) : option order_state :=
  match od_order od with
  | co_infeasibility_decr | co_infeasibility_incr =>
    do m <- infeasibility sv x; Some (mk_order (od_R od) m (od_order od) (od_cycle od))
  | co_pi_sign_change =>
    Some (mk_order (seq 0 (length (od_R od))) (od_m od) (od_order od) (od_cycle od))
  | _ => do r <- violated sv x; Some (mk_order r (od_m od) (od_order od) (od_cycle od))
  end.

(** Comparisons of the sorts by multiplier: they read pi at both indices, which [sweep] checks
    to be in bounds beforehand. *)
Definition pi_lt (pi : list F) (a b : nat) : bool :=
  fl_lt fo (nth a pi (fl_of_Z fo 0)) (nth b pi (fl_of_Z fo 0)).
(** Not in the code: the indices read by the sorts are in bounds (itm-common.hpp:645-892). *)
Definition all_below (m : nat) (l : list nat) : bool := forallb (fun k => Nat.ltb k m) l.

(** The rows a sweep goes through, in order, with the reordered arrays: first half of each
    case of run (itm-common.hpp:800-881) and push_and_run (683-798). *)
Definition sweep (pi : list F) (od : order_state) (g : G) : option (list nat * order_state * G) :=
  let withR R := mk_order R (od_m od) (od_order od) (od_cycle od) in
  match od_order od with
  | co_reversing => Some (rev (od_R od), od, g)
  | co_random_sorting | co_pi_sign_change =>
    let '(R, g') := rg_shuffle ro _ g (od_R od) in Some (R, withR R, g')
  | co_infeasibility_decr =>
    let m := std_sort _ (fun a b : nat * Z => snd b <? snd a) (od_m od) in
    Some (map fst m, mk_order (od_R od) m (od_order od) (od_cycle od), g)
  | co_infeasibility_incr =>
    let m := std_sort _ (fun a b : nat * Z => snd a <? snd b) (od_m od) in
    Some (map fst m, mk_order (od_R od) m (od_order od) (od_cycle od), g)
  | co_lagrangian_decr =>
    if all_below (length pi) (od_R od)
    then let R := std_sort _ (fun a b => pi_lt pi b a) (od_R od) in Some (R, withR R, g) else None
  | co_lagrangian_incr =>
    if all_below (length pi) (od_R od)
    then let R := std_sort _ (fun a b => pi_lt pi a b) (od_R od) in Some (R, withR R, g) else None
  | co_none | co_cycle => Some (od_R od, od, g)
  end.
(** Second half: the remaining constraints are recomputed. *)
Definition recompute (sv : solver F) (x : list bool) (od : order_state) : option (Z * order_state) :=
  match od_order od with
  | co_infeasibility_decr | co_infeasibility_incr =>
    do m <- infeasibility sv x;
    Some (Z.of_nat (length m), mk_order (od_R od) m (od_order od) (od_cycle od))
  | co_pi_sign_change => do r <- count_violated sv x; Some (r, od)
  | _ => do r <- violated sv x; Some (Z.of_nat (length r), mk_order r (od_m od) (od_order od) (od_cycle od))
  end.
(** run ([push] = None) and push_and_run *)
Definition run (sv : solver F) (push : option F) (kappa delta theta : F) (od : order_state) (s : state F G)
  : option (Z * order_state * state F G) :=
  let od := match push with
            | Some _ => if od_cycle od then mk_order (od_R od) (od_m od) (next_state (od_order od)) (od_cycle od) else od
            | None => od
            end in
  do (rows, od, g) <- sweep (s_pi s) od (s_g s);
  do (s, _) <- update_rows sv push kappa delta theta rows
                 (mk_state (s_x s) (s_P s) (s_pi s) (s_R s) g) false;
  do (remaining, od) <- recompute sv (s_x s) od;
  Some (remaining, od, s).

(** ** Initial assignment *)
(** init_x, itm-common.hpp:202-219, with value_if_cost_0 = 0 *)
Definition init_x (mode : objective_type) (cost : F) : bool :=
  match mode with
  | minimize => fl_lt fo cost (fl_of_Z fo 0)
  | maximize => fl_lt fo (fl_of_Z fo 0) cost
  end.
(** init_with_bastert, itm-common.hpp:255-267 *)
Fixpoint init_bastert (mode : objective_type) (c0 : nat -> option F) (k i : nat) (x : list bool) : option (list bool) :=
  match k with
  | O => Some x
  | S k' => do c <- c0 i; do x' <- list_upd x i (init_x mode c); init_bastert mode c0 k' (S i) x'
  end.

(** The reduced costs of init_with_pre_solve, itm-common.hpp:315-319 (the conversion of the
    costs to float is not modelled). *)
Fixpoint pre_costs (c0 : nat -> option F) (l : list felem) : option (list (F * felem)) :=
  match l with
  | [] => Some []
  | e :: l' => do c <- c0 (f_var e); do r <- pre_costs c0 l'; Some ((c, e) :: r)
  end.
(** itm-common.hpp:331-339: number of leading variables set by the pessimistic solve *)
Fixpoint pessimistic (R : list (F * felem)) (t : nat) (sum lo hi : Z) : nat :=
  if (lo <=? sum) && (sum <=? hi) then t
  else match R with
       | [] => O
       | (_, e) :: R' => pessimistic R' (S t) (sum + f_factor e) lo hi
       end.
(** stop_iterating without random, itm-common.hpp:182-190 *)
Definition stops (mode : objective_type) (v : F) : bool :=
  match mode with minimize => fl_lt fo (fl_of_Z fo 0) v | maximize => fl_lt fo v (fl_of_Z fo 0) end.
(** itm-common.hpp:354-364: the same for the optimistic solve *)
Fixpoint optimistic (mode : objective_type) (R : list (F * felem)) (t : nat) (sum lo hi : Z) (acc : option nat) : nat :=
  let acc := if (lo <=? sum) && (sum <=? hi) then Some t else acc in
  match R with
  | [] => match acc with Some b => b | None => O end
  | (c, e) :: R' =>
    match acc with
    | Some b => if stops mode c then b else optimistic mode R' (S t) (sum + f_factor e) lo hi acc
    | None => optimistic mode R' (S t) (sum + f_factor e) lo hi acc
    end
  end.
(** itm-common.hpp:341-347, 366-371: the first [t] variables are set, the others unset *)
Fixpoint set_prefix (R : list (F * felem)) (t : nat) (x : list bool) : option (list bool) :=
  match R with
  | [] => Some x
  | (_, e) :: R' => do x' <- list_upd x (f_var e) (match t with O => false | S _ => true end);
                    set_prefix R' (Nat.pred t) x'
  end.
(** init_with_pre_solve, itm-common.hpp:284-374, for the one array that is not empty. [every]: the probability
    init_random is 1, every constraint is solved (the engine is still used, 309). *)
Fixpoint pre_solve (every : bool) (mode : objective_type) (opt : bool) (c0 : nat -> option F) (cs : list merged) (x : list bool) (g : G)
  : option (list bool * G) :=
  match cs with
  | [] => Some (x, g)
  | c :: cs' =>
    let '(go, g) := rg_bernoulli ro g in
    if every || go then
      do R <- pre_costs c0 (m_elements c);
      let '(R, g) := rg_shuffle ro _ g R in
      let R := std_sort _ (fun a b => match mode with
                                      | minimize => fl_lt fo (fst a) (fst b)
                                      | maximize => fl_lt fo (fst b) (fst a) end) R in
      let t := if opt then optimistic mode R 0 0 (m_min c) (m_max c) None
               else pessimistic R 0 0 (m_min c) (m_max c) in
      do x' <- set_prefix R t x;
      pre_solve every mode opt c0 cs' x' g
    else pre_solve every mode opt c0 cs' x g
  end.
(** itm-solver-common.hpp:120-122 *)
Fixpoint mutate (x : list bool) (g : G) : list bool * G :=
  match x with
  | [] => ([], g)
  | b :: x' => let '(m, g1) := rg_bernoulli ro g in
               let '(r, g2) := mutate x' g1 in ((if m then negb b else b) :: r, g2)
  end.
(** itm-solver-common.hpp:99-123: every constraint is solved (107, 112) *)
Definition initial_x (ip : init_policy) (mode : objective_type) (c0 : nat -> option F) (cs : list merged) (n : nat) (g : G)
  : option (list bool * G) :=
  let x := repeat false n in
  do (x, g) <- match ip with
               | ip_pessimistic_solve => pre_solve true mode false c0 cs x g
               | ip_optimistic_solve => pre_solve true mode true c0 cs x g
               | ip_bastert => do x <- init_bastert mode c0 n 0 x; Some (x, g)
               end;
  Some (mutate x g).

(** ** The loop *)
(** itm-solver-common.hpp:153-155 *)
Definition next_kappa (pa : sparams F) (m : nat) (kappa : F) (remaining : Z) : F :=
  fl_add fo kappa (fl_mul fo (pa_kappa_step pa)
    (fl_pow fo (fl_div fo (fl_of_Z fo remaining) (fl_of_Z fo (Z.of_nat m))) (pa_alpha pa))).

(** The state of the loop. [lp_tried] is not in the code: it records the assignments
    reached at the end of the sweeps, most recent first. *)
Record loop := mk_loop {
  lp_od : order_state; lp_s : state F G; lp_kappa : F; lp_best : best; lp_tried : list (list bool) }.

(** The engine after some draws (itm-solver-common.hpp:63-225). *)
Definition with_g (s : state F G) (g : G) : state F G := mk_state (s_x s) (s_P s) (s_pi s) (s_R s) g.

(** itm-solver-common.hpp:135-166. [best_remaining] is the local variable. *)
Fixpoint main_loop (fuel : nat) (sv : solver F) (pa : sparams F) (obj : objective) (i : Z) (best_remaining : Z) (l : loop)
  : run_result (loop * stop) :=
  match fuel with
  | O => OutOfFuel
  | S fuel' =>
    if i =? pa_limit pa then Finished (l, stop_limit)
    else
      match run sv None (lp_kappa l) (pa_delta pa) (pa_theta pa) (lp_od l) (lp_s l) with
      | None => Aborted
      | Some (remaining, od, s) =>
        let tried := s_x s :: lp_tried l in
        if remaining =? 0 then
          match results obj (s_x s) with
          | None => Aborted
          | Some v => Finished (mk_loop od s (lp_kappa l) (store_value (sv_mode sv) (lp_best l) (s_x s) v) tried, stop_found)
          end
        else
          let '(b, br) := if remaining <? best_remaining
                          then (store_remaining (lp_best l) (s_x s) remaining, remaining)
                          else (lp_best l, best_remaining) in
          let kappa := if pa_w pa <? i then next_kappa pa (sv_m sv) (lp_kappa l) remaining else lp_kappa l in
          if fl_lt fo (pa_kappa_max pa) kappa then Finished (mk_loop od s kappa b tried, stop_kappa)
          else
            let '(out, g) := rg_time_out ro (s_g s) in
            let l' := mk_loop od (with_g s g) kappa b tried in
            if out then Finished (l', stop_time)
            else main_loop fuel' sv pa obj (i + 1) br l'
      end
  end.

(** itm-solver-common.hpp:189-212: [k] iterations left, the current one is [iter] *)
Fixpoint push_inner (k : nat) (sv : solver F) (pa : sparams F) (obj : objective) (iter : Z) (l : loop) : option loop :=
  match k with
  | O => Some l
  | S k' =>
    do (remaining, od, s) <- run sv None (lp_kappa l) (pa_delta pa) (pa_theta pa) (lp_od l) (lp_s l);
    let tried := s_x s :: lp_tried l in
    if remaining =? 0 then
      do v <- results obj (s_x s);
      Some (mk_loop od s (lp_kappa l) (store_value (sv_mode sv) (lp_best l) (s_x s) v) tried)
    else
      let kappa := if pa_w pa <? iter then next_kappa pa (sv_m sv) (lp_kappa l) remaining else lp_kappa l in
      if fl_lt fo (pa_kappa_max pa) kappa then Some (mk_loop od s kappa (lp_best l) tried)
      else
        let '(out, g) := rg_time_out ro (s_g s) in
        let l' := mk_loop od (with_g s g) kappa (lp_best l) tried in
        if out then Some l' else push_inner k' sv pa obj (iter + 1) l'
  end.
(** itm-solver-common.hpp:171-213 *)
Fixpoint push_loop (k : nat) (sv : solver F) (pa : sparams F) (obj : objective) (l : loop) : option loop :=
  match k with
  | O => Some l
  | S k' =>
    do (remaining, od, s) <- run sv (Some (pa_amplifier pa)) (fl_mul fo (pa_pushing_k_factor pa) (lp_kappa l))
                               (pa_delta pa) (pa_theta pa) (lp_od l) (lp_s l);
    let tried := s_x s :: lp_tried l in
    do b <- (if remaining =? 0 then do v <- results obj (s_x s); Some (store_value (sv_mode sv) (lp_best l) (s_x s) v)
             else Some (lp_best l));
    let '(out, g) := rg_time_out ro (s_g s) in
    let l' := mk_loop od (with_g s g) (lp_kappa l) b tried in
    if out then Some l'
    else do l' <- push_inner (Z.to_nat (pa_pushing_iteration_limit pa)) sv pa obj 0 l';
         push_loop k' sv pa obj l'
  end.

(** The status assigned inside the loop (itm-solver-common.hpp:158, 163; none otherwise). *)
Definition stop_status (s : stop) : result_status :=
  match s with
  | stop_kappa => st_kappa_max_reached
  | stop_time => st_time_limit_reached
  | stop_found | stop_limit => st_uninitialized
  end.

(** solver_functor::operator(), itm-solver-common.hpp:63-225: the end status and the loop
    state, from which the result is read. [c0] is Cost::operator[] of the costs, [nc]
    Cost::operator() of the normalised costs. *)
Definition functor_loop (fuel : nat) (sv : solver F) (pa : sparams F) (obj : objective) (s : state F G) (n : nat)
  : run_result (loop * result_status) :=
  match order_init sv (s_x s) (make_order (pa_order pa) n) with
  | None => Aborted
  | Some od =>
    match main_loop fuel sv pa obj 0 int_max (mk_loop od s (pa_kappa_min pa) best0 []) with
    | Aborted => Aborted
    | OutOfFuel => OutOfFuel
    | Finished (l, e) =>
      match e with
      | stop_found =>
        match push_loop (Z.to_nat (pa_pushes_limit pa)) sv pa obj l with
        | None => Aborted
        | Some l => Finished (l, if be_remaining (lp_best l) =? 0 then st_success else stop_status e)
        end
      | _ => Finished (l, if be_remaining (lp_best l) =? 0 then st_success else st_limit_reached)
      end
    end
  end.
(** solver_functor::operator(), itm-solver-common.hpp:63-225 *)
Definition functor (fuel : nat) (cl : solver_class) (cs : list merged) (n : nat) (c0 : nat -> option F)
  (nc : nat -> list bool -> option F) (pa : sparams F) (mode : objective_type) (obj : objective)
  (after : list (rc F)) (g : G) : run_result (loop * result_status) :=
  match make_any_solver cl cs n nc mode after [] g with
  | Ok (sv, s) =>
    match initial_x (pa_init pa) mode c0 cs n (s_g s) with
    | None => Aborted
    | Some (x, g) => functor_loop fuel sv pa obj (mk_state x (s_P s) (s_pi s) (s_R s) g) n
    end
  | _ => Aborted
  end.

(** solve_problem, itm-solver-common.hpp:264-319. [m_best.x] is empty when nothing was
    stored. The field remaining_constraints of the result keeps its initial value. The
    exception of make_merged_constraints leaves the function ([Throw]). *)
Definition solve_problem (fuel : nat) (ddiv : Z -> Z -> Z) (po : pre_order) (cl : solver_class) (pb : problem)
  (c0 : nat -> option F) (nc : nat -> list bool -> option F) (pa : sparams F) (after : list (rc F)) (g : G)
  : run_result (outcome sresult) :=
  let n := length (v_values (p_vars pb)) in
  match make_merged std_sort ddiv po pb with
  | Throw => Finished Throw
  | Crash => Aborted
  | Ok cs =>
    let finish st sols := Finished (Ok (mk_sresult st sols int_max (v_names (p_vars pb)) (p_affected pb) n (length cs))) in
    if negb (is_nil cs) && negb (is_nil (v_values (p_vars pb))) then
      match functor fuel cl cs n c0 nc pa (p_type pb) (p_objective pb) after g with
      | OutOfFuel => OutOfFuel
      | Aborted => Aborted
      | Finished (l, st) =>
        finish st (if is_nil (be_x (lp_best l)) then [] else [(be_x (lp_best l), be_value (lp_best l))])
      end
    else finish st_success [([], Some (o_value (p_objective pb)))]
  end.
End Solver.
