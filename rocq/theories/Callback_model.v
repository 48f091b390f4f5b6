(** The functions given to context_register (lib/src/lpcore.cpp:58-70) and when solve() and optimize() call them; what
    the functions of the tool print (app/src/main.cpp:149-235). The duration and the number of calls given to the function of the
    updates are left out, and so are optimize() with nlopt or branch. *)
From Coq Require Import String.
From Verif Require Import Base Problem_model Merged_model Classify_model Preprocess_model Validate_model Params_model
  Rows_model Solver_model Pool_model Pool_spec EndToEnd_model Optimize_model Writer_model.
Open Scope string_scope.
Open Scope list_scope.
Open Scope Z_scope.

(** One call; the arguments: core:750-761. *)
Inductive call := C_start | C_update (remaining value loop : Z) | C_finish (r : sresult).
(** private.hpp:78-80: which of the three functions are not empty *)
Record registered := mk_registered { reg_start : bool; reg_update : bool; reg_finish : bool }.
(** if (ctx.f) ctx.f(...) *)
Definition on (b : bool) (c : call) : list call := if b then [c] else [].

Section Calls.
Variable reg : registered.
(** itm-solver-common.hpp:264-319, solve_problem: [run] is what its body computes. *)
Definition solver_calls (run : run_result (outcome sresult)) : run_result (list call * outcome sresult) :=
  match run with
  | Finished (Ok r) => Finished (on (reg_start reg) C_start ++ on (reg_finish reg) (C_finish r), Ok r)
  | Finished Throw => Finished (on (reg_start reg) C_start, Throw)
  | Finished Crash => Finished (on (reg_start reg) C_start, Crash)
  | Aborted => Aborted
  | OutOfFuel => OutOfFuel
  end.

Section Solve.
Context {F G : Type} (fo : fops F) (ro : rops G)
        (std_sort : forall A : Type, (A -> A -> bool) -> list A -> list A) (ddiv : Z -> Z -> Z).
Variable random_optimizer : problem -> run_result (list call * outcome sresult).
Variable raw_costs : problem -> nat -> option F.
Variable norm_costs : problem -> nat -> list bool -> option F.
(** itm.hpp:94-138 *)
Definition itm_solve_calls (fuel : nat) (random buffered : bool) (po : pre_order) (pa : sparams F) (after : list (rc F)) (g : G)
  (pb : problem) : run_result (list call * outcome sresult) :=
  if negb random then
    let cl := if buffered then S_equalities_01 else dispatch (p_problem_type pb) in
    solver_calls (solve_problem fo ro std_sort fuel ddiv po cl pb (raw_costs pb) (norm_costs pb) pa after g)
  else
    match p_problem_type pb with
    | equalities_Z | inequalities_Z => Finished ([], Ok (failed_result st_internal_error))
    | equalities_01 | equalities_101 =>
      solver_calls (solve_problem fo ro std_sort fuel ddiv po S_random pb (raw_costs pb) (norm_costs pb) pa after g)
    | inequalities_01 | inequalities_101 => random_optimizer pb
    end.
(** lpcore.cpp:88-98 *)
Definition user_solve_calls (pfuel fuel : nat) (pp : preprocessor_opt) (random buffered : bool) (po : pre_order) (pa : sparams F)
  (after : list (rc F)) (g : G) (pb : problem) : run_result (list call * outcome sresult) :=
  match pp with
  | pp_all =>
    match preprocess pfuel pb with
    | Ok (Some q) => itm_solve_calls fuel random buffered po pa after g q
    | Ok None => OutOfFuel
    | Throw => Finished ([], Throw)
    | Crash => Aborted
    end
  | pp_none => itm_solve_calls fuel random buffered po pa after g (unpreprocess pb)
  end.
End Solve.

Section Optimize.
Context {F G : Type} (fo : fops F) (ro : rops G)
        (std_sort : forall A : Type, (A -> A -> bool) -> list A -> list A) (ddiv : Z -> Z -> Z)
        (hash : list bool -> Z) (hardware : nat).
Variable Q : sys F G -> Prop.
(** itm-optimizer-common.hpp:833-866: the threads run, and the main thread reads the first entry of the pool (340-352) and calls
    the function, some number of times; then the threads run until they have returned. The fields of the entry are read at once. *)
Inductive updates (stp : sys F G -> sys F G -> Prop) : sys F G -> list call -> sys F G -> Prop :=
| up_end s s' : steps stp Q s s' -> updates stp s [] s'
| up_call s s1 e calls s' : steps stp Q s s1 -> get_best (sy_pool s1) 0 = Some e -> updates stp s1 calls s' ->
    updates stp s (on (reg_update reg) (C_update (e_remaining e) (e_value e) (e_loop e)) ++ calls) s'.
(** optimize_problem, itm-optimizer-common.hpp:776-914, for a solver class. *)
Inductive optimize_problem_calls (c : octx F) (cl : solver_class) (pb : problem) : list call -> outcome sresult -> Prop :=
| oc_throw : make_merged std_sort ddiv (oc_po c) pb = Throw -> optimize_problem_calls c cl pb (on (reg_start reg) C_start) Throw
(** 785-793: the function returns without a call of finish. *)
| oc_empty cs : make_merged std_sort ddiv (oc_po c) pb = Ok cs -> is_nil cs || is_nil (v_values (p_vars pb)) = true ->
    optimize_problem_calls c cl pb (on (reg_start reg) C_start)
      (Ok (mk_sresult st_success [([], Some (o_value (p_objective pb)))] int_max (v_names (p_vars pb)) (p_affected pb) 0 0))
| oc_run cs size g g' p0 ws s r calls : let n := length (v_values (p_vars pb)) in
    make_merged std_sort ddiv (oc_po c) pb = Ok cs -> is_nil cs || is_nil (v_values (p_vars pb)) = false ->
    Z.of_nat size = oc_population c ->
    make_storage fo ro std_sort hash (p_type pb) (p_objective pb) cs size n g = Some (p0, g') ->
    length ws = get_thread_number hardware (oc_thread c) ->
    (forall w, In w ws -> starts fo (oc_op c) cl cs n (p_type pb) w) ->
    updates (step fo ro std_sort hash (p_type pb) (p_objective pb) (oc_op c)) (mk_sys p0 ws) calls s -> returned s ->
    final_result (op_storage (oc_op c)) n (length cs) (sy_pool s) = Some r ->
    let result := mk_sresult (or_status r) (map (fun y => (fst y, Some (snd y))) (or_solutions r)) (or_remaining r)
                    (v_names (p_vars pb)) (p_affected pb) (or_variables r) (or_constraints r) in
    optimize_problem_calls c cl pb (on (reg_start reg) C_start ++ calls ++ on (reg_finish reg) (C_finish result)) (Ok result).
(** itm::optimize, itm.hpp:155-203 *)
Inductive itm_optimize_calls (c : octx F) (pb : problem) : list call -> outcome sresult -> Prop :=
| ic_bastert calls r : oc_random c = false ->
    optimize_problem_calls c (if oc_buffered c then S_equalities_01 else dispatch (p_problem_type pb)) pb calls r -> itm_optimize_calls c pb calls r
| ic_random_Z : oc_random c = true -> p_problem_type pb = equalities_Z \/ p_problem_type pb = inequalities_Z ->
    itm_optimize_calls c pb [] (Ok (failed_result st_internal_error))
| ic_random_eq fuel c0 nc after g calls r : oc_random c = true ->
    p_problem_type pb = equalities_01 \/ p_problem_type pb = equalities_101 ->
    solver_calls (solve_problem fo ro std_sort fuel ddiv (oc_po c) S_random pb c0 nc (op_s (oc_op c)) after g) = Finished (calls, r) ->
    itm_optimize_calls c pb calls r
| ic_random_ineq calls r : oc_random c = true -> p_problem_type pb = inequalities_01 \/ p_problem_type pb = inequalities_101 ->
    optimize_problem_calls c S_random pb calls r -> itm_optimize_calls c pb calls r.
(** manual-optimizer.cpp:128-160: [k] runs that return a result, one after the other. The copy of the context has the functions too. *)
Inductive runs (c : octx F) (pb : problem) : nat -> list call -> Prop :=
| ru_nil : runs c pb 0 []
| ru_next k p before calls r : runs c pb k before -> retuned (op_s (oc_op c)) p -> itm_optimize_calls (with_params c p) pb calls (Ok r) ->
    runs c pb (S k) (before ++ calls).
(** manual_optimize, manual-optimizer.cpp:113-174: the 5 * 5 * 5 * 5 * 5 runs of the loop (C47) and the last run; an exception of a run leaves the function. *)
Inductive manual_calls (c : octx F) (pb : problem) : list call -> outcome sresult -> Prop :=
| mc_run before p calls r : runs c pb (5 * 5 * 5 * 5 * 5) before -> retuned (op_s (oc_op c)) p -> itm_optimize_calls (with_params c p) pb calls r ->
    manual_calls c pb (before ++ calls) r
| mc_throw k before p calls : (k < 5 * 5 * 5 * 5 * 5)%nat -> runs c pb k before -> retuned (op_s (oc_op c)) p ->
    itm_optimize_calls (with_params c p) pb calls Throw -> manual_calls c pb (before ++ calls) Throw.
(** optimize, lpcore.cpp:100-134, without nlopt and branch: [manual] is the bit of the mode. *)
Inductive user_optimize_calls (manual : bool) (c : octx F) (pb : problem) : list call -> outcome sresult -> Prop :=
| uc_preprocessed pfuel q calls r : oc_pp c = pp_all -> preprocess pfuel pb = Ok (Some q) ->
    (if manual then manual_calls c q calls r else itm_optimize_calls c q calls r) -> user_optimize_calls manual c pb calls r
| uc_throw pfuel : oc_pp c = pp_all -> preprocess pfuel pb = Throw -> user_optimize_calls manual c pb [] Throw
| uc_unpreprocessed calls r : oc_pp c = pp_none ->
    (if manual then manual_calls c (unpreprocess pb) calls r else itm_optimize_calls c (unpreprocess pb) calls r) -> user_optimize_calls manual c pb calls r.
End Optimize.
End Calls.

(** ** The functions of the tool *)
Section Tool.
(** fmt with the formats {:f} and {:.10g}, on a value of the model *)
Variables (show_f show_g : Z -> text).
(** core-out / fmt of a double: the durations *)
Variables (duration : text).
(** solver_updated_cb, main.cpp:149-178; [reinit]: the number of calls *)
Definition updated_line (remaining value loop reinit : Z) : text :=
  let tail l := str " (loop: " ++ show_int l ++ str " t: " ++ duration ++ str "s reinit: " ++ show_int reinit ++ str ")" in
  if 0 <? remaining then str "  - Constraints remaining: " ++ show_int remaining ++ tail loop
  else if 0 <=? loop then str "  - Solution found: " ++ show_f value ++ tail loop
  else str "  - Solution found via push: " ++ show_f value ++ tail (- loop).
(** The value of the last solution, r.solutions.back().value; None: there is no solution. *)
Definition last_value (r : sresult) : option (list bool * option Z) := match rev (sr_solutions r) with [] => None | s :: _ => Some s end.
(** solver_finished_cb, main.cpp:180-235; [loop]: r.loop. A value that does not exist is written as nothing. *)
Definition finished_lines (loop : Z) (r : sresult) : list text :=
  let shown v := match v with Some v => show_g v | None => [] end in
  str "Solver finished" ::
  match sr_status r with
  | st_success =>
    match last_value r with
    | None => []
    | Some ([], v) => [str "Best solution found via preprocessor: " ++ shown v ++ str " in " ++ duration ++ str "s"]
    | Some (_, v) =>
      if 0 <=? loop then [str "Best solution found: " ++ shown v ++ str " in " ++ show_int loop ++ str " loop and " ++ duration ++ str "s"]
      else [str "Best solution found via push: " ++ shown v ++ str " in " ++ show_int (- loop) ++ str " loop and " ++ duration ++ str "s"]
    end
  | st_internal_error => [str "No solution. Internal error"]
  | st_uninitialized => [str "No solution. Uninitialized error"]
  | st_kappa_max_reached => [str "No solution. Constraint remaining: " ++ show_int (sr_remaining r) ++ str ". Kappa reached in " ++ duration ++ str "s."]
  | st_time_limit_reached => [str "No solution. Constraint remaining: " ++ show_int (sr_remaining r) ++ str ". Time limit reached at " ++ duration ++ str "s."]
  | st_limit_reached => [str "No solution. Constraint remaining: " ++ show_int (sr_remaining r) ++ str ". Loop limit reached in " ++ duration ++ str "s."]
  | st_empty_context => [str "Context uninitialized"]
  end.
End Tool.
