(** Model of the R package: rbaryonyx/src/rbaryonyx.cpp. *)
From Coq Require Import QArith.
From Verif Require Import Base Problem_model Merged_model Params_model Validate_model Lexer_model Parser_model Rows_model Solver_model
  Pool_model EndToEnd_model Main_model Optimize_model.
Open Scope Z_scope.

(** get_pre_constraint_order, 116-147 *)
Definition get_pre_constraint_order (prep : Z) : pre_order :=
  match prep with
  | 0 => po_none
  | 2 => po_less_greater_equal
  | 3 => po_less_equal_greater
  | 4 => po_greater_less_equal
  | 5 => po_greater_equal_less
  | 6 => po_equal_less_greater
  | 7 => po_equal_greater_less
  | 8 => po_p1
  | 9 => po_p2
  | 10 => po_p3
  | 11 => po_p4
  | _ => po_memory
  end.
(** get_constrait_order, 149-174 *)
Definition get_constrait_order (order : Z) : constraint_order :=
  match order with
  | 1 => co_reversing
  | 2 => co_random_sorting
  | 3 => co_infeasibility_decr
  | 4 => co_infeasibility_incr
  | 5 => co_lagrangian_decr
  | 6 => co_lagrangian_incr
  | 7 => co_pi_sign_change
  | 8 => co_cycle
  | _ => co_none
  end.
(** get_cost_norm, 176-193 *)
Definition get_cost_norm (norm : Z) : cost_norm :=
  match norm with
  | 0 => cn_none
  | 1 => cn_random
  | 2 => cn_l1
  | 3 => cn_l2
  | _ => cn_loo
  end.
(** get_init_policy, 195-210 *)
Definition get_init_policy (type : Z) : init_policy :=
  match type with
  | 0 => ip_bastert
  | 1 => ip_pessimistic_solve
  | 2 => ip_optimistic_solve
  | _ => ip_bastert
  end.
(** get_floating_point_type, 212-225 *)
Definition get_floating_point_type (type : Z) : float_type :=
  match type with
  | 0 => ft_float
  | 2 => ft_longdouble
  | _ => ft_double
  end.
(** get_storage_type, 227-240 *)
Definition get_storage_type (type : Z) : storage_opt :=
  match type with
  | 1 => sg_bound
  | 2 => sg_five
  | _ => sg_one
  end.

(** The arguments of solve_01lp_problem, 369-392, and those that only optimize_01lp_problem has, 539-548; [verbose] only
    changes the messages. *)
Record r_args := mk_args {
  ra_limit : Z; ra_theta : dbl; ra_delta : dbl; ra_pre_constraint_order : Z; ra_constraint_order : Z;
  ra_kappa_min : dbl; ra_kappa_step : dbl; ra_kappa_max : dbl; ra_alpha : dbl; ra_w : dbl; ra_time_limit : dbl;
  ra_seed : Z; ra_thread : Z; ra_norm : Z; ra_pushing_k_factor : dbl; ra_pushing_objective_amplifier : dbl;
  ra_pushes_limit : Z; ra_pushing_iteration_limit : Z; ra_init_policy : Z; ra_init_policy_random : dbl;
  ra_float_type : Z; ra_storage_type : Z }.
(** 539-548 *)
Record r_opt_args := mk_opt_args {
  ro_bastert_insertion : dbl; ro_crossover_mean : dbl; ro_crossover_stddev : dbl; ro_variable_mean : dbl; ro_variable_stddev : dbl;
  ro_value_mean : dbl; ro_value_stddev : dbl; ro_improve_start : dbl; ro_improve_increase : dbl; ro_improve_stop : dbl }.
(** The values used for the arguments that are not given, 369-392 *)
Definition default_args : r_args :=
  mk_args 1000 (Fin (1 # 2)) (dofZ (-1)) 1 0 (dofZ 0) (Fin (1 # 1000)) (Fin (6 # 10)) (dofZ 1) (Fin (5 # 100)) (dofZ 10)
    (-1) 1 4 (Fin (9 # 10)) (dofZ 5) 100 50 0 (Fin (1 # 2)) 1 1.
(** 520-551 *)
Definition default_opt_args : r_opt_args :=
  mk_opt_args (Fin (1 # 100)) (dofZ 0) (Fin (3 # 10)) (Fin (1 # 10000)) (Fin (1 # 1000)) (Fin (1 # 2)) (Fin (2 # 10)) (dofZ 0) (Fin (2 # 100)) (Fin (2 # 10)).

(** The conversion of an int into an unsigned int: params.seed = seed, 419 and 591. *)
Definition to_unsigned (z : Z) : Z := z mod 2 ^ 32.
(** The parameters given to the context by solve_01lp_problem, 407-430: the others keep their initial values. *)
Definition solve_params (a : r_args) : params :=
  let d := default_params in
  mk_params (ra_time_limit a) (ra_theta a) (ra_delta a) (ra_kappa_min a) (ra_kappa_step a) (ra_kappa_max a) (ra_alpha a)
    (ra_pushing_k_factor a) (ra_pushing_objective_amplifier a) (ra_init_policy_random a)
    (pm_crossover_bastert d) (pm_crossover_mean d) (pm_crossover_stddev d)
    (pm_mutation_variable_mean d) (pm_mutation_variable_stddev d) (pm_mutation_value_mean d) (pm_mutation_value_stddev d)
    (pm_improve_start d) (pm_improve_increase d) (pm_improve_stop d)
    (ra_w a) (to_unsigned (ra_seed a)) (ra_thread a) (ra_limit a) (pm_print_level d) (ra_pushes_limit a) (ra_pushing_iteration_limit a)
    (pm_population_size d)
    (get_pre_constraint_order (ra_pre_constraint_order a)) (get_constrait_order (ra_constraint_order a))
    (get_floating_point_type (ra_float_type a)) (get_init_policy (ra_init_policy a)) (get_cost_norm (ra_norm a)) (pm_mode d)
    (pm_preprocessor d) (pm_observer d) (get_storage_type (ra_storage_type a)) (pm_solver d) (pm_debug d).
(** The same for optimize_01lp_problem, 565-601; the arguments init_policy and init_policy_random do not exist. *)
Definition optimize_params (a : r_args) (o : r_opt_args) : params :=
  let d := default_params in
  mk_params (ra_time_limit a) (ra_theta a) (ra_delta a) (ra_kappa_min a) (ra_kappa_step a) (ra_kappa_max a) (ra_alpha a)
    (ra_pushing_k_factor a) (ra_pushing_objective_amplifier a) (pm_init_policy_random d)
    (ro_bastert_insertion o) (ro_crossover_mean o) (ro_crossover_stddev o)
    (ro_variable_mean o) (ro_variable_stddev o) (ro_value_mean o) (ro_value_stddev o)
    (ro_improve_start o) (ro_improve_increase o) (ro_improve_stop o)
    (ra_w a) (to_unsigned (ra_seed a)) (ra_thread a) (ra_limit a) (pm_print_level d) (ra_pushes_limit a) (ra_pushing_iteration_limit a)
    (pm_population_size d)
    (get_pre_constraint_order (ra_pre_constraint_order a)) (get_constrait_order (ra_constraint_order a))
    (get_floating_point_type (ra_float_type a)) (pm_init_policy d) (get_cost_norm (ra_norm a)) (pm_mode d)
    (pm_preprocessor d) (pm_observer d) (get_storage_type (ra_storage_type a)) (pm_solver d) (pm_debug d).
(** The parameters in force: context_set_solver_parameters, 432 and 603 *)
Definition in_force (p : params) : params := set_params default_params p.

(** The list returned, 280-288; the duration is not modelled. A value [None] is one that is not finite (Solver_model). *)
Record r_list := mk_list {
  rl_solution_found : bool; rl_error_found : bool; rl_value : option Z; rl_variables : nat; rl_constraints : nat;
  rl_remaining : Z; rl_minimize : bool; rl_solutions : list (option Z) }.
(** convert_result, 242-289; solutions.back() of an empty list is undefined. *)
Definition convert_result (r : sresult) (minimize : bool) : option r_list :=
  let make solution error value :=
    mk_list solution error value (sr_variables r) (sr_constraints r) (sr_remaining r) minimize (map snd (sr_solutions r)) in
  match sr_status r with
  | st_success => do (_, v) <- last_solution r; Some (make true false v)
  | st_internal_error => Some (make false true (Some 0))
  | _ => Some (make false false (Some 0))
  end.

(** The body common to solve_01lp_problem and optimize_01lp_problem, 394-447 and 552-618. [run]: solve or optimize for the
    parameters in force, with each outcome they may have. make_problem returns a problem without any constraint or
    variable when the file cannot be read (lpcore.cpp:71-86); its status is not looked at. *)
Section RCall.
Context {D : Type} (dn : dops D) (cost : D -> Z).
Variable fs : text -> option text.
(** 405 and 563 *)
Definition is_minimize (t : objective_type) : bool := match t with minimize => true | maximize => false end.
(** baryonyx::make_problem, lpcore.cpp:71-86, called at 403 and 561 *)
Definition problem_read (fuel : nat) (file : text) : pres problem :=
  match read_file dn fs fuel file with
  | P_ok (Some p) => P_ok (to_problem cost p)
  | P_ok None => P_ok (to_problem cost (empty_problem dn))
  | P_error e => P_error e
  | P_abort => P_abort
  | P_running => P_running
  end.
(** 394-447, 552-618. [fuel]: for the parser. *)
Inductive r_call (run : problem -> outcome sresult -> Prop) (fuel : nat) (file : text) : r_list -> Prop :=
| rc_return pb r l : problem_read fuel file = P_ok pb -> run pb (Ok r) ->
    convert_result r (is_minimize (p_type pb)) = Some l -> r_call run fuel file l
| rc_catch pb l : problem_read fuel file = P_ok pb -> run pb Throw ->
    convert_result (failed_result st_internal_error) (is_minimize (p_type pb)) = Some l -> r_call run fuel file l.
End RCall.

(** solve(), 434, with the parameters [p] in force, the method of the context being the default one (399). What the numbers
    among the parameters, the normalised costs and the random numbers are is left open. *)
Section Runs.
Context {F G : Type} (fo : fops F) (ro : rops G)
        (std_sort : forall A : Type, (A -> A -> bool) -> list A -> list A) (ddiv : Z -> Z -> Z)
        (hash : list bool -> Z) (hardware : nat).
(** core:359-402, solver_type *)
Definition is_random (s : solver_opt) : bool := match s with so_random => true | so_bastert => false end.
(** 432-434 *)
Inductive solve_with (p : params) (pb : problem) (o : outcome sresult) : Prop :=
| sw_run random_optimizer raw_costs norm_costs pfuel fuel pa after g :
    user_solve fo ro std_sort ddiv random_optimizer raw_costs norm_costs pfuel fuel (pm_preprocessor p) (is_random (pm_solver p)) false
      (pm_pre_order p) pa after g pb = Finished o -> solve_with p pb o.
(** The bits of mode_type, core:359-402 *)
Definition mode_bits (m : opt_mode) : Z :=
  match m with om_none => 0 | om_manual => 1 | om_nlopt => 2 | om_branch => 4 | om_manual_branch => 5 | om_nlopt_branch => 6 end.
(** core:359-402, storage_type *)
Definition storage_of (s : storage_opt) : storage_type := match s with sg_one => sto_one | sg_bound => sto_bound | sg_five => sto_five end.
(** 603-605, optimize() for the parameters [p], for every schedule of the threads. *)
Inductive optimize_with {D} (lib : option (library D)) (p : params) (pb : problem) (o : outcome sresult) : Prop :=
| ow_run op : op_storage op = storage_of (pm_storage p) ->
    user_optimize fo ro std_sort ddiv hash hardware (fun _ => True) lib
      (mk_octx (mode_bits (pm_mode p)) (pm_preprocessor p) (is_random (pm_solver p)) false (pm_pre_order p) op (pm_thread p) (pm_population_size p))
      pb o -> optimize_with lib p pb o.
End Runs.
