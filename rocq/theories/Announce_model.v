(** The parameters that the tool prints when a solver starts: solver_started_cb (app/src/main.cpp:64-147) and the names
    of the values of the enumerations (lib/include/baryonyx/core-out). *)
From Coq Require Import Ascii String QArith.
From Verif Require Import Base Problem_model Merged_model Solver_model Params_model Writer_model Cli_model.
Open Scope string_scope.
Open Scope list_scope.
Open Scope Z_scope.

(** core-out:158-215 *)
Definition pre_order_name (a : pre_order) : string :=
  match a with
  | po_none => "none" | po_memory => "memory" | po_less_greater_equal => "less-greater-equal" | po_less_equal_greater => "less-equal-greater"
  | po_greater_less_equal => "greater-less-equal" | po_greater_equal_less => "greater-equal-less" | po_equal_less_greater => "equal-less-greater"
  | po_equal_greater_less => "equal-greater-less" | po_p1 => "p1" | po_p2 => "p2" | po_p3 => "p3" | po_p4 => "p4"
  end.
(** core-out:217-241 *)
Definition init_policy_name (a : init_policy) : string :=
  match a with ip_bastert => "bastert" | ip_pessimistic_solve => "pessimistic-solve" | ip_optimistic_solve => "optimistic-solve" end.
(** core-out:243-267 *)
Definition float_type_name (a : float_type) : string := match a with ft_float => "float" | ft_double => "double" | ft_longdouble => "longdouble" end.
(** core-out:269-311 *)
Definition order_name (a : constraint_order) : string :=
  match a with
  | co_none => "none" | co_reversing => "reversing" | co_random_sorting => "random-sorting" | co_infeasibility_decr => "infeasibility-decr"
  | co_infeasibility_incr => "infeasibility-incr" | co_lagrangian_decr => "lagrangian-decr" | co_lagrangian_incr => "lagrangian-incr"
  | co_pi_sign_change => "pi-sign-change" | co_cycle => "cycle"
  end.
(** core-out:313-343 *)
Definition cost_norm_name (a : cost_norm) : string :=
  match a with cn_none => "none" | cn_random => "random" | cn_l1 => "l1" | cn_l2 => "l2" | cn_loo => "loo" end.
(** core-out:345-383, on the modes that the command line can set *)
Definition mode_name (a : opt_mode) : string :=
  match a with
  | om_branch => "branch" | om_manual_branch => "manual-and-branch" | om_nlopt_branch => "nlopt-and-branch"
  | om_manual => "manual" | om_nlopt => "nlopt" | om_none => "disabled"
  end.
(** core-out:408-432 *)
Definition observer_name (a : observer_opt) : string := match a with ob_none => "none" | ob_pnm => "pnm" | ob_file => "file" end.
(** core-out:456-480 *)
Definition storage_name (a : storage_opt) : string := match a with sg_one => "one" | sg_bound => "bound" | sg_five => "five" end.

Section Started.
(** What fmt::print writes for a double with the format {:.10g}, and with the format {}. *)
Variables (show_g show_d : dbl -> text).
(** One line of the output. *)
Definition announced (name : string) (v : text) : text := str "  - " ++ str name ++ str ": " ++ v.
(** main.cpp:64-147: the lines printed, without the ends of lines. *)
Definition started (p : params) : list text :=
  [ str "Solver starts"; str " * Global parameters:";
    announced "limit" (show_int (pm_limit p));
    announced "time-limit" (show_g (pm_time_limit p) ++ str "s");
    announced "floating-point-type" (str (float_type_name (pm_float_type p)));
    announced "print-level" (show_int (pm_print_level p));
    announced "auto-tune" (str (mode_name (pm_mode p)));
    announced "observation" (str (observer_name (pm_observer p))) ] ++
  match pm_solver p with
  | so_bastert =>
    [ str " * In The Middle parameters:";
      announced "preprocessing" (str (pre_order_name (pm_pre_order p)));
      announced "constraint-order" (str (order_name (pm_order p)));
      announced "theta" (show_g (pm_theta p));
      announced "delta" (show_g (pm_delta p));
      announced "kappa" (show_g (pm_kappa_min p) ++ str " " ++ show_g (pm_kappa_step p) ++ str " " ++ show_g (pm_kappa_max p));
      announced "alpha" (show_g (pm_alpha p));
      announced "w" (show_g (pm_w p));
      announced "norm" (str (cost_norm_name (pm_cost_norm p)));
      str " * Pushes system parameters:";
      announced "pushes-limit" (show_int (pm_pushes_limit p));
      announced "pushing-objective-amplifier" (show_g (pm_pushing_objective_amplifier p));
      announced "pushing-iteration-limit" (show_int (pm_pushing_iteration_limit p));
      announced "pushing-k-factor" (show_g (pm_pushing_k_factor p));
      str " * Solver initialization parameters:";
      announced "init-policy" (str (init_policy_name (pm_init_policy p)));
      announced "init-policy-random" (show_d (pm_init_policy_random p));
      str " * Optimizer initialization parameters:";
      announced "init-population-size" (show_int (pm_population_size p));
      announced "init-crossover-bastert-insertion" (show_d (pm_crossover_bastert p));
      announced "init-crossover-solution-selection-mean" (show_d (pm_crossover_mean p));
      announced "init-crossover-solution-selection-stddev" (show_d (pm_crossover_stddev p));
      announced "init-mutation-variable-mean" (show_d (pm_mutation_variable_mean p));
      announced "init-mutation-variable-stddev" (show_d (pm_mutation_variable_stddev p));
      announced "init-mutation-value-mean" (show_d (pm_mutation_value_mean p));
      announced "init-mutation-value-stddev" (show_d (pm_mutation_value_stddev p));
      announced "init-kappa-improve-start" (show_d (pm_improve_start p));
      announced "init-kappa-improve-increase" (show_d (pm_improve_increase p));
      announced "init-kappa-improve-stop" (show_d (pm_improve_stop p)) ]
  | so_random => [ str " * Random solvers:"; announced "random" (str "bernouilli with p=0.5") ]
  end.
End Started.
