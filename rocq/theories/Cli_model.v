(** Model of the command line of the program: app/src/main.cpp:241-1008 and app/src/main.hpp:51-142. *)
From Coq Require Import Ascii String QArith.
From Verif Require Import Base Problem_model Merged_model Solver_model Params_model.
Open Scope string_scope.
Open Scope list_scope.
Open Scope Z_scope.

(** The assignments of the fields of solver_parameters (core:410-461). *)
Definition set_time_limit (v : dbl) (p : params) : params := mk_params v (pm_theta p) (pm_delta p) (pm_kappa_min p) (pm_kappa_step p) (pm_kappa_max p) (pm_alpha p) (pm_pushing_k_factor p) (pm_pushing_objective_amplifier p) (pm_init_policy_random p) (pm_crossover_bastert p) (pm_crossover_mean p) (pm_crossover_stddev p) (pm_mutation_variable_mean p) (pm_mutation_variable_stddev p) (pm_mutation_value_mean p) (pm_mutation_value_stddev p) (pm_improve_start p) (pm_improve_increase p) (pm_improve_stop p) (pm_w p) (pm_seed p) (pm_thread p) (pm_limit p) (pm_print_level p) (pm_pushes_limit p) (pm_pushing_iteration_limit p) (pm_population_size p) (pm_pre_order p) (pm_order p) (pm_float_type p) (pm_init_policy p) (pm_cost_norm p) (pm_mode p) (pm_preprocessor p) (pm_observer p) (pm_storage p) (pm_solver p) (pm_debug p).
(** Assignment of the field theta of solver_parameters (core:410-461). *)
Definition set_theta (v : dbl) (p : params) : params := mk_params (pm_time_limit p) v (pm_delta p) (pm_kappa_min p) (pm_kappa_step p) (pm_kappa_max p) (pm_alpha p) (pm_pushing_k_factor p) (pm_pushing_objective_amplifier p) (pm_init_policy_random p) (pm_crossover_bastert p) (pm_crossover_mean p) (pm_crossover_stddev p) (pm_mutation_variable_mean p) (pm_mutation_variable_stddev p) (pm_mutation_value_mean p) (pm_mutation_value_stddev p) (pm_improve_start p) (pm_improve_increase p) (pm_improve_stop p) (pm_w p) (pm_seed p) (pm_thread p) (pm_limit p) (pm_print_level p) (pm_pushes_limit p) (pm_pushing_iteration_limit p) (pm_population_size p) (pm_pre_order p) (pm_order p) (pm_float_type p) (pm_init_policy p) (pm_cost_norm p) (pm_mode p) (pm_preprocessor p) (pm_observer p) (pm_storage p) (pm_solver p) (pm_debug p).
(** Assignment of the field delta of solver_parameters (core:410-461). *)
Definition set_delta (v : dbl) (p : params) : params := mk_params (pm_time_limit p) (pm_theta p) v (pm_kappa_min p) (pm_kappa_step p) (pm_kappa_max p) (pm_alpha p) (pm_pushing_k_factor p) (pm_pushing_objective_amplifier p) (pm_init_policy_random p) (pm_crossover_bastert p) (pm_crossover_mean p) (pm_crossover_stddev p) (pm_mutation_variable_mean p) (pm_mutation_variable_stddev p) (pm_mutation_value_mean p) (pm_mutation_value_stddev p) (pm_improve_start p) (pm_improve_increase p) (pm_improve_stop p) (pm_w p) (pm_seed p) (pm_thread p) (pm_limit p) (pm_print_level p) (pm_pushes_limit p) (pm_pushing_iteration_limit p) (pm_population_size p) (pm_pre_order p) (pm_order p) (pm_float_type p) (pm_init_policy p) (pm_cost_norm p) (pm_mode p) (pm_preprocessor p) (pm_observer p) (pm_storage p) (pm_solver p) (pm_debug p).
(** Assignment of the field kappa_min of solver_parameters (core:410-461). *)
Definition set_kappa_min (v : dbl) (p : params) : params := mk_params (pm_time_limit p) (pm_theta p) (pm_delta p) v (pm_kappa_step p) (pm_kappa_max p) (pm_alpha p) (pm_pushing_k_factor p) (pm_pushing_objective_amplifier p) (pm_init_policy_random p) (pm_crossover_bastert p) (pm_crossover_mean p) (pm_crossover_stddev p) (pm_mutation_variable_mean p) (pm_mutation_variable_stddev p) (pm_mutation_value_mean p) (pm_mutation_value_stddev p) (pm_improve_start p) (pm_improve_increase p) (pm_improve_stop p) (pm_w p) (pm_seed p) (pm_thread p) (pm_limit p) (pm_print_level p) (pm_pushes_limit p) (pm_pushing_iteration_limit p) (pm_population_size p) (pm_pre_order p) (pm_order p) (pm_float_type p) (pm_init_policy p) (pm_cost_norm p) (pm_mode p) (pm_preprocessor p) (pm_observer p) (pm_storage p) (pm_solver p) (pm_debug p).
(** Assignment of the field kappa_step of solver_parameters (core:410-461). *)
Definition set_kappa_step (v : dbl) (p : params) : params := mk_params (pm_time_limit p) (pm_theta p) (pm_delta p) (pm_kappa_min p) v (pm_kappa_max p) (pm_alpha p) (pm_pushing_k_factor p) (pm_pushing_objective_amplifier p) (pm_init_policy_random p) (pm_crossover_bastert p) (pm_crossover_mean p) (pm_crossover_stddev p) (pm_mutation_variable_mean p) (pm_mutation_variable_stddev p) (pm_mutation_value_mean p) (pm_mutation_value_stddev p) (pm_improve_start p) (pm_improve_increase p) (pm_improve_stop p) (pm_w p) (pm_seed p) (pm_thread p) (pm_limit p) (pm_print_level p) (pm_pushes_limit p) (pm_pushing_iteration_limit p) (pm_population_size p) (pm_pre_order p) (pm_order p) (pm_float_type p) (pm_init_policy p) (pm_cost_norm p) (pm_mode p) (pm_preprocessor p) (pm_observer p) (pm_storage p) (pm_solver p) (pm_debug p).
(** Assignment of the field kappa_max of solver_parameters (core:410-461). *)
Definition set_kappa_max (v : dbl) (p : params) : params := mk_params (pm_time_limit p) (pm_theta p) (pm_delta p) (pm_kappa_min p) (pm_kappa_step p) v (pm_alpha p) (pm_pushing_k_factor p) (pm_pushing_objective_amplifier p) (pm_init_policy_random p) (pm_crossover_bastert p) (pm_crossover_mean p) (pm_crossover_stddev p) (pm_mutation_variable_mean p) (pm_mutation_variable_stddev p) (pm_mutation_value_mean p) (pm_mutation_value_stddev p) (pm_improve_start p) (pm_improve_increase p) (pm_improve_stop p) (pm_w p) (pm_seed p) (pm_thread p) (pm_limit p) (pm_print_level p) (pm_pushes_limit p) (pm_pushing_iteration_limit p) (pm_population_size p) (pm_pre_order p) (pm_order p) (pm_float_type p) (pm_init_policy p) (pm_cost_norm p) (pm_mode p) (pm_preprocessor p) (pm_observer p) (pm_storage p) (pm_solver p) (pm_debug p).
(** Assignment of the field alpha of solver_parameters (core:410-461). *)
Definition set_alpha (v : dbl) (p : params) : params := mk_params (pm_time_limit p) (pm_theta p) (pm_delta p) (pm_kappa_min p) (pm_kappa_step p) (pm_kappa_max p) v (pm_pushing_k_factor p) (pm_pushing_objective_amplifier p) (pm_init_policy_random p) (pm_crossover_bastert p) (pm_crossover_mean p) (pm_crossover_stddev p) (pm_mutation_variable_mean p) (pm_mutation_variable_stddev p) (pm_mutation_value_mean p) (pm_mutation_value_stddev p) (pm_improve_start p) (pm_improve_increase p) (pm_improve_stop p) (pm_w p) (pm_seed p) (pm_thread p) (pm_limit p) (pm_print_level p) (pm_pushes_limit p) (pm_pushing_iteration_limit p) (pm_population_size p) (pm_pre_order p) (pm_order p) (pm_float_type p) (pm_init_policy p) (pm_cost_norm p) (pm_mode p) (pm_preprocessor p) (pm_observer p) (pm_storage p) (pm_solver p) (pm_debug p).
(** Assignment of the field pushing_k_factor of solver_parameters (core:410-461). *)
Definition set_pushing_k_factor (v : dbl) (p : params) : params := mk_params (pm_time_limit p) (pm_theta p) (pm_delta p) (pm_kappa_min p) (pm_kappa_step p) (pm_kappa_max p) (pm_alpha p) v (pm_pushing_objective_amplifier p) (pm_init_policy_random p) (pm_crossover_bastert p) (pm_crossover_mean p) (pm_crossover_stddev p) (pm_mutation_variable_mean p) (pm_mutation_variable_stddev p) (pm_mutation_value_mean p) (pm_mutation_value_stddev p) (pm_improve_start p) (pm_improve_increase p) (pm_improve_stop p) (pm_w p) (pm_seed p) (pm_thread p) (pm_limit p) (pm_print_level p) (pm_pushes_limit p) (pm_pushing_iteration_limit p) (pm_population_size p) (pm_pre_order p) (pm_order p) (pm_float_type p) (pm_init_policy p) (pm_cost_norm p) (pm_mode p) (pm_preprocessor p) (pm_observer p) (pm_storage p) (pm_solver p) (pm_debug p).
(** Assignment of the field pushing_objective_amplifier of solver_parameters (core:410-461). *)
Definition set_pushing_objective_amplifier (v : dbl) (p : params) : params := mk_params (pm_time_limit p) (pm_theta p) (pm_delta p) (pm_kappa_min p) (pm_kappa_step p) (pm_kappa_max p) (pm_alpha p) (pm_pushing_k_factor p) v (pm_init_policy_random p) (pm_crossover_bastert p) (pm_crossover_mean p) (pm_crossover_stddev p) (pm_mutation_variable_mean p) (pm_mutation_variable_stddev p) (pm_mutation_value_mean p) (pm_mutation_value_stddev p) (pm_improve_start p) (pm_improve_increase p) (pm_improve_stop p) (pm_w p) (pm_seed p) (pm_thread p) (pm_limit p) (pm_print_level p) (pm_pushes_limit p) (pm_pushing_iteration_limit p) (pm_population_size p) (pm_pre_order p) (pm_order p) (pm_float_type p) (pm_init_policy p) (pm_cost_norm p) (pm_mode p) (pm_preprocessor p) (pm_observer p) (pm_storage p) (pm_solver p) (pm_debug p).
(** Assignment of the field init_policy_random of solver_parameters (core:410-461). *)
Definition set_init_policy_random (v : dbl) (p : params) : params := mk_params (pm_time_limit p) (pm_theta p) (pm_delta p) (pm_kappa_min p) (pm_kappa_step p) (pm_kappa_max p) (pm_alpha p) (pm_pushing_k_factor p) (pm_pushing_objective_amplifier p) v (pm_crossover_bastert p) (pm_crossover_mean p) (pm_crossover_stddev p) (pm_mutation_variable_mean p) (pm_mutation_variable_stddev p) (pm_mutation_value_mean p) (pm_mutation_value_stddev p) (pm_improve_start p) (pm_improve_increase p) (pm_improve_stop p) (pm_w p) (pm_seed p) (pm_thread p) (pm_limit p) (pm_print_level p) (pm_pushes_limit p) (pm_pushing_iteration_limit p) (pm_population_size p) (pm_pre_order p) (pm_order p) (pm_float_type p) (pm_init_policy p) (pm_cost_norm p) (pm_mode p) (pm_preprocessor p) (pm_observer p) (pm_storage p) (pm_solver p) (pm_debug p).
(** Assignment of the field crossover_bastert of solver_parameters (core:410-461). *)
Definition set_crossover_bastert (v : dbl) (p : params) : params := mk_params (pm_time_limit p) (pm_theta p) (pm_delta p) (pm_kappa_min p) (pm_kappa_step p) (pm_kappa_max p) (pm_alpha p) (pm_pushing_k_factor p) (pm_pushing_objective_amplifier p) (pm_init_policy_random p) v (pm_crossover_mean p) (pm_crossover_stddev p) (pm_mutation_variable_mean p) (pm_mutation_variable_stddev p) (pm_mutation_value_mean p) (pm_mutation_value_stddev p) (pm_improve_start p) (pm_improve_increase p) (pm_improve_stop p) (pm_w p) (pm_seed p) (pm_thread p) (pm_limit p) (pm_print_level p) (pm_pushes_limit p) (pm_pushing_iteration_limit p) (pm_population_size p) (pm_pre_order p) (pm_order p) (pm_float_type p) (pm_init_policy p) (pm_cost_norm p) (pm_mode p) (pm_preprocessor p) (pm_observer p) (pm_storage p) (pm_solver p) (pm_debug p).
(** Assignment of the field crossover_mean of solver_parameters (core:410-461). *)
Definition set_crossover_mean (v : dbl) (p : params) : params := mk_params (pm_time_limit p) (pm_theta p) (pm_delta p) (pm_kappa_min p) (pm_kappa_step p) (pm_kappa_max p) (pm_alpha p) (pm_pushing_k_factor p) (pm_pushing_objective_amplifier p) (pm_init_policy_random p) (pm_crossover_bastert p) v (pm_crossover_stddev p) (pm_mutation_variable_mean p) (pm_mutation_variable_stddev p) (pm_mutation_value_mean p) (pm_mutation_value_stddev p) (pm_improve_start p) (pm_improve_increase p) (pm_improve_stop p) (pm_w p) (pm_seed p) (pm_thread p) (pm_limit p) (pm_print_level p) (pm_pushes_limit p) (pm_pushing_iteration_limit p) (pm_population_size p) (pm_pre_order p) (pm_order p) (pm_float_type p) (pm_init_policy p) (pm_cost_norm p) (pm_mode p) (pm_preprocessor p) (pm_observer p) (pm_storage p) (pm_solver p) (pm_debug p).
(** Assignment of the field crossover_stddev of solver_parameters (core:410-461). *)
Definition set_crossover_stddev (v : dbl) (p : params) : params := mk_params (pm_time_limit p) (pm_theta p) (pm_delta p) (pm_kappa_min p) (pm_kappa_step p) (pm_kappa_max p) (pm_alpha p) (pm_pushing_k_factor p) (pm_pushing_objective_amplifier p) (pm_init_policy_random p) (pm_crossover_bastert p) (pm_crossover_mean p) v (pm_mutation_variable_mean p) (pm_mutation_variable_stddev p) (pm_mutation_value_mean p) (pm_mutation_value_stddev p) (pm_improve_start p) (pm_improve_increase p) (pm_improve_stop p) (pm_w p) (pm_seed p) (pm_thread p) (pm_limit p) (pm_print_level p) (pm_pushes_limit p) (pm_pushing_iteration_limit p) (pm_population_size p) (pm_pre_order p) (pm_order p) (pm_float_type p) (pm_init_policy p) (pm_cost_norm p) (pm_mode p) (pm_preprocessor p) (pm_observer p) (pm_storage p) (pm_solver p) (pm_debug p).
(** Assignment of the field mutation_variable_mean of solver_parameters (core:410-461). *)
Definition set_mutation_variable_mean (v : dbl) (p : params) : params := mk_params (pm_time_limit p) (pm_theta p) (pm_delta p) (pm_kappa_min p) (pm_kappa_step p) (pm_kappa_max p) (pm_alpha p) (pm_pushing_k_factor p) (pm_pushing_objective_amplifier p) (pm_init_policy_random p) (pm_crossover_bastert p) (pm_crossover_mean p) (pm_crossover_stddev p) v (pm_mutation_variable_stddev p) (pm_mutation_value_mean p) (pm_mutation_value_stddev p) (pm_improve_start p) (pm_improve_increase p) (pm_improve_stop p) (pm_w p) (pm_seed p) (pm_thread p) (pm_limit p) (pm_print_level p) (pm_pushes_limit p) (pm_pushing_iteration_limit p) (pm_population_size p) (pm_pre_order p) (pm_order p) (pm_float_type p) (pm_init_policy p) (pm_cost_norm p) (pm_mode p) (pm_preprocessor p) (pm_observer p) (pm_storage p) (pm_solver p) (pm_debug p).
(** Assignment of the field mutation_variable_stddev of solver_parameters (core:410-461). *)
Definition set_mutation_variable_stddev (v : dbl) (p : params) : params := mk_params (pm_time_limit p) (pm_theta p) (pm_delta p) (pm_kappa_min p) (pm_kappa_step p) (pm_kappa_max p) (pm_alpha p) (pm_pushing_k_factor p) (pm_pushing_objective_amplifier p) (pm_init_policy_random p) (pm_crossover_bastert p) (pm_crossover_mean p) (pm_crossover_stddev p) (pm_mutation_variable_mean p) v (pm_mutation_value_mean p) (pm_mutation_value_stddev p) (pm_improve_start p) (pm_improve_increase p) (pm_improve_stop p) (pm_w p) (pm_seed p) (pm_thread p) (pm_limit p) (pm_print_level p) (pm_pushes_limit p) (pm_pushing_iteration_limit p) (pm_population_size p) (pm_pre_order p) (pm_order p) (pm_float_type p) (pm_init_policy p) (pm_cost_norm p) (pm_mode p) (pm_preprocessor p) (pm_observer p) (pm_storage p) (pm_solver p) (pm_debug p).
(** Assignment of the field mutation_value_mean of solver_parameters (core:410-461). *)
Definition set_mutation_value_mean (v : dbl) (p : params) : params := mk_params (pm_time_limit p) (pm_theta p) (pm_delta p) (pm_kappa_min p) (pm_kappa_step p) (pm_kappa_max p) (pm_alpha p) (pm_pushing_k_factor p) (pm_pushing_objective_amplifier p) (pm_init_policy_random p) (pm_crossover_bastert p) (pm_crossover_mean p) (pm_crossover_stddev p) (pm_mutation_variable_mean p) (pm_mutation_variable_stddev p) v (pm_mutation_value_stddev p) (pm_improve_start p) (pm_improve_increase p) (pm_improve_stop p) (pm_w p) (pm_seed p) (pm_thread p) (pm_limit p) (pm_print_level p) (pm_pushes_limit p) (pm_pushing_iteration_limit p) (pm_population_size p) (pm_pre_order p) (pm_order p) (pm_float_type p) (pm_init_policy p) (pm_cost_norm p) (pm_mode p) (pm_preprocessor p) (pm_observer p) (pm_storage p) (pm_solver p) (pm_debug p).
(** Assignment of the field mutation_value_stddev of solver_parameters (core:410-461). *)
Definition set_mutation_value_stddev (v : dbl) (p : params) : params := mk_params (pm_time_limit p) (pm_theta p) (pm_delta p) (pm_kappa_min p) (pm_kappa_step p) (pm_kappa_max p) (pm_alpha p) (pm_pushing_k_factor p) (pm_pushing_objective_amplifier p) (pm_init_policy_random p) (pm_crossover_bastert p) (pm_crossover_mean p) (pm_crossover_stddev p) (pm_mutation_variable_mean p) (pm_mutation_variable_stddev p) (pm_mutation_value_mean p) v (pm_improve_start p) (pm_improve_increase p) (pm_improve_stop p) (pm_w p) (pm_seed p) (pm_thread p) (pm_limit p) (pm_print_level p) (pm_pushes_limit p) (pm_pushing_iteration_limit p) (pm_population_size p) (pm_pre_order p) (pm_order p) (pm_float_type p) (pm_init_policy p) (pm_cost_norm p) (pm_mode p) (pm_preprocessor p) (pm_observer p) (pm_storage p) (pm_solver p) (pm_debug p).
(** Assignment of the field improve_start of solver_parameters (core:410-461). *)
Definition set_improve_start (v : dbl) (p : params) : params := mk_params (pm_time_limit p) (pm_theta p) (pm_delta p) (pm_kappa_min p) (pm_kappa_step p) (pm_kappa_max p) (pm_alpha p) (pm_pushing_k_factor p) (pm_pushing_objective_amplifier p) (pm_init_policy_random p) (pm_crossover_bastert p) (pm_crossover_mean p) (pm_crossover_stddev p) (pm_mutation_variable_mean p) (pm_mutation_variable_stddev p) (pm_mutation_value_mean p) (pm_mutation_value_stddev p) v (pm_improve_increase p) (pm_improve_stop p) (pm_w p) (pm_seed p) (pm_thread p) (pm_limit p) (pm_print_level p) (pm_pushes_limit p) (pm_pushing_iteration_limit p) (pm_population_size p) (pm_pre_order p) (pm_order p) (pm_float_type p) (pm_init_policy p) (pm_cost_norm p) (pm_mode p) (pm_preprocessor p) (pm_observer p) (pm_storage p) (pm_solver p) (pm_debug p).
(** Assignment of the field improve_increase of solver_parameters (core:410-461). *)
Definition set_improve_increase (v : dbl) (p : params) : params := mk_params (pm_time_limit p) (pm_theta p) (pm_delta p) (pm_kappa_min p) (pm_kappa_step p) (pm_kappa_max p) (pm_alpha p) (pm_pushing_k_factor p) (pm_pushing_objective_amplifier p) (pm_init_policy_random p) (pm_crossover_bastert p) (pm_crossover_mean p) (pm_crossover_stddev p) (pm_mutation_variable_mean p) (pm_mutation_variable_stddev p) (pm_mutation_value_mean p) (pm_mutation_value_stddev p) (pm_improve_start p) v (pm_improve_stop p) (pm_w p) (pm_seed p) (pm_thread p) (pm_limit p) (pm_print_level p) (pm_pushes_limit p) (pm_pushing_iteration_limit p) (pm_population_size p) (pm_pre_order p) (pm_order p) (pm_float_type p) (pm_init_policy p) (pm_cost_norm p) (pm_mode p) (pm_preprocessor p) (pm_observer p) (pm_storage p) (pm_solver p) (pm_debug p).
(** Assignment of the field improve_stop of solver_parameters (core:410-461). *)
Definition set_improve_stop (v : dbl) (p : params) : params := mk_params (pm_time_limit p) (pm_theta p) (pm_delta p) (pm_kappa_min p) (pm_kappa_step p) (pm_kappa_max p) (pm_alpha p) (pm_pushing_k_factor p) (pm_pushing_objective_amplifier p) (pm_init_policy_random p) (pm_crossover_bastert p) (pm_crossover_mean p) (pm_crossover_stddev p) (pm_mutation_variable_mean p) (pm_mutation_variable_stddev p) (pm_mutation_value_mean p) (pm_mutation_value_stddev p) (pm_improve_start p) (pm_improve_increase p) v (pm_w p) (pm_seed p) (pm_thread p) (pm_limit p) (pm_print_level p) (pm_pushes_limit p) (pm_pushing_iteration_limit p) (pm_population_size p) (pm_pre_order p) (pm_order p) (pm_float_type p) (pm_init_policy p) (pm_cost_norm p) (pm_mode p) (pm_preprocessor p) (pm_observer p) (pm_storage p) (pm_solver p) (pm_debug p).
(** Assignment of the field w of solver_parameters (core:410-461). *)
Definition set_w (v : dbl) (p : params) : params := mk_params (pm_time_limit p) (pm_theta p) (pm_delta p) (pm_kappa_min p) (pm_kappa_step p) (pm_kappa_max p) (pm_alpha p) (pm_pushing_k_factor p) (pm_pushing_objective_amplifier p) (pm_init_policy_random p) (pm_crossover_bastert p) (pm_crossover_mean p) (pm_crossover_stddev p) (pm_mutation_variable_mean p) (pm_mutation_variable_stddev p) (pm_mutation_value_mean p) (pm_mutation_value_stddev p) (pm_improve_start p) (pm_improve_increase p) (pm_improve_stop p) v (pm_seed p) (pm_thread p) (pm_limit p) (pm_print_level p) (pm_pushes_limit p) (pm_pushing_iteration_limit p) (pm_population_size p) (pm_pre_order p) (pm_order p) (pm_float_type p) (pm_init_policy p) (pm_cost_norm p) (pm_mode p) (pm_preprocessor p) (pm_observer p) (pm_storage p) (pm_solver p) (pm_debug p).
(** Assignment of the field seed of solver_parameters (core:410-461). *)
Definition set_seed (v : Z) (p : params) : params := mk_params (pm_time_limit p) (pm_theta p) (pm_delta p) (pm_kappa_min p) (pm_kappa_step p) (pm_kappa_max p) (pm_alpha p) (pm_pushing_k_factor p) (pm_pushing_objective_amplifier p) (pm_init_policy_random p) (pm_crossover_bastert p) (pm_crossover_mean p) (pm_crossover_stddev p) (pm_mutation_variable_mean p) (pm_mutation_variable_stddev p) (pm_mutation_value_mean p) (pm_mutation_value_stddev p) (pm_improve_start p) (pm_improve_increase p) (pm_improve_stop p) (pm_w p) v (pm_thread p) (pm_limit p) (pm_print_level p) (pm_pushes_limit p) (pm_pushing_iteration_limit p) (pm_population_size p) (pm_pre_order p) (pm_order p) (pm_float_type p) (pm_init_policy p) (pm_cost_norm p) (pm_mode p) (pm_preprocessor p) (pm_observer p) (pm_storage p) (pm_solver p) (pm_debug p).
(** Assignment of the field thread of solver_parameters (core:410-461). *)
Definition set_thread (v : Z) (p : params) : params := mk_params (pm_time_limit p) (pm_theta p) (pm_delta p) (pm_kappa_min p) (pm_kappa_step p) (pm_kappa_max p) (pm_alpha p) (pm_pushing_k_factor p) (pm_pushing_objective_amplifier p) (pm_init_policy_random p) (pm_crossover_bastert p) (pm_crossover_mean p) (pm_crossover_stddev p) (pm_mutation_variable_mean p) (pm_mutation_variable_stddev p) (pm_mutation_value_mean p) (pm_mutation_value_stddev p) (pm_improve_start p) (pm_improve_increase p) (pm_improve_stop p) (pm_w p) (pm_seed p) v (pm_limit p) (pm_print_level p) (pm_pushes_limit p) (pm_pushing_iteration_limit p) (pm_population_size p) (pm_pre_order p) (pm_order p) (pm_float_type p) (pm_init_policy p) (pm_cost_norm p) (pm_mode p) (pm_preprocessor p) (pm_observer p) (pm_storage p) (pm_solver p) (pm_debug p).
(** Assignment of the field limit of solver_parameters (core:410-461). *)
Definition set_limit (v : Z) (p : params) : params := mk_params (pm_time_limit p) (pm_theta p) (pm_delta p) (pm_kappa_min p) (pm_kappa_step p) (pm_kappa_max p) (pm_alpha p) (pm_pushing_k_factor p) (pm_pushing_objective_amplifier p) (pm_init_policy_random p) (pm_crossover_bastert p) (pm_crossover_mean p) (pm_crossover_stddev p) (pm_mutation_variable_mean p) (pm_mutation_variable_stddev p) (pm_mutation_value_mean p) (pm_mutation_value_stddev p) (pm_improve_start p) (pm_improve_increase p) (pm_improve_stop p) (pm_w p) (pm_seed p) (pm_thread p) v (pm_print_level p) (pm_pushes_limit p) (pm_pushing_iteration_limit p) (pm_population_size p) (pm_pre_order p) (pm_order p) (pm_float_type p) (pm_init_policy p) (pm_cost_norm p) (pm_mode p) (pm_preprocessor p) (pm_observer p) (pm_storage p) (pm_solver p) (pm_debug p).
(** Assignment of the field print_level of solver_parameters (core:410-461). *)
Definition set_print_level (v : Z) (p : params) : params := mk_params (pm_time_limit p) (pm_theta p) (pm_delta p) (pm_kappa_min p) (pm_kappa_step p) (pm_kappa_max p) (pm_alpha p) (pm_pushing_k_factor p) (pm_pushing_objective_amplifier p) (pm_init_policy_random p) (pm_crossover_bastert p) (pm_crossover_mean p) (pm_crossover_stddev p) (pm_mutation_variable_mean p) (pm_mutation_variable_stddev p) (pm_mutation_value_mean p) (pm_mutation_value_stddev p) (pm_improve_start p) (pm_improve_increase p) (pm_improve_stop p) (pm_w p) (pm_seed p) (pm_thread p) (pm_limit p) v (pm_pushes_limit p) (pm_pushing_iteration_limit p) (pm_population_size p) (pm_pre_order p) (pm_order p) (pm_float_type p) (pm_init_policy p) (pm_cost_norm p) (pm_mode p) (pm_preprocessor p) (pm_observer p) (pm_storage p) (pm_solver p) (pm_debug p).
(** Assignment of the field pushes_limit of solver_parameters (core:410-461). *)
Definition set_pushes_limit (v : Z) (p : params) : params := mk_params (pm_time_limit p) (pm_theta p) (pm_delta p) (pm_kappa_min p) (pm_kappa_step p) (pm_kappa_max p) (pm_alpha p) (pm_pushing_k_factor p) (pm_pushing_objective_amplifier p) (pm_init_policy_random p) (pm_crossover_bastert p) (pm_crossover_mean p) (pm_crossover_stddev p) (pm_mutation_variable_mean p) (pm_mutation_variable_stddev p) (pm_mutation_value_mean p) (pm_mutation_value_stddev p) (pm_improve_start p) (pm_improve_increase p) (pm_improve_stop p) (pm_w p) (pm_seed p) (pm_thread p) (pm_limit p) (pm_print_level p) v (pm_pushing_iteration_limit p) (pm_population_size p) (pm_pre_order p) (pm_order p) (pm_float_type p) (pm_init_policy p) (pm_cost_norm p) (pm_mode p) (pm_preprocessor p) (pm_observer p) (pm_storage p) (pm_solver p) (pm_debug p).
(** Assignment of the field pushing_iteration_limit of solver_parameters (core:410-461). *)
Definition set_pushing_iteration_limit (v : Z) (p : params) : params := mk_params (pm_time_limit p) (pm_theta p) (pm_delta p) (pm_kappa_min p) (pm_kappa_step p) (pm_kappa_max p) (pm_alpha p) (pm_pushing_k_factor p) (pm_pushing_objective_amplifier p) (pm_init_policy_random p) (pm_crossover_bastert p) (pm_crossover_mean p) (pm_crossover_stddev p) (pm_mutation_variable_mean p) (pm_mutation_variable_stddev p) (pm_mutation_value_mean p) (pm_mutation_value_stddev p) (pm_improve_start p) (pm_improve_increase p) (pm_improve_stop p) (pm_w p) (pm_seed p) (pm_thread p) (pm_limit p) (pm_print_level p) (pm_pushes_limit p) v (pm_population_size p) (pm_pre_order p) (pm_order p) (pm_float_type p) (pm_init_policy p) (pm_cost_norm p) (pm_mode p) (pm_preprocessor p) (pm_observer p) (pm_storage p) (pm_solver p) (pm_debug p).
(** Assignment of the field population_size of solver_parameters (core:410-461). *)
Definition set_population_size (v : Z) (p : params) : params := mk_params (pm_time_limit p) (pm_theta p) (pm_delta p) (pm_kappa_min p) (pm_kappa_step p) (pm_kappa_max p) (pm_alpha p) (pm_pushing_k_factor p) (pm_pushing_objective_amplifier p) (pm_init_policy_random p) (pm_crossover_bastert p) (pm_crossover_mean p) (pm_crossover_stddev p) (pm_mutation_variable_mean p) (pm_mutation_variable_stddev p) (pm_mutation_value_mean p) (pm_mutation_value_stddev p) (pm_improve_start p) (pm_improve_increase p) (pm_improve_stop p) (pm_w p) (pm_seed p) (pm_thread p) (pm_limit p) (pm_print_level p) (pm_pushes_limit p) (pm_pushing_iteration_limit p) v (pm_pre_order p) (pm_order p) (pm_float_type p) (pm_init_policy p) (pm_cost_norm p) (pm_mode p) (pm_preprocessor p) (pm_observer p) (pm_storage p) (pm_solver p) (pm_debug p).
(** Assignment of the field pre_order of solver_parameters (core:410-461). *)
Definition set_pre_order (v : pre_order) (p : params) : params := mk_params (pm_time_limit p) (pm_theta p) (pm_delta p) (pm_kappa_min p) (pm_kappa_step p) (pm_kappa_max p) (pm_alpha p) (pm_pushing_k_factor p) (pm_pushing_objective_amplifier p) (pm_init_policy_random p) (pm_crossover_bastert p) (pm_crossover_mean p) (pm_crossover_stddev p) (pm_mutation_variable_mean p) (pm_mutation_variable_stddev p) (pm_mutation_value_mean p) (pm_mutation_value_stddev p) (pm_improve_start p) (pm_improve_increase p) (pm_improve_stop p) (pm_w p) (pm_seed p) (pm_thread p) (pm_limit p) (pm_print_level p) (pm_pushes_limit p) (pm_pushing_iteration_limit p) (pm_population_size p) v (pm_order p) (pm_float_type p) (pm_init_policy p) (pm_cost_norm p) (pm_mode p) (pm_preprocessor p) (pm_observer p) (pm_storage p) (pm_solver p) (pm_debug p).
(** Assignment of the field order of solver_parameters (core:410-461). *)
Definition set_order (v : constraint_order) (p : params) : params := mk_params (pm_time_limit p) (pm_theta p) (pm_delta p) (pm_kappa_min p) (pm_kappa_step p) (pm_kappa_max p) (pm_alpha p) (pm_pushing_k_factor p) (pm_pushing_objective_amplifier p) (pm_init_policy_random p) (pm_crossover_bastert p) (pm_crossover_mean p) (pm_crossover_stddev p) (pm_mutation_variable_mean p) (pm_mutation_variable_stddev p) (pm_mutation_value_mean p) (pm_mutation_value_stddev p) (pm_improve_start p) (pm_improve_increase p) (pm_improve_stop p) (pm_w p) (pm_seed p) (pm_thread p) (pm_limit p) (pm_print_level p) (pm_pushes_limit p) (pm_pushing_iteration_limit p) (pm_population_size p) (pm_pre_order p) v (pm_float_type p) (pm_init_policy p) (pm_cost_norm p) (pm_mode p) (pm_preprocessor p) (pm_observer p) (pm_storage p) (pm_solver p) (pm_debug p).
(** Assignment of the field float_type of solver_parameters (core:410-461). *)
Definition set_float_type (v : float_type) (p : params) : params := mk_params (pm_time_limit p) (pm_theta p) (pm_delta p) (pm_kappa_min p) (pm_kappa_step p) (pm_kappa_max p) (pm_alpha p) (pm_pushing_k_factor p) (pm_pushing_objective_amplifier p) (pm_init_policy_random p) (pm_crossover_bastert p) (pm_crossover_mean p) (pm_crossover_stddev p) (pm_mutation_variable_mean p) (pm_mutation_variable_stddev p) (pm_mutation_value_mean p) (pm_mutation_value_stddev p) (pm_improve_start p) (pm_improve_increase p) (pm_improve_stop p) (pm_w p) (pm_seed p) (pm_thread p) (pm_limit p) (pm_print_level p) (pm_pushes_limit p) (pm_pushing_iteration_limit p) (pm_population_size p) (pm_pre_order p) (pm_order p) v (pm_init_policy p) (pm_cost_norm p) (pm_mode p) (pm_preprocessor p) (pm_observer p) (pm_storage p) (pm_solver p) (pm_debug p).
(** Assignment of the field init_policy of solver_parameters (core:410-461). *)
Definition set_init_policy (v : init_policy) (p : params) : params := mk_params (pm_time_limit p) (pm_theta p) (pm_delta p) (pm_kappa_min p) (pm_kappa_step p) (pm_kappa_max p) (pm_alpha p) (pm_pushing_k_factor p) (pm_pushing_objective_amplifier p) (pm_init_policy_random p) (pm_crossover_bastert p) (pm_crossover_mean p) (pm_crossover_stddev p) (pm_mutation_variable_mean p) (pm_mutation_variable_stddev p) (pm_mutation_value_mean p) (pm_mutation_value_stddev p) (pm_improve_start p) (pm_improve_increase p) (pm_improve_stop p) (pm_w p) (pm_seed p) (pm_thread p) (pm_limit p) (pm_print_level p) (pm_pushes_limit p) (pm_pushing_iteration_limit p) (pm_population_size p) (pm_pre_order p) (pm_order p) (pm_float_type p) v (pm_cost_norm p) (pm_mode p) (pm_preprocessor p) (pm_observer p) (pm_storage p) (pm_solver p) (pm_debug p).
(** Assignment of the field cost_norm of solver_parameters (core:410-461). *)
Definition set_cost_norm (v : cost_norm) (p : params) : params := mk_params (pm_time_limit p) (pm_theta p) (pm_delta p) (pm_kappa_min p) (pm_kappa_step p) (pm_kappa_max p) (pm_alpha p) (pm_pushing_k_factor p) (pm_pushing_objective_amplifier p) (pm_init_policy_random p) (pm_crossover_bastert p) (pm_crossover_mean p) (pm_crossover_stddev p) (pm_mutation_variable_mean p) (pm_mutation_variable_stddev p) (pm_mutation_value_mean p) (pm_mutation_value_stddev p) (pm_improve_start p) (pm_improve_increase p) (pm_improve_stop p) (pm_w p) (pm_seed p) (pm_thread p) (pm_limit p) (pm_print_level p) (pm_pushes_limit p) (pm_pushing_iteration_limit p) (pm_population_size p) (pm_pre_order p) (pm_order p) (pm_float_type p) (pm_init_policy p) v (pm_mode p) (pm_preprocessor p) (pm_observer p) (pm_storage p) (pm_solver p) (pm_debug p).
(** Assignment of the field mode of solver_parameters (core:410-461). *)
Definition set_mode (v : opt_mode) (p : params) : params := mk_params (pm_time_limit p) (pm_theta p) (pm_delta p) (pm_kappa_min p) (pm_kappa_step p) (pm_kappa_max p) (pm_alpha p) (pm_pushing_k_factor p) (pm_pushing_objective_amplifier p) (pm_init_policy_random p) (pm_crossover_bastert p) (pm_crossover_mean p) (pm_crossover_stddev p) (pm_mutation_variable_mean p) (pm_mutation_variable_stddev p) (pm_mutation_value_mean p) (pm_mutation_value_stddev p) (pm_improve_start p) (pm_improve_increase p) (pm_improve_stop p) (pm_w p) (pm_seed p) (pm_thread p) (pm_limit p) (pm_print_level p) (pm_pushes_limit p) (pm_pushing_iteration_limit p) (pm_population_size p) (pm_pre_order p) (pm_order p) (pm_float_type p) (pm_init_policy p) (pm_cost_norm p) v (pm_preprocessor p) (pm_observer p) (pm_storage p) (pm_solver p) (pm_debug p).
(** Assignment of the field preprocessor of solver_parameters (core:410-461). *)
Definition set_preprocessor (v : preprocessor_opt) (p : params) : params := mk_params (pm_time_limit p) (pm_theta p) (pm_delta p) (pm_kappa_min p) (pm_kappa_step p) (pm_kappa_max p) (pm_alpha p) (pm_pushing_k_factor p) (pm_pushing_objective_amplifier p) (pm_init_policy_random p) (pm_crossover_bastert p) (pm_crossover_mean p) (pm_crossover_stddev p) (pm_mutation_variable_mean p) (pm_mutation_variable_stddev p) (pm_mutation_value_mean p) (pm_mutation_value_stddev p) (pm_improve_start p) (pm_improve_increase p) (pm_improve_stop p) (pm_w p) (pm_seed p) (pm_thread p) (pm_limit p) (pm_print_level p) (pm_pushes_limit p) (pm_pushing_iteration_limit p) (pm_population_size p) (pm_pre_order p) (pm_order p) (pm_float_type p) (pm_init_policy p) (pm_cost_norm p) (pm_mode p) v (pm_observer p) (pm_storage p) (pm_solver p) (pm_debug p).
(** Assignment of the field observer of solver_parameters (core:410-461). *)
Definition set_observer (v : observer_opt) (p : params) : params := mk_params (pm_time_limit p) (pm_theta p) (pm_delta p) (pm_kappa_min p) (pm_kappa_step p) (pm_kappa_max p) (pm_alpha p) (pm_pushing_k_factor p) (pm_pushing_objective_amplifier p) (pm_init_policy_random p) (pm_crossover_bastert p) (pm_crossover_mean p) (pm_crossover_stddev p) (pm_mutation_variable_mean p) (pm_mutation_variable_stddev p) (pm_mutation_value_mean p) (pm_mutation_value_stddev p) (pm_improve_start p) (pm_improve_increase p) (pm_improve_stop p) (pm_w p) (pm_seed p) (pm_thread p) (pm_limit p) (pm_print_level p) (pm_pushes_limit p) (pm_pushing_iteration_limit p) (pm_population_size p) (pm_pre_order p) (pm_order p) (pm_float_type p) (pm_init_policy p) (pm_cost_norm p) (pm_mode p) (pm_preprocessor p) v (pm_storage p) (pm_solver p) (pm_debug p).
(** Assignment of the field storage of solver_parameters (core:410-461). *)
Definition set_storage (v : storage_opt) (p : params) : params := mk_params (pm_time_limit p) (pm_theta p) (pm_delta p) (pm_kappa_min p) (pm_kappa_step p) (pm_kappa_max p) (pm_alpha p) (pm_pushing_k_factor p) (pm_pushing_objective_amplifier p) (pm_init_policy_random p) (pm_crossover_bastert p) (pm_crossover_mean p) (pm_crossover_stddev p) (pm_mutation_variable_mean p) (pm_mutation_variable_stddev p) (pm_mutation_value_mean p) (pm_mutation_value_stddev p) (pm_improve_start p) (pm_improve_increase p) (pm_improve_stop p) (pm_w p) (pm_seed p) (pm_thread p) (pm_limit p) (pm_print_level p) (pm_pushes_limit p) (pm_pushing_iteration_limit p) (pm_population_size p) (pm_pre_order p) (pm_order p) (pm_float_type p) (pm_init_policy p) (pm_cost_norm p) (pm_mode p) (pm_preprocessor p) (pm_observer p) v (pm_solver p) (pm_debug p).
(** Assignment of the field solver of solver_parameters (core:410-461). *)
Definition set_solver (v : solver_opt) (p : params) : params := mk_params (pm_time_limit p) (pm_theta p) (pm_delta p) (pm_kappa_min p) (pm_kappa_step p) (pm_kappa_max p) (pm_alpha p) (pm_pushing_k_factor p) (pm_pushing_objective_amplifier p) (pm_init_policy_random p) (pm_crossover_bastert p) (pm_crossover_mean p) (pm_crossover_stddev p) (pm_mutation_variable_mean p) (pm_mutation_variable_stddev p) (pm_mutation_value_mean p) (pm_mutation_value_stddev p) (pm_improve_start p) (pm_improve_increase p) (pm_improve_stop p) (pm_w p) (pm_seed p) (pm_thread p) (pm_limit p) (pm_print_level p) (pm_pushes_limit p) (pm_pushing_iteration_limit p) (pm_population_size p) (pm_pre_order p) (pm_order p) (pm_float_type p) (pm_init_policy p) (pm_cost_norm p) (pm_mode p) (pm_preprocessor p) (pm_observer p) (pm_storage p) v (pm_debug p).
(** Assignment of the field debug of solver_parameters (core:410-461). *)
Definition set_debug (v : bool) (p : params) : params := mk_params (pm_time_limit p) (pm_theta p) (pm_delta p) (pm_kappa_min p) (pm_kappa_step p) (pm_kappa_max p) (pm_alpha p) (pm_pushing_k_factor p) (pm_pushing_objective_amplifier p) (pm_init_policy_random p) (pm_crossover_bastert p) (pm_crossover_mean p) (pm_crossover_stddev p) (pm_mutation_variable_mean p) (pm_mutation_variable_stddev p) (pm_mutation_value_mean p) (pm_mutation_value_stddev p) (pm_improve_start p) (pm_improve_increase p) (pm_improve_stop p) (pm_w p) (pm_seed p) (pm_thread p) (pm_limit p) (pm_print_level p) (pm_pushes_limit p) (pm_pushing_iteration_limit p) (pm_population_size p) (pm_pre_order p) (pm_order p) (pm_float_type p) (pm_init_policy p) (pm_cost_norm p) (pm_mode p) (pm_preprocessor p) (pm_observer p) (pm_storage p) (pm_solver p) v.

(** command_line_status, 447-488 *)
Inductive status :=
| success
| unknown
| parameter_missing
| verbose_error
| limit_error
| time_limit_error
| floating_point_type_error
| observer_type_error
| print_level_error
| preprocessing_error
| constraint_order_error
| storage_type_error
| theta_error
| delta_error
| kappa_min_error
| kappa_step_error
| kappa_max_error
| alpha_error
| w_error
| norm_error
| pushes_limit_error
| pushing_objective_amplifier_error
| pushing_iteration_limit_error
| pushing_k_factor_error
| init_population_size_error
| init_policy_error
| init_policy_random_error
| init_crossover_bastert_insertion_error
| init_crossover_solution_selection_mean_error
| init_crossover_solution_selection_stddev_error
| init_mutation_variable_mean_error
| init_mutation_variable_stddev_error
| init_mutation_value_mean_error
| init_mutation_value_stddev_error
| init_kappa_improve_start_error
| init_kappa_improve_increase_error
| init_kappa_improve_stop_error
| thread_error
| seed_error.
(** The number of a command_line_status, main.cpp:447-488. *)
Definition status_index (s : status) : nat := (match s with
| success => 0 | unknown => 1 | parameter_missing => 2 | verbose_error => 3 | limit_error => 4 | time_limit_error => 5 | floating_point_type_error => 6 | observer_type_error => 7 | print_level_error => 8 | preprocessing_error => 9 | constraint_order_error => 10 | storage_type_error => 11 | theta_error => 12 | delta_error => 13 | kappa_min_error => 14 | kappa_step_error => 15 | kappa_max_error => 16 | alpha_error => 17 | w_error => 18 | norm_error => 19 | pushes_limit_error => 20 | pushing_objective_amplifier_error => 21 | pushing_iteration_limit_error => 22 | pushing_k_factor_error => 23 | init_population_size_error => 24 | init_policy_error => 25 | init_policy_random_error => 26 | init_crossover_bastert_insertion_error => 27 | init_crossover_solution_selection_mean_error => 28 | init_crossover_solution_selection_stddev_error => 29 | init_mutation_variable_mean_error => 30 | init_mutation_variable_stddev_error => 31 | init_mutation_value_mean_error => 32 | init_mutation_value_stddev_error => 33 | init_kappa_improve_start_error => 34 | init_kappa_improve_increase_error => 35 | init_kappa_improve_stop_error => 36 | thread_error => 37 | seed_error => 38 end)%nat.
(** command_line_status_string, 490-530: there is no comma between "verbose" and "limit" *)
Definition status_strings : list string :=
  ["success"; "unknown"; "parameter_missing"; "verboselimit"; "time_limit"; "floating_point_type"; "observer_type"; "print_level"; "preprocessing"; "constraint_order"; "storage_type"; "theta"; "delta"; "kappa_min"; "kappa_step"; "kappa_max"; "alpha"; "w"; "norm"; "pushes_limit"; "pushing_objective_amplifier"; "pushing_iteration_limit"; "pushing_k_factor"; "init_population_size"; "init_policy"; "init_policy_random"; "init_crossover_bastert_insertion"; "init_crossover_solution_selection_mean"; "init_crossover_solution_selection_stddev"; "init_mutation_variable_mean"; "init_mutation_variable_stddev"; "init_mutation_value_mean"; "init_mutation_value_stddev"; "init_kappa_improve_start"; "init_kappa_improve_increase"; "init_kappa_improve_stop"; "thread"; "seed"].
(** to_string, 554-562. None: the assertion fails, or undefined behaviour without assertions *)
Definition status_string (s : status) : option string := nth_error status_strings (status_index s).

(** std::numeric_limits<double>::max() *)
Definition dbl_max : dbl := dofZ ((2 ^ 53 - 1) * 2 ^ 971).

Section Cli.
(** sscanf on "%lf", "%d" and "%ld": -1 (end of the string before a value), 0 (no value) or 1 and
    the value. *)
Inductive scan (A : Type) := Scan_eof | Scan_none | Scan_value (a : A).
Arguments Scan_eof {A}. Arguments Scan_none {A}. Arguments Scan_value {A} _.
Variable scan_double : text -> scan dbl.
Variable scan_int : text -> scan Z.
Variable scan_long : text -> scan Z.

(** main.hpp:58-84: a result of -1 is taken for a value and leaves 0.0 *)
Definition to_double (s : text) : option dbl :=
  if Nat.ltb 512 (List.length s) then None
  else match scan_double s with Scan_eof => Some (dofZ 0) | Scan_none => None | Scan_value d => Some d end.
(** main.hpp:91-113 and 120-142 *)
Definition to_int (s : text) : option Z :=
  if Nat.ltb 512 (List.length s) then None else match scan_int s with Scan_value z => Some z | _ => None end.
(** main.hpp:120-142 *)
Definition to_long (s : text) : option Z :=
  if Nat.ltb 512 (List.length s) then None else match scan_long s with Scan_value z => Some z | _ => None end.

(** 392-445. a > b is dlt b a *)
Definition assign_0oo (v : text) : option dbl := do d <- to_double v; if dlt (dofZ 0) d then Some d else None.
(** main.cpp:392-445, a double between 0 and 1 *)
Definition assign_01 (v : text) : option dbl := do d <- to_double v; if dle (dofZ 0) d && dle d (dofZ 1) then Some d else None.
(** main.cpp:392-445, an int *)
Definition assign_int (v : text) (mn mx : Z) : option Z := do z <- to_int v; if (mn <=? z) && (z <=? mx) then Some z else None.
(** main.cpp:392-445, a long *)
Definition assign_long (v : text) (mn mx : Z) : option Z := do z <- to_long v; if (mn <=? z) && (z <=? mx) then Some z else None.
(** main.cpp:392-445, a double *)
Definition assign_d (v : text) (mn mx : dbl) : option dbl := do d <- to_double v; if dle mn d && dle d mx then Some d else None.

(** operator== of std::string_view *)
Fixpoint text_eqb (a b : text) : bool :=
  match a, b with [], [] => true | x :: a', y :: b' => Ascii.eqb x y && text_eqb a' b' | _, _ => false end.
(** is_equal, 379-390 *)
Definition is_equal (name : text) (longf : string) (shortf : option ascii) : bool :=
  text_eqb name (str longf) ||
  match shortf, name with
  | Some c, [_; d] => Ascii.eqb d c
  | _, _ => false
  end.
(** The chains "if (value == ...) params.field = ...", 582-594 and following *)
Fixpoint value_of {A} (table : list (string * A)) (v : text) : option A :=
  match table with [] => None | (s, a) :: r => if text_eqb v (str s) then Some a else value_of r v end.

(** main.cpp:582-594 *)
Definition float_type_table : list (string * float_type) := [("float", ft_float); ("double", ft_double); ("longdouble", ft_longdouble)].
(** main.cpp: the values of the parameter observer-type *)
Definition observer_table : list (string * observer_opt) := [("none", ob_none); ("pnm", ob_pnm); ("file", ob_file)].
(** main.cpp: the values of the parameter pre-order *)
Definition pre_order_table : list (string * pre_order) := [("none", po_none); ("memory", po_memory); ("p1", po_p1); ("p2", po_p2); ("p3", po_p3); ("p4", po_p4); ("less-greater-equal", po_less_greater_equal); ("less-equal-greater", po_less_equal_greater); ("greater-less-equal", po_greater_less_equal); ("greater-equal-less", po_greater_equal_less); ("equal-less-greater", po_equal_less_greater); ("equal-greater-less", po_equal_greater_less)].
(** main.cpp: the values of the parameter constraint-order *)
Definition order_table : list (string * constraint_order) := [("none", co_none); ("reversing", co_reversing); ("random-sorting", co_random_sorting); ("infeasibility-decr", co_infeasibility_decr); ("infeasibility-incr", co_infeasibility_incr); ("lagrangian-decr", co_lagrangian_decr); ("lagrangian-incr", co_lagrangian_incr); ("pi-sign-change", co_pi_sign_change); ("cycle", co_cycle)].
(** main.cpp: the values of the parameter storage-type *)
Definition storage_table : list (string * storage_opt) := [("five", sg_five); ("bound", sg_bound); ("one", sg_one)].
(** main.cpp: the values of the parameter norm *)
Definition cost_norm_table : list (string * cost_norm) := [("none", cn_none); ("random", cn_random); ("l1", cn_l1); ("l2", cn_l2); ("loo", cn_loo)].
(** main.cpp: the values of the parameter init-policy *)
Definition init_policy_table : list (string * init_policy) := [("bastert", ip_bastert); ("pessimistic-solve", ip_pessimistic_solve); ("optimistic-solve", ip_optimistic_solve)].

(** The end of each case of assign_parameter: a status, the field is set on success only (main.cpp:565-878). *)
Definition assigned {A} (e : status) (set : A -> params -> params) (a : option A) (p : params) : status * params :=
  match a with None => (e, p) | Some v => (success, set v p) end.
(** assign_parameter, 564-878. The chains that compare [value] with words are the tables above (582-594,
    595-604, 611-690, 734-750, 843-855). *)
Definition assign_parameter (p : params) (name v : text) : status * params :=
  if is_equal name "limit" (Some "l"%char) then assigned limit_error set_limit (assign_long v (-1) long_max) p else
  if is_equal name "time-limit" None then assigned time_limit_error set_time_limit (option_map (fun d => if dle d (dofZ 0) then dofZ (-1) else d) (to_double v)) p else
  if is_equal name "floating-point-type" None then assigned floating_point_type_error set_float_type (value_of float_type_table v) p else
  if is_equal name "observer-type" None then assigned observer_type_error set_observer (value_of observer_table v) p else
  if is_equal name "print-level" None then assigned print_level_error set_print_level (assign_int v 0 2) p else
  if is_equal name "preprocessing" None then assigned preprocessing_error set_pre_order (value_of pre_order_table v) p else
  if is_equal name "constraint-order" None then assigned constraint_order_error set_order (value_of order_table v) p else
  if is_equal name "storage-type" None then assigned storage_type_error set_storage (value_of storage_table v) p else
  if is_equal name "theta" None then assigned theta_error set_theta (assign_01 v) p else
  if is_equal name "delta" None then assigned delta_error set_delta (assign_0oo v) p else
  if is_equal name "kappa-min" None then assigned kappa_min_error set_kappa_min (assign_01 v) p else
  if is_equal name "kappa-step" None then assigned kappa_step_error set_kappa_step (assign_01 v) p else
  if is_equal name "kappa-max" None then assigned kappa_max_error set_kappa_max (assign_01 v) p else
  if is_equal name "alpha" None then assigned alpha_error set_alpha (assign_d v (dofZ 0) (dofZ 2)) p else
  if is_equal name "w" None then assigned w_error set_w (assign_d v (dofZ 0) dbl_max) p else
  if is_equal name "norm" None then assigned norm_error set_cost_norm (value_of cost_norm_table v) p else
  if is_equal name "pushes-limit" None then assigned pushes_limit_error set_pushes_limit (assign_int v 0 int_max) p else
  if is_equal name "pushing-objective-amplifier" None then assigned pushing_objective_amplifier_error set_pushing_objective_amplifier (assign_0oo v) p else
  if is_equal name "pushing-iteration-limit" None then assigned pushing_iteration_limit_error set_pushing_iteration_limit (assign_int v 0 int_max) p else
  if is_equal name "pushing-k-factor" None then assigned pushing_k_factor_error set_pushing_k_factor (assign_0oo v) p else
  if is_equal name "init-population-size" None then assigned init_population_size_error set_population_size (assign_int v 5 int_max) p else
  if is_equal name "init-crossover-bastert-insertion" None then assigned init_crossover_bastert_insertion_error set_crossover_bastert (assign_01 v) p else
  if is_equal name "init-crossover-solution-selection-mean" None then assigned init_crossover_solution_selection_mean_error set_crossover_mean (assign_01 v) p else
  if is_equal name "init-crossover-solution-selection-stddev" None then assigned init_crossover_solution_selection_stddev_error set_crossover_stddev (assign_01 v) p else
  if is_equal name "init-mutation-variable-mean" None then assigned init_mutation_variable_mean_error set_mutation_variable_mean (assign_01 v) p else
  if is_equal name "init-mutation-variable-stddev" None then assigned init_mutation_variable_stddev_error set_mutation_variable_stddev (assign_01 v) p else
  if is_equal name "init-mutation-value-mean" None then assigned init_mutation_value_mean_error set_mutation_value_mean (assign_01 v) p else
  if is_equal name "init-mutation-value-stddev" None then assigned init_mutation_value_stddev_error set_mutation_value_stddev (assign_01 v) p else
  if is_equal name "init-kappa-improve-start" None then assigned init_kappa_improve_start_error set_improve_start (assign_01 v) p else
  if is_equal name "init-kappa-improve-increase" None then assigned init_kappa_improve_increase_error set_improve_increase (assign_01 v) p else
  if is_equal name "init-kappa-improve-stop" None then assigned init_kappa_improve_stop_error set_improve_stop (assign_01 v) p else
  if is_equal name "init-policy" None then assigned init_policy_error set_init_policy (value_of init_policy_table v) p else
  if is_equal name "init-policy-random" None then assigned init_policy_random_error set_init_policy_random (assign_01 v) p else
  if is_equal name "thread" None then assigned thread_error set_thread (assign_int v 0 int_max) p else
  if is_equal name "seed" None then assigned seed_error set_seed (assign_int v 0 int_max) p else
  (unknown, p).

(** split_argument, 250-264 *)
Definition is_sep (c : ascii) : bool := Ascii.eqb c ":" || Ascii.eqb c "=".
(** main.cpp:250-264, the search of the separator *)
Fixpoint find_sep (t : text) : option nat :=
  match t with [] => None | c :: r => if is_sep c then Some O else option_map S (find_sep r) end.
(** main.cpp:250-264 *)
Definition split_argument (t : text) : text * text :=
  match find_sep t with
  | None => ([], [])
  | Some i => if Nat.leb (List.length t) (i + 1) then (t, []) else (firstn i t, skipn (i + 1) t)
  end.

(** starts_with, 266-270 *)
Fixpoint starts_with (t u : text) : bool :=
  match u, t with [], _ => true | c :: u', d :: t' => Ascii.eqb d c && starts_with t' u' | _ :: _, [] => false end.
(** get_param, 272-313: the value and whether it is the next argument; [rest]: the arguments that
    follow *)
Definition get_param (arg : text) (rest : list text) (longp shortp : string) : option (text * bool) :=
  let l := List.length (str longp) in
  if starts_with arg (str longp) && Nat.ltb l (List.length arg) && match nth_error arg l with Some c => is_sep c | None => false end
  then Some (skipn (l + 1) arg, false)
  else if starts_with arg (str shortp) && Nat.ltb (List.length (str shortp)) (List.length arg)
  then Some (skipn (List.length (str shortp)) arg, false)
  else match rest with
       | [] => None
       | next :: _ => if text_eqb arg (str longp) || text_eqb arg (str shortp) then Some (next, true) else None
       end.

(** main_parameters, 880-893 *)
Record main_parameters := mk_main {
  mp_params : params; mp_files : list text; mp_check_filename : text; mp_bench_name : text;
  mp_verbose : Z; mp_arg : nat; mp_check : bool; mp_optimize : bool; mp_quiet : bool; mp_bench : bool;
  mp_status : status }.
(** The initial values of main_parameters, main.cpp:880-893. *)
Definition main0 : main_parameters := mk_main default_params [] [] [] 6 0 false false false false success.
(** Assignment of params (main.cpp:880-893). *)
Definition set_main_params (f : params -> params) (m : main_parameters) : main_parameters :=
  mk_main (f (mp_params m)) (mp_files m) (mp_check_filename m) (mp_bench_name m) (mp_verbose m) (mp_arg m) (mp_check m) (mp_optimize m) (mp_quiet m) (mp_bench m) (mp_status m).
(** Assignment of the index of the wrong argument (main.cpp:880-893). *)
Definition set_arg (i : nat) (m : main_parameters) : main_parameters :=
  mk_main (mp_params m) (mp_files m) (mp_check_filename m) (mp_bench_name m) (mp_verbose m) i (mp_check m) (mp_optimize m) (mp_quiet m) (mp_bench m) (mp_status m).
(** Assignment of parse_status (main.cpp:880-893). *)
Definition set_status (s : status) (m : main_parameters) : main_parameters :=
  mk_main (mp_params m) (mp_files m) (mp_check_filename m) (mp_bench_name m) (mp_verbose m) (mp_arg m) (mp_check m) (mp_optimize m) (mp_quiet m) (mp_bench m) s.
(** Assignment of quiet (main.cpp:880-893). *)
Definition set_quiet (m : main_parameters) : main_parameters :=
  mk_main (mp_params m) (mp_files m) (mp_check_filename m) (mp_bench_name m) (mp_verbose m) (mp_arg m) (mp_check m) (mp_optimize m) true (mp_bench m) (mp_status m).
(** Assignment of optimize (main.cpp:880-893). *)
Definition set_optimize (m : main_parameters) : main_parameters :=
  mk_main (mp_params m) (mp_files m) (mp_check_filename m) (mp_bench_name m) (mp_verbose m) (mp_arg m) (mp_check m) true (mp_quiet m) (mp_bench m) (mp_status m).
(** Assignment of bench and bench_name (main.cpp:880-893). *)
Definition set_bench (n : text) (m : main_parameters) : main_parameters :=
  mk_main (mp_params m) (mp_files m) (mp_check_filename m) n (mp_verbose m) (mp_arg m) (mp_check m) (mp_optimize m) (mp_quiet m) true (mp_status m).
(** Assignment of check and check_filename (main.cpp:880-893). *)
Definition set_check_filename (n : text) (m : main_parameters) : main_parameters :=
  mk_main (mp_params m) (mp_files m) n (mp_bench_name m) (mp_verbose m) (mp_arg m) (mp_check m) (mp_optimize m) (mp_quiet m) (mp_bench m) (mp_status m).
(** Assignment of verbose (main.cpp:880-893). *)
Definition set_verbose (z : Z) (m : main_parameters) : main_parameters :=
  mk_main (mp_params m) (mp_files m) (mp_check_filename m) (mp_bench_name m) z (mp_arg m) (mp_check m) (mp_optimize m) (mp_quiet m) (mp_bench m) (mp_status m).
(** filenames.emplace_back (main.cpp:880-893). *)
Definition add_file (n : text) (m : main_parameters) : main_parameters :=
  mk_main (mp_params m) (mp_files m ++ [n]) (mp_check_filename m) (mp_bench_name m) (mp_verbose m) (mp_arg m) (mp_check m) (mp_optimize m) (mp_quiet m) (mp_bench m) (mp_status m).

(** 932-955 *)
Definition auto_mode (v : text) : opt_mode :=
  if text_eqb v (str "manual") then om_manual
  else if text_eqb v (str "nlopt") then om_nlopt
  else if text_eqb v (str "branch") then om_branch
  else if text_eqb v (str "branch-manual") then om_manual_branch
  else if text_eqb v (str "branch-nlopt") then om_nlopt_branch
  else om_none.
(** 960-968: None: error *)
Definition verbose_step (arg : text) (rest : list text) (m : main_parameters) : option main_parameters :=
  match get_param arg rest "--verbose" "-v" with
  | None => Some m
  | Some (v, _) => option_map (fun z => set_verbose z m) (assign_int v 0 6)
  end.
(** 976-991 *)
Definition param_step (v : text) (m : main_parameters) : main_parameters :=
  let (name, value) := split_argument v in
  match name, value with
  | [], _ | _, [] => set_status parameter_missing m
  | _, _ => let (s, p) := assign_parameter (mp_params m) name value in
            match s with success => set_main_params (fun _ => p) m | _ => set_status s m end
  end.
(** One turn of the loop, 901-1004: the parameters, the number of arguments used (1 or 2) and
    whether the loop returns. assign_parameter changes the parameters only on success. *)
Inductive turn := Next (used : nat) (m : main_parameters) | Return_ (m : main_parameters).
(** The number of arguments used by an option, main.cpp:901-1004. *)
Definition used (two : bool) : nat := (if two then 2 else 1)%nat.
(** main.cpp:901-1004 *)
Definition parse_turn (arg : text) (rest : list text) (m : main_parameters) : turn :=
  let is s := text_eqb arg (str s) in
  if is "--help" || is "-h" then Next 1 m
  else if is "--quiet" || is "-q" then Next 1 (set_quiet m)
  else if is "--optimize" || is "-O" then Next 1 (set_optimize m)
  else match get_param arg rest "--bench" "-b" with
  | Some (v, two) => Next (used two) (set_bench v m)
  | None =>
    if is "--disable-preprocessing" || is "-np" then Next 1 (set_main_params (set_preprocessor pp_none) m)
    else match get_param arg rest "--auto" "-a" with
    | Some (v, two) => Next (used two) (set_main_params (set_mode (auto_mode v)) m)
    | None =>
      match verbose_step arg rest m with
      | None => Return_ (set_status verbose_error m)
      | Some m =>
        match get_param arg rest "--check" "-C" with
        | Some (v, two) => Next (used two) (set_check_filename v m)
        | None =>
          match get_param arg rest "--param" "-p" with
          | Some (v, two) =>
            let m' := param_step v m in
            match mp_status m' with success => Next (used two) m' | _ => Return_ m' end
          | None =>
            if is "--random" then Next 1 (set_main_params (set_solver so_random) m)
            else if is "--debug" then Next 1 (set_main_params (set_debug true) m)
            else Next 1 (add_file arg m)
          end
        end
      end
    end
  end.
(** parse, 895-1008: [i] is the index of the first argument left; [skip]: it is the value of the
    option before it. *)
Fixpoint parse_from (i : nat) (skip : bool) (args : list text) (m : main_parameters) : main_parameters :=
  match args with
  | [] => m
  | arg :: rest =>
    if skip then parse_from (S i) false rest m
    else match parse_turn arg rest (set_arg i m) with
         | Return_ m => m
         | Next n m => parse_from (S i) (Nat.eqb n 2) rest m
         end
  end.
(** The arguments without the name of the program. *)
Definition parse_args (args : list text) : main_parameters := parse_from 1 false args main0.
End Cli.
Arguments Scan_eof {A}. Arguments Scan_none {A}. Arguments Scan_value {A} _.
