(** Parameters that give more time to solve(). *)
From Coq Require Import QArith Qround.
From Verif Require Import Base Problem_model Merged_model Params_model Rows_model Solver_model.
Open Scope Z_scope.

(** The same parameters with another limit of the iterations, or another number of pushes. *)
Definition with_limit {F} (pa : sparams F) (limit : Z) : sparams F :=
  mk_sparams F limit (pa_w pa) (pa_kappa_min pa) (pa_kappa_step pa) (pa_kappa_max pa) (pa_alpha pa) (pa_theta pa) (pa_delta pa)
    (pa_pushing_k_factor pa) (pa_amplifier pa) (pa_pushes_limit pa) (pa_pushing_iteration_limit pa) (pa_order pa) (pa_init pa).
Definition with_pushes {F} (pa : sparams F) (pushes : Z) : sparams F :=
  mk_sparams F (pa_limit pa) (pa_w pa) (pa_kappa_min pa) (pa_kappa_step pa) (pa_kappa_max pa) (pa_alpha pa) (pa_theta pa) (pa_delta pa)
    (pa_pushing_k_factor pa) (pa_amplifier pa) pushes (pa_pushing_iteration_limit pa) (pa_order pa) (pa_init pa).
(** [l'] allows at least as many iterations as [l]; a negative limit is no limit (C102). *)
Definition longer (l l' : Z) : Prop := 0 <= l <= l' \/ l' < 0.

(** The parameters of the user with another limit and another w. *)
Definition user_limit (p : params) (limit : Z) (w : dbl) : params :=
  mk_params (pm_time_limit p) (pm_theta p) (pm_delta p) (pm_kappa_min p) (pm_kappa_step p) (pm_kappa_max p) (pm_alpha p) (pm_pushing_k_factor p)
    (pm_pushing_objective_amplifier p) (pm_init_policy_random p) (pm_crossover_bastert p) (pm_crossover_mean p) (pm_crossover_stddev p)
    (pm_mutation_variable_mean p) (pm_mutation_variable_stddev p) (pm_mutation_value_mean p) (pm_mutation_value_stddev p) (pm_improve_start p)
    (pm_improve_increase p) (pm_improve_stop p) w (pm_seed p) (pm_thread p) limit (pm_print_level p) (pm_pushes_limit p)
    (pm_pushing_iteration_limit p) (pm_population_size p) (pm_pre_order p) (pm_order p) (pm_float_type p) (pm_init_policy p) (pm_cost_norm p)
    (pm_mode p) (pm_preprocessor p) (pm_observer p) (pm_storage p) (pm_solver p) (pm_debug p).
(** The integer part of a number. *)
Definition whole (d : dbl) : option Z := match d with Fin q => Some (Qfloor q) | _ => None end.
