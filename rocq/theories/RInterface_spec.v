(** Vocabulary for the R package. *)
From Coq Require Import QArith.
From Verif Require Import Base Problem_model Merged_model Params_model Params_spec Validate_model Rows_model Solver_model RInterface_model.
Open Scope Z_scope.

(** ** The codes of the documentation, rbaryonyx.cpp:293-344 (and 451-495) *)
Definition doc_pre_constraint_order : list (Z * pre_order) :=
  [(0, po_none); (1, po_memory); (2, po_less_greater_equal); (3, po_less_equal_greater); (4, po_greater_less_equal); (5, po_greater_equal_less);
   (6, po_equal_less_greater); (7, po_equal_greater_less); (8, po_p1); (9, po_p2); (10, po_p3); (11, po_p4)].
Definition doc_constraint_order : list (Z * constraint_order) :=
  [(0, co_none); (1, co_reversing); (2, co_random_sorting); (3, co_infeasibility_decr); (4, co_infeasibility_incr); (5, co_lagrangian_decr);
   (6, co_lagrangian_incr); (7, co_pi_sign_change); (8, co_cycle)].
Definition doc_norm : list (Z * cost_norm) := [(0, cn_none); (1, cn_random); (2, cn_l1); (3, cn_l2); (4, cn_loo)].
Definition doc_init_policy : list (Z * init_policy) := [(0, ip_bastert); (1, ip_pessimistic_solve); (2, ip_optimistic_solve)].
Definition doc_float_type : list (Z * float_type) := [(0, ft_float); (1, ft_double); (2, ft_longdouble)].
Definition doc_storage_type : list (Z * storage_opt) := [(0, sg_one); (1, sg_bound); (2, sg_five)].

(** The parameters that the two functions share are those of the call: the numbers, and the options that the
    documentation gives for the codes. A w smaller than 1 is a part of the loops. *)
Definition w_means (limit : Z) (given used : dbl) : Prop :=
  exists q q', given = Fin q /\ used = Fin q' /\ ((q < 1)%Q -> (q' == inject_Z limit * q)%Q) /\ ((1 <= q)%Q -> (q' == q)%Q).
Record uses (a : r_args) (f : params) : Prop := {
  us_time : pm_time_limit f = ra_time_limit a;
  us_theta : pm_theta f = ra_theta a;
  us_delta : pm_delta f = ra_delta a;
  us_kappa_min : pm_kappa_min f = ra_kappa_min a;
  us_kappa_step : pm_kappa_step f = ra_kappa_step a;
  us_kappa_max : pm_kappa_max f = ra_kappa_max a;
  us_alpha : pm_alpha f = ra_alpha a;
  us_push_k : pm_pushing_k_factor f = ra_pushing_k_factor a;
  us_push_amp : pm_pushing_objective_amplifier f = ra_pushing_objective_amplifier a;
  us_w : w_means (ra_limit a) (ra_w a) (pm_w f);
  us_seed : 0 <= ra_seed a -> pm_seed f = ra_seed a;
  us_thread : pm_thread f = ra_thread a;
  us_limit : pm_limit f = ra_limit a;
  us_pushes : pm_pushes_limit f = ra_pushes_limit a;
  us_push_iter : pm_pushing_iteration_limit f = ra_pushing_iteration_limit a;
  us_pre_order : In (ra_pre_constraint_order a, pm_pre_order f) doc_pre_constraint_order;
  us_order : In (ra_constraint_order a, pm_order f) doc_constraint_order;
  us_norm : In (ra_norm a, pm_cost_norm f) doc_norm;
  us_float : In (ra_float_type a, pm_float_type f) doc_float_type;
  us_storage : In (ra_storage_type a, pm_storage f) doc_storage_type }.
Definition uses_opt (o : r_opt_args) (f : params) : Prop :=
  pm_crossover_bastert f = ro_bastert_insertion o /\ pm_crossover_mean f = ro_crossover_mean o /\ pm_crossover_stddev f = ro_crossover_stddev o /\
  pm_mutation_variable_mean f = ro_variable_mean o /\ pm_mutation_variable_stddev f = ro_variable_stddev o /\
  pm_mutation_value_mean f = ro_value_mean o /\ pm_mutation_value_stddev f = ro_value_stddev o /\
  pm_improve_start f = ro_improve_start o /\ pm_improve_increase f = ro_improve_increase o /\ pm_improve_stop f = ro_improve_stop o.

(** Numbers in their ranges. *)
Record args_ok (a : r_args) : Prop := {
  ak_time : exists q, ra_time_limit a = Fin q /\ (0 < q)%Q;
  ak_theta : within 0 1 (ra_theta a);
  ak_delta : (exists q, ra_delta a = Fin q /\ (q == -1)%Q) \/ nonneg (ra_delta a);
  ak_kappa : exists k s m, ra_kappa_min a = Fin k /\ ra_kappa_step a = Fin s /\ ra_kappa_max a = Fin m /\
               (0 <= k)%Q /\ (k < m)%Q /\ (m <= 1)%Q /\ (0 <= s)%Q /\ (s < 1)%Q;
  ak_alpha : nonneg (ra_alpha a);
  ak_push : (exists q, ra_pushing_k_factor a = Fin q) /\ (exists q, ra_pushing_objective_amplifier a = Fin q);
  ak_limit : 1 <= ra_limit a;
  ak_w : within 0 (inject_Z (ra_limit a)) (ra_w a);
  ak_seed : - 2 ^ 31 <= ra_seed a < 2 ^ 31;
  ak_pushes : 0 <= ra_pushes_limit a /\ 0 <= ra_pushing_iteration_limit a;
  ak_policy : within 0 1 (ra_init_policy_random a);
  ak_codes : 0 <= ra_pre_constraint_order a <= 11 /\ 0 <= ra_constraint_order a <= 8 /\ 0 <= ra_norm a <= 4 /\ 0 <= ra_init_policy a <= 2 /\
             0 <= ra_float_type a <= 2 /\ 0 <= ra_storage_type a <= 2 }.
Definition opt_args_ok (o : r_opt_args) : Prop :=
  within 0 1 (ro_bastert_insertion o) /\ within 0 1 (ro_crossover_mean o) /\ within 0 1 (ro_crossover_stddev o) /\
  within 0 1 (ro_variable_mean o) /\ within 0 1 (ro_variable_stddev o) /\ within 0 1 (ro_value_mean o) /\ within 0 1 (ro_value_stddev o) /\
  exists a b, ro_improve_start o = Fin a /\ ro_improve_stop o = Fin b /\ (0 <= a)%Q /\ (a <= b)%Q /\ (b <= 1)%Q /\ within 0 1 (ro_improve_increase o).
