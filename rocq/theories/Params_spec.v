(** Vocabulary for the solver parameters. *)
From Coq Require Import QArith.
From Verif Require Import Base Merged_model Solver_model Params_model.
Open Scope Q_scope.

(** [within lo hi v]: v is a finite number with lo <= v <= hi. *)
Definition within (lo hi : Q) (v : dbl) : Prop := exists q, v = Fin q /\ (lo <= q <= hi)%Q.
Definition nonneg (v : dbl) : Prop := v = PosInf \/ exists q, v = Fin q /\ (0 <= q)%Q.
Definition positive_time (v : dbl) : Prop := v = PosInf \/ exists q, v = Fin q /\ (0 < q)%Q.

(** The ranges given by the comments of the structure and by the loops that use the values. *)
Record in_range (p : params) : Prop := {
  ir_theta : within 0 1 (pm_theta p);
  ir_delta : (exists q, pm_delta p = Fin q /\ q == -1) \/ nonneg (pm_delta p);
  ir_kappa : exists a s b, pm_kappa_min p = Fin a /\ pm_kappa_step p = Fin s /\ pm_kappa_max p = Fin b /\
               0 <= a /\ a < b /\ b <= 1 /\ 0 <= s /\ s < 1;
  ir_alpha : nonneg (pm_alpha p);
  ir_pushing : (exists q, pm_pushing_k_factor p = Fin q) /\ (exists q, pm_pushing_objective_amplifier p = Fin q);
  ir_policy : within 0 1 (pm_init_policy_random p);
  ir_crossover : within 0 1 (pm_crossover_bastert p) /\ within 0 1 (pm_crossover_mean p) /\ within 0 1 (pm_crossover_stddev p);
  ir_mutation : within 0 1 (pm_mutation_variable_mean p) /\ within 0 1 (pm_mutation_variable_stddev p) /\
                within 0 1 (pm_mutation_value_mean p) /\ within 0 1 (pm_mutation_value_stddev p);
  ir_improve : exists a b, pm_improve_start p = Fin a /\ pm_improve_stop p = Fin b /\ 0 <= a /\ a <= b /\ b <= 1 /\
               within 0 1 (pm_improve_increase p);
  ir_limit : (1 <= pm_limit p)%Z;
  ir_w : within 0 (inject_Z (pm_limit p)) (pm_w p);
  ir_level : (0 <= pm_print_level p)%Z;
  ir_pushes : (0 <= pm_pushes_limit p)%Z /\ (0 <= pm_pushing_iteration_limit p)%Z;
  ir_population : (5 <= pm_population_size p)%Z }.

(** A call whose numbers are not NaN, and whose w is at most the largest long int when no
    loop limit is given. *)
Definition no_nan (p : params) : Prop :=
  pm_improve_start p <> NaN /\ pm_improve_increase p <> NaN /\ pm_improve_stop p <> NaN /\ pm_w p <> NaN /\
  pm_time_limit p <> NaN.
Definition w_fits (p : params) : Prop :=
  (0 < pm_limit p)%Z \/ (exists q, pm_w p = Fin q /\ q <= inject_Z long_max) \/ pm_w p = NegInf.

(** The parameters after a sequence of calls. *)
Definition after_calls (calls : list params) : params := fold_left set_params calls default_params.
