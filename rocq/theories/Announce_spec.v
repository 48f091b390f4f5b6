(** Vocabulary for what the tool prints about its parameters. *)
From Coq Require Import Ascii String QArith.
From Verif Require Import Base Problem_model Merged_model Solver_model Params_model Params_spec Cli_model Cli_spec.
Open Scope string_scope.
Open Scope list_scope.
Open Scope Z_scope.

(** The line that gives the value [v] to the name [name]. *)
Definition line_of (name : string) (v : text) : text := str ("  - " ++ name ++ ": ")%string ++ v.

(** The text printed for a number is read back as that number: as a long, and as an int when it is not above the largest one. *)
Definition reads_back (sd : text -> scan dbl) (si sl : text -> scan Z) (t : text) (v : value) : Prop :=
  match v with
  | V_d d => (List.length t <= 512)%nat /\ sd t = Scan_value d
  | V_z z => (List.length t <= 512)%nat /\ sl t = Scan_value z /\ (z <= int_max -> si t = Scan_value z)
  | _ => True
  end.

(** The range of each parameter. [time] says which time limits there are. *)
Definition in_its_range (time : dbl -> Prop) (n : pname) (v : value) : Prop :=
  match n, v with
  | N_limit, V_z z => -1 <= z <= long_max
  | N_time_limit, V_d d => time d
  | N_print_level, V_z z => 0 <= z <= 2
  | (N_theta | N_kappa_min | N_kappa_step | N_kappa_max | N_crossover_bastert | N_crossover_mean | N_crossover_stddev | N_mutation_variable_mean
     | N_mutation_variable_stddev | N_mutation_value_mean | N_mutation_value_stddev | N_improve_start | N_improve_increase | N_improve_stop
     | N_init_policy_random), V_d d => within 0 1 d
  | N_delta, V_d d => d = dofZ (-1) \/ positive d
  | N_alpha, V_d d => within 0 2 d
  | N_w, V_d d => within 0 (inject_Z ((2 ^ 53 - 1) * 2 ^ 971)) d
  | (N_pushes_limit | N_pushing_iteration_limit | N_thread | N_seed), V_z z => 0 <= z <= int_max
  | (N_pushing_objective_amplifier | N_pushing_k_factor), V_d d => positive d
  | N_population_size, V_z z => 5 <= z <= int_max
  | N_float_type, V_float _ | N_observer, V_obs _ | N_pre_order, V_pre _ | N_order, V_order _ | N_storage, V_storage _ | N_cost_norm, V_norm _
  | N_init_policy, V_init _ => True
  | _, _ => False
  end.
(** A limit in seconds, or -1 for none. *)
Definition seconds (d : dbl) : Prop := d = dofZ (-1) \/ positive d.
(** The text [t] is what is printed for the value [v]. *)
Definition printed_as (show_int : Z -> text) (show_g show_d : dbl -> text) (n : pname) (v : value) (t : text) : Prop :=
  match v with
  | V_z z => t = show_int z
  | V_d d => t = show_g d ++ (match n with N_time_limit => str "s" | _ => [] end) \/ t = show_d d
  | _ => True
  end.
(** The parameters without a line of their own: the three kappa are on one line, the observer has another name. *)
Definition not_announced (n : pname) : Prop :=
  n = N_observer \/ n = N_storage \/ n = N_kappa_min \/ n = N_kappa_step \/ n = N_kappa_max \/ n = N_thread \/ n = N_seed.
