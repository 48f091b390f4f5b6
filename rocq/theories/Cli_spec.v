(** The parameters of the command line: names, values, ranges. *)
From Coq Require Import Ascii String QArith.
From Verif Require Import Base Problem_model Merged_model Solver_model Params_model Params_spec Cli_model.
Open Scope string_scope.
Open Scope list_scope.
Open Scope Z_scope.

(** The parameters that -p can set and the names of the options. *)
Inductive pname :=
| N_limit
| N_time_limit
| N_float_type
| N_observer
| N_print_level
| N_pre_order
| N_order
| N_storage
| N_theta
| N_delta
| N_kappa_min
| N_kappa_step
| N_kappa_max
| N_alpha
| N_w
| N_cost_norm
| N_pushes_limit
| N_pushing_objective_amplifier
| N_pushing_iteration_limit
| N_pushing_k_factor
| N_population_size
| N_crossover_bastert
| N_crossover_mean
| N_crossover_stddev
| N_mutation_variable_mean
| N_mutation_variable_stddev
| N_mutation_value_mean
| N_mutation_value_stddev
| N_improve_start
| N_improve_increase
| N_improve_stop
| N_init_policy
| N_init_policy_random
| N_thread
| N_seed.
Definition option_name (n : pname) : string :=
  match n with
  | N_limit => "limit"
  | N_time_limit => "time-limit"
  | N_float_type => "floating-point-type"
  | N_observer => "observer-type"
  | N_print_level => "print-level"
  | N_pre_order => "preprocessing"
  | N_order => "constraint-order"
  | N_storage => "storage-type"
  | N_theta => "theta"
  | N_delta => "delta"
  | N_kappa_min => "kappa-min"
  | N_kappa_step => "kappa-step"
  | N_kappa_max => "kappa-max"
  | N_alpha => "alpha"
  | N_w => "w"
  | N_cost_norm => "norm"
  | N_pushes_limit => "pushes-limit"
  | N_pushing_objective_amplifier => "pushing-objective-amplifier"
  | N_pushing_iteration_limit => "pushing-iteration-limit"
  | N_pushing_k_factor => "pushing-k-factor"
  | N_population_size => "init-population-size"
  | N_crossover_bastert => "init-crossover-bastert-insertion"
  | N_crossover_mean => "init-crossover-solution-selection-mean"
  | N_crossover_stddev => "init-crossover-solution-selection-stddev"
  | N_mutation_variable_mean => "init-mutation-variable-mean"
  | N_mutation_variable_stddev => "init-mutation-variable-stddev"
  | N_mutation_value_mean => "init-mutation-value-mean"
  | N_mutation_value_stddev => "init-mutation-value-stddev"
  | N_improve_start => "init-kappa-improve-start"
  | N_improve_increase => "init-kappa-improve-increase"
  | N_improve_stop => "init-kappa-improve-stop"
  | N_init_policy => "init-policy"
  | N_init_policy_random => "init-policy-random"
  | N_thread => "thread"
  | N_seed => "seed"
  end.
(** A value of any of them. *)
Inductive value :=
| V_d (d : dbl) | V_z (z : Z) | V_pre (a : pre_order) | V_order (a : constraint_order) | V_float (a : float_type)
| V_init (a : init_policy) | V_norm (a : cost_norm) | V_obs (a : observer_opt) | V_storage (a : storage_opt).
Definition field (n : pname) (p : params) : value :=
  match n with
  | N_limit => V_z (pm_limit p)
  | N_time_limit => V_d (pm_time_limit p)
  | N_float_type => V_float (pm_float_type p)
  | N_observer => V_obs (pm_observer p)
  | N_print_level => V_z (pm_print_level p)
  | N_pre_order => V_pre (pm_pre_order p)
  | N_order => V_order (pm_order p)
  | N_storage => V_storage (pm_storage p)
  | N_theta => V_d (pm_theta p)
  | N_delta => V_d (pm_delta p)
  | N_kappa_min => V_d (pm_kappa_min p)
  | N_kappa_step => V_d (pm_kappa_step p)
  | N_kappa_max => V_d (pm_kappa_max p)
  | N_alpha => V_d (pm_alpha p)
  | N_w => V_d (pm_w p)
  | N_cost_norm => V_norm (pm_cost_norm p)
  | N_pushes_limit => V_z (pm_pushes_limit p)
  | N_pushing_objective_amplifier => V_d (pm_pushing_objective_amplifier p)
  | N_pushing_iteration_limit => V_z (pm_pushing_iteration_limit p)
  | N_pushing_k_factor => V_d (pm_pushing_k_factor p)
  | N_population_size => V_z (pm_population_size p)
  | N_crossover_bastert => V_d (pm_crossover_bastert p)
  | N_crossover_mean => V_d (pm_crossover_mean p)
  | N_crossover_stddev => V_d (pm_crossover_stddev p)
  | N_mutation_variable_mean => V_d (pm_mutation_variable_mean p)
  | N_mutation_variable_stddev => V_d (pm_mutation_variable_stddev p)
  | N_mutation_value_mean => V_d (pm_mutation_value_mean p)
  | N_mutation_value_stddev => V_d (pm_mutation_value_stddev p)
  | N_improve_start => V_d (pm_improve_start p)
  | N_improve_increase => V_d (pm_improve_increase p)
  | N_improve_stop => V_d (pm_improve_stop p)
  | N_init_policy => V_init (pm_init_policy p)
  | N_init_policy_random => V_d (pm_init_policy_random p)
  | N_thread => V_z (pm_thread p)
  | N_seed => V_z (pm_seed p)
  end.
(** What -p cannot set. *)
Definition others (p : params) := (pm_mode p, pm_preprocessor p, pm_solver p, pm_debug p).

Section Spec.
Variable scan_double : text -> scan dbl.
Variable scan_int : text -> scan Z.
Variable scan_long : text -> scan Z.
(** The number that a text of at most 512 characters stands for; a text without any character other
    than spaces stands for 0. *)
Definition real_text (t : text) (d : dbl) : Prop :=
  (List.length t <= 512)%nat /\ (scan_double t = Scan_value d \/ (scan_double t = Scan_eof /\ d = dofZ 0)).
Definition int_text (t : text) (z : Z) : Prop := (List.length t <= 512)%nat /\ scan_int t = Scan_value z.
Definition long_text (t : text) (z : Z) : Prop := (List.length t <= 512)%nat /\ scan_long t = Scan_value z.
Definition positive (d : dbl) : Prop := d = PosInf \/ exists q, d = Fin q /\ (0 < q)%Q.
(** The values of the enumerations. *)
Definition word (t : text) (s : string) : Prop := t = str s.

(** The text [t] is accepted for the parameter [n] and stands for [v]. *)
Definition accepts (n : pname) (t : text) (v : value) : Prop :=
  match n with
  | N_limit => exists z, v = V_z z /\ long_text t z /\ -1 <= z <= long_max
  | N_time_limit => exists d, real_text t d /\ v = V_d (if dle d (dofZ 0) then dofZ (-1) else d)
  | N_float_type => match v with V_float a => (word t "float" /\ a = ft_float) \/ (word t "double" /\ a = ft_double) \/ (word t "longdouble" /\ a = ft_longdouble) | _ => False end
  | N_observer => match v with V_obs a => (word t "none" /\ a = ob_none) \/ (word t "pnm" /\ a = ob_pnm) \/ (word t "file" /\ a = ob_file) | _ => False end
  | N_print_level => exists z, v = V_z z /\ int_text t z /\ 0 <= z <= 2
  | N_pre_order => match v with V_pre a => (word t "none" /\ a = po_none) \/ (word t "memory" /\ a = po_memory) \/ (word t "p1" /\ a = po_p1) \/ (word t "p2" /\ a = po_p2) \/ (word t "p3" /\ a = po_p3) \/ (word t "p4" /\ a = po_p4) \/ (word t "less-greater-equal" /\ a = po_less_greater_equal) \/ (word t "less-equal-greater" /\ a = po_less_equal_greater) \/ (word t "greater-less-equal" /\ a = po_greater_less_equal) \/ (word t "greater-equal-less" /\ a = po_greater_equal_less) \/ (word t "equal-less-greater" /\ a = po_equal_less_greater) \/ (word t "equal-greater-less" /\ a = po_equal_greater_less) | _ => False end
  | N_order => match v with V_order a => (word t "none" /\ a = co_none) \/ (word t "reversing" /\ a = co_reversing) \/ (word t "random-sorting" /\ a = co_random_sorting) \/ (word t "infeasibility-decr" /\ a = co_infeasibility_decr) \/ (word t "infeasibility-incr" /\ a = co_infeasibility_incr) \/ (word t "lagrangian-decr" /\ a = co_lagrangian_decr) \/ (word t "lagrangian-incr" /\ a = co_lagrangian_incr) \/ (word t "pi-sign-change" /\ a = co_pi_sign_change) \/ (word t "cycle" /\ a = co_cycle) | _ => False end
  | N_storage => match v with V_storage a => (word t "five" /\ a = sg_five) \/ (word t "bound" /\ a = sg_bound) \/ (word t "one" /\ a = sg_one) | _ => False end
  | N_theta => exists d, v = V_d d /\ real_text t d /\ within 0 1 d
  | N_delta => exists d, v = V_d d /\ real_text t d /\ positive d
  | N_kappa_min => exists d, v = V_d d /\ real_text t d /\ within 0 1 d
  | N_kappa_step => exists d, v = V_d d /\ real_text t d /\ within 0 1 d
  | N_kappa_max => exists d, v = V_d d /\ real_text t d /\ within 0 1 d
  | N_alpha => exists d, v = V_d d /\ real_text t d /\ within 0 2 d
  | N_w => exists d, v = V_d d /\ real_text t d /\ within 0 (inject_Z ((2 ^ 53 - 1) * 2 ^ 971)) d
  | N_cost_norm => match v with V_norm a => (word t "none" /\ a = cn_none) \/ (word t "random" /\ a = cn_random) \/ (word t "l1" /\ a = cn_l1) \/ (word t "l2" /\ a = cn_l2) \/ (word t "loo" /\ a = cn_loo) | _ => False end
  | N_pushes_limit => exists z, v = V_z z /\ int_text t z /\ 0 <= z <= int_max
  | N_pushing_objective_amplifier => exists d, v = V_d d /\ real_text t d /\ positive d
  | N_pushing_iteration_limit => exists z, v = V_z z /\ int_text t z /\ 0 <= z <= int_max
  | N_pushing_k_factor => exists d, v = V_d d /\ real_text t d /\ positive d
  | N_population_size => exists z, v = V_z z /\ int_text t z /\ 5 <= z <= int_max
  | N_crossover_bastert => exists d, v = V_d d /\ real_text t d /\ within 0 1 d
  | N_crossover_mean => exists d, v = V_d d /\ real_text t d /\ within 0 1 d
  | N_crossover_stddev => exists d, v = V_d d /\ real_text t d /\ within 0 1 d
  | N_mutation_variable_mean => exists d, v = V_d d /\ real_text t d /\ within 0 1 d
  | N_mutation_variable_stddev => exists d, v = V_d d /\ real_text t d /\ within 0 1 d
  | N_mutation_value_mean => exists d, v = V_d d /\ real_text t d /\ within 0 1 d
  | N_mutation_value_stddev => exists d, v = V_d d /\ real_text t d /\ within 0 1 d
  | N_improve_start => exists d, v = V_d d /\ real_text t d /\ within 0 1 d
  | N_improve_increase => exists d, v = V_d d /\ real_text t d /\ within 0 1 d
  | N_improve_stop => exists d, v = V_d d /\ real_text t d /\ within 0 1 d
  | N_init_policy => match v with V_init a => (word t "bastert" /\ a = ip_bastert) \/ (word t "pessimistic-solve" /\ a = ip_pessimistic_solve) \/ (word t "optimistic-solve" /\ a = ip_optimistic_solve) | _ => False end
  | N_init_policy_random => exists d, v = V_d d /\ real_text t d /\ within 0 1 d
  | N_thread => exists z, v = V_z z /\ int_text t z /\ 0 <= z <= int_max
  | N_seed => exists z, v = V_z z /\ int_text t z /\ 0 <= z <= int_max
  end.

(** *** Command lines *)
(** The ways to give the value of an option: "--long=v", "--long:v", "--long v", "-s v", "-sv". *)
Inductive form := F_equal | F_colon | F_next | F_short_next | F_glued.
Definition option_args (long short : string) (f : form) (v : text) : list text :=
  match f with
  | F_equal => [str long ++ "="%char :: v]
  | F_colon => [str long ++ ":"%char :: v]
  | F_next => [str long; v]
  | F_short_next => [str short; v]
  | F_glued => [str short ++ v]
  end.
(** The options of the help message and the names of the files. *)
Inductive item :=
| I_help | I_help_short | I_quiet | I_quiet_short | I_optimize | I_optimize_short
| I_disable | I_disable_short | I_random | I_debug
| I_bench (f : form) (name : text)
| I_auto (f : form) (m : opt_mode)
| I_check (f : form) (name : text)
| I_verbose (f : form) (level : text)
| I_param (f : form) (sep : ascii) (name v : text)
| I_file (name : text).
Definition mode_word (m : opt_mode) : string :=
  match m with
  | om_none => "none" | om_manual => "manual" | om_nlopt => "nlopt" | om_branch => "branch"
  | om_manual_branch => "branch-manual" | om_nlopt_branch => "branch-nlopt"
  end.
Definition item_args (i : item) : list text :=
  match i with
  | I_help => [str "--help"] | I_help_short => [str "-h"]
  | I_quiet => [str "--quiet"] | I_quiet_short => [str "-q"]
  | I_optimize => [str "--optimize"] | I_optimize_short => [str "-O"]
  | I_disable => [str "--disable-preprocessing"] | I_disable_short => [str "-np"]
  | I_random => [str "--random"] | I_debug => [str "--debug"]
  | I_bench f v => option_args "--bench" "-b" f v
  | I_auto f m => option_args "--auto" "-a" f (str (mode_word m))
  | I_check f v => option_args "--check" "-C" f v
  | I_verbose f v => option_args "--verbose" "-v" f v
  | I_param f sep name v => option_args "--param" "-p" f (name ++ sep :: v)
  | I_file v => [v]
  end.
(** A glued value is not empty, the separator is ":" or "=", it is not in the name, the name and the
    value are not empty; a file does not begin with "-". *)
Definition item_ok (i : item) : Prop :=
  match i with
  | I_bench f v | I_check f v | I_verbose f v => f = F_glued -> v <> []
  | I_param f sep name v => (sep = ":"%char \/ sep = "="%char) /\ name <> [] /\ v <> [] /\ ~ In ":"%char name /\ ~ In "="%char name
  | I_file v => hd_error v <> Some "-"%char
  | _ => True
  end.

(** What a command line asks for. *)
Record request := mk_request {
  q_params : params; q_files : list text; q_check : option text; q_bench : option text;
  q_verbose : Z; q_optimize : bool; q_quiet : bool }.
Definition request0 : request := mk_request default_params [] None None 6 false false.
(** [changes n v p p']: [p'] is [p] but for the parameter [n], which is [v]. *)
Definition changes (n : pname) (v : value) (p p' : params) : Prop :=
  field n p' = v /\ (forall m, m <> n -> field m p' = field m p) /\ others p' = others p.
(** The fields other than the ones of -p. *)
Definition same_fields (p p' : params) : Prop := forall m, field m p' = field m p.
(** The meaning of the options. *)
Definition asks (i : item) (q q' : request) : Prop :=
  match i with
  | I_help | I_help_short => q' = q
  | I_quiet | I_quiet_short =>
    q' = mk_request (q_params q) (q_files q) (q_check q) (q_bench q) (q_verbose q) (q_optimize q) true
  | I_optimize | I_optimize_short =>
    q' = mk_request (q_params q) (q_files q) (q_check q) (q_bench q) (q_verbose q) true (q_quiet q)
  | I_bench _ v =>
    q' = mk_request (q_params q) (q_files q) (q_check q) (Some v) (q_verbose q) (q_optimize q) (q_quiet q)
  | I_check _ v =>
    q' = mk_request (q_params q) (q_files q) (Some v) (q_bench q) (q_verbose q) (q_optimize q) (q_quiet q)
  | I_file v =>
    q' = mk_request (q_params q) (q_files q ++ [v]) (q_check q) (q_bench q) (q_verbose q) (q_optimize q) (q_quiet q)
  | I_verbose _ t => exists z, int_text t z /\ 0 <= z <= 6 /\
    q' = mk_request (q_params q) (q_files q) (q_check q) (q_bench q) z (q_optimize q) (q_quiet q)
  | I_disable | I_disable_short => exists p,
    same_fields (q_params q) p /\ others p = (pm_mode (q_params q), pp_none, pm_solver (q_params q), pm_debug (q_params q)) /\
    q' = mk_request p (q_files q) (q_check q) (q_bench q) (q_verbose q) (q_optimize q) (q_quiet q)
  | I_random => exists p,
    same_fields (q_params q) p /\ others p = (pm_mode (q_params q), pm_preprocessor (q_params q), so_random, pm_debug (q_params q)) /\
    q' = mk_request p (q_files q) (q_check q) (q_bench q) (q_verbose q) (q_optimize q) (q_quiet q)
  | I_debug => exists p,
    same_fields (q_params q) p /\ others p = (pm_mode (q_params q), pm_preprocessor (q_params q), pm_solver (q_params q), true) /\
    q' = mk_request p (q_files q) (q_check q) (q_bench q) (q_verbose q) (q_optimize q) (q_quiet q)
  | I_auto _ m => exists p,
    same_fields (q_params q) p /\ others p = (m, pm_preprocessor (q_params q), pm_solver (q_params q), pm_debug (q_params q)) /\
    q' = mk_request p (q_files q) (q_check q) (q_bench q) (q_verbose q) (q_optimize q) (q_quiet q)
  | I_param _ _ name t => exists n v p,
    name = str (option_name n) /\ accepts n t v /\ changes n v (q_params q) p /\
    q' = mk_request p (q_files q) (q_check q) (q_bench q) (q_verbose q) (q_optimize q) (q_quiet q)
  end.
Inductive asks_all : list item -> request -> request -> Prop :=
| Asks_nil q : asks_all [] q q
| Asks_cons i l q q' q'' : asks i q q' -> asks_all l q' q'' -> asks_all (i :: l) q q''.
End Spec.
Definition command_line (l : list item) : list text := concat (map item_args l).
(** The program does what the command line asks. *)
Definition understood (m : main_parameters) (q : request) : Prop :=
  mp_params m = q_params q /\ mp_files m = q_files q /\ mp_verbose m = q_verbose q /\
  mp_optimize m = q_optimize q /\ mp_quiet m = q_quiet q /\
  match q_bench q with None => mp_bench m = false | Some v => mp_bench m = true /\ mp_bench_name m = v end /\
  match q_check q with None => mp_check_filename m = [] | Some v => mp_check_filename m = v end.
Definition is_verbose (i : item) : bool := match i with I_verbose _ _ => true | _ => false end.

