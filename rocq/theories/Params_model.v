(** Model of the solver parameters: lib/include/baryonyx/core (300-462) and
    context_set_solver_parameters, lib/src/private.cpp:50-172. *)
From Coq Require Import QArith Qround.
From Verif Require Import Base Merged_model Solver_model.
Open Scope Z_scope.

(** Values of type double. Finite values are rationals: rounding is not modelled. *)
Inductive dbl := NaN | NegInf | PosInf | Fin (q : Q).
(** a < b and a <= b: false when one of them is NaN. *)
Definition dlt (a b : dbl) : bool :=
  match a, b with
  | NaN, _ | _, NaN => false
  | Fin x, Fin y => negb (Qle_bool y x)
  | NegInf, NegInf => false | NegInf, _ => true
  | _, NegInf => false
  | PosInf, _ => false
  | _, PosInf => true
  end.
(** operator == on doubles (false when one of them is NaN), used by lib/src/optimizer.cpp and lpcore.cpp *)
Definition deq (a b : dbl) : bool :=
  match a, b with
  | NaN, _ | _, NaN => false
  | Fin x, Fin y => Qeq_bool x y
  | NegInf, NegInf | PosInf, PosInf => true
  | _, _ => false
  end.
(** operator <= on doubles (false when one of them is NaN) *)
Definition dle (a b : dbl) : bool := dlt a b || deq a b.
(** std::isfinite *)
Definition is_finite (a : dbl) : bool := match a with Fin _ => true | _ => false end.
(** The conversion of an int into a double; exact for the values of the code. *)
Definition dofZ (z : Z) : dbl := Fin (inject_Z z).
(** std::clamp, std::min, std::floor *)
Definition dclamp (v lo hi : dbl) : dbl := if dlt v lo then lo else if dlt hi v then hi else v.
(** std::min *)
Definition dmin (a b : dbl) : dbl := if dlt b a then b else a.
(** std::floor *)
Definition dfloor (a : dbl) : dbl := match a with Fin q => dofZ (Qfloor q) | _ => a end.
(** limit * w, only used for a finite limit > 0 and 0 <= w < 1 or w NaN *)
Definition dmul (a b : dbl) : dbl :=
  match a, b with
  | Fin x, Fin y => Fin (x * y)%Q
  | _, _ => NaN
  end.

(** std::numeric_limits<long int>::max() *)
Definition long_max : Z := 9223372036854775807.

(** core:340-344, 359-402 *)
Inductive float_type := ft_float | ft_double | ft_longdouble.
(** core:359-402, cost_norm_type *)
Inductive cost_norm := cn_none | cn_random | cn_l1 | cn_l2 | cn_loo.
(** core:359-402, mode_type *)
Inductive opt_mode := om_none | om_manual | om_nlopt | om_branch | om_manual_branch | om_nlopt_branch.
(** core:359-402, preprocessor_options *)
Inductive preprocessor_opt := pp_none | pp_all.
(** core:359-402, observer_type *)
Inductive observer_opt := ob_none | ob_pnm | ob_file.
(** core:359-402, storage_type *)
Inductive storage_opt := sg_one | sg_bound | sg_five.
(** core:359-402, solver_type *)
Inductive solver_opt := so_bastert | so_random.

(** core:410-461 *)
Record params := mk_params {
  pm_time_limit : dbl; pm_theta : dbl; pm_delta : dbl;
  pm_kappa_min : dbl; pm_kappa_step : dbl; pm_kappa_max : dbl; pm_alpha : dbl;
  pm_pushing_k_factor : dbl; pm_pushing_objective_amplifier : dbl; pm_init_policy_random : dbl;
  pm_crossover_bastert : dbl; pm_crossover_mean : dbl; pm_crossover_stddev : dbl;
  pm_mutation_variable_mean : dbl; pm_mutation_variable_stddev : dbl;
  pm_mutation_value_mean : dbl; pm_mutation_value_stddev : dbl;
  pm_improve_start : dbl; pm_improve_increase : dbl; pm_improve_stop : dbl;
  pm_w : dbl; pm_seed : Z; pm_thread : Z; pm_limit : Z; pm_print_level : Z;
  pm_pushes_limit : Z; pm_pushing_iteration_limit : Z; pm_population_size : Z;
  pm_pre_order : pre_order; pm_order : constraint_order; pm_float_type : float_type;
  pm_init_policy : init_policy; pm_cost_norm : cost_norm; pm_mode : opt_mode;
  pm_preprocessor : preprocessor_opt; pm_observer : observer_opt; pm_storage : storage_opt;
  pm_solver : solver_opt; pm_debug : bool }.

(** core:410-461, the initialisers *)
Definition default_params : params :=
  mk_params (dofZ (-1)) (Fin (1 # 2)) (dofZ (-1)) (dofZ 0) (Fin (1 # 1000)) (Fin (6 # 10)) (dofZ 1)
    (Fin (9 # 10)) (dofZ 5) (Fin (1 # 2)) (Fin (1 # 100)) (dofZ 0) (Fin (3 # 10))
    (Fin (1 # 10000)) (Fin (1 # 1000)) (Fin (1 # 2)) (Fin (2 # 10))
    (dofZ 0) (Fin (2 # 100)) (Fin (2 # 10))
    (Fin (5 # 100)) 0 0 1000 0 100 50 100
    po_none co_none ft_double ip_bastert cn_loo om_none pp_all ob_none sg_one so_bastert false.

(** private.cpp:50-172. [old] is ctx->parameters before the call, [p] the argument. *)
Definition set_params (old p : params) : params :=
  let zero := dofZ 0 in
  let one := dofZ 1 in
  let clamp01 v o := if is_finite v then dclamp v zero one else o in
  let kappa_ok := dlt (pm_kappa_min p) (pm_kappa_max p) && dle zero (pm_kappa_min p) &&
                  dlt (pm_kappa_min p) one && dle (pm_kappa_max p) one &&
                  dle zero (pm_kappa_step p) && dlt (pm_kappa_step p) one in
  let start := dclamp (pm_improve_start p) zero one in
  mk_params
    (if dle (pm_time_limit p) zero then PosInf else pm_time_limit p)
    (if dle zero (pm_theta p) && dle (pm_theta p) one then pm_theta p else pm_theta old)
    (if deq (pm_delta p) (dofZ (-1)) || dle zero (pm_delta p) then pm_delta p else pm_delta old)
    (if kappa_ok then pm_kappa_min p else pm_kappa_min old)
    (if kappa_ok then pm_kappa_step p else pm_kappa_step old)
    (if kappa_ok then pm_kappa_max p else pm_kappa_max old)
    (if dle zero (pm_alpha p) then pm_alpha p else pm_alpha old)
    (if is_finite (pm_pushing_k_factor p) then pm_pushing_k_factor p else pm_pushing_k_factor old)
    (if is_finite (pm_pushing_objective_amplifier p) then pm_pushing_objective_amplifier p else pm_pushing_objective_amplifier old)
    (if dle zero (pm_init_policy_random p) && dle (pm_init_policy_random p) one then pm_init_policy_random p else pm_init_policy_random old)
    (clamp01 (pm_crossover_bastert p) (pm_crossover_bastert old))
    (clamp01 (pm_crossover_mean p) (pm_crossover_mean old))
    (clamp01 (pm_crossover_stddev p) (pm_crossover_stddev old))
    (clamp01 (pm_mutation_variable_mean p) (pm_mutation_variable_mean old))
    (clamp01 (pm_mutation_variable_stddev p) (pm_mutation_variable_stddev old))
    (clamp01 (pm_mutation_value_mean p) (pm_mutation_value_mean old))
    (clamp01 (pm_mutation_value_stddev p) (pm_mutation_value_stddev old))
    start
    (dclamp (pm_improve_increase p) zero one)
    (dclamp (pm_improve_stop p) start one)
    (if dlt (pm_w p) zero then zero
     else if 0 <? pm_limit p then
       (if dlt (pm_w p) one then dmul (dofZ (pm_limit p)) (pm_w p) else dmin (dofZ (pm_limit p)) (pm_w p))
     else dfloor (pm_w p))
    (pm_seed p) (pm_thread p)
    (if pm_limit p <=? 0 then long_max else pm_limit p)
    (if 0 <=? pm_print_level p then pm_print_level p else pm_print_level old)
    (if pm_pushes_limit p <=? 0 then 0 else pm_pushes_limit p)
    (if pm_pushing_iteration_limit p <=? 0 then 0 else pm_pushing_iteration_limit p)
    (if 5 <=? pm_population_size p then pm_population_size p else pm_population_size old)
    (pm_pre_order p) (pm_order p) (pm_float_type p) (pm_init_policy p) (pm_cost_norm p) (pm_mode p)
    (pm_preprocessor p) (pm_observer p) (pm_storage p) (pm_solver p) (pm_debug p).
