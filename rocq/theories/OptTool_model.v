(** The tool from the command line to the solution file: main() with solve_or_optimize (app/src/main.cpp:1161-1269),
    the parameters of the command line put in the context (private.cpp:50-172) and read by optimize(). *)
From Coq Require Import Ascii String QArith.
From Verif Require Import Base Problem_model Params_model ResultIO_model Lexer_model Parser_model Writer_model Rows_model Solver_model Pool_model EndToEnd_model
  Main_model Optimize_model RInterface_model Cli_model.
Open Scope Z_scope.
Open Scope list_scope.

(** Whether a probability lets a Bernoulli draw be true: itm-optimizer-common.hpp:84-85 and 377; whether a mean or a standard
    deviation is 0: 496. *)
Definition not_zero (v : dbl) : bool := negb (deq v (dofZ 0)).
(** itm-optimizer-common.hpp:62-110 and 496-498: what the optimizer takes from the parameters. The insertion of the crossover, the
    mutation (none when the mean and the standard deviation are both 0), how many solutions are kept. The parameters that are floats
    are left free. *)
Definition optimizer_params {F} (p : params) (op : oparams F) : Prop :=
  op_storage op = storage_of (pm_storage p) /\ op_insertion op = not_zero (pm_crossover_bastert p) /\
  op_mutation op = not_zero (pm_mutation_value_mean p) || not_zero (pm_mutation_value_stddev p).
(** The context of optimize(), private.cpp:50-172: the parameters that are integers or names; [op] has the others. ctx->method is
    never set by the tool. *)
Definition context_of {F} (p : params) (op : oparams F) : octx F :=
  mk_octx (mode_bits (pm_mode p)) (pm_preprocessor p) (is_random (pm_solver p)) false (pm_pre_order p) op (pm_thread p) (pm_population_size p).

Section Tool.
Context {D : Type} (dn : dops D) (cost : D -> Z).
Variables solve_ optimize_ : params -> problem -> run_result (outcome sresult).
Variable fs : text -> option text.
Variables (pid end_time : text) (method duration loops : sresult -> text) (show_f show_value : option Z -> text).
(** solve_or_optimize, main.cpp:1161-1168 *)
Definition solve_or_optimize (p : params) (with_optimization : bool) (pb : problem) : run_result (outcome sresult) :=
  if with_optimization then optimize_ p pb else solve_ p pb.
(** main.cpp:1171-1198 and 1215-1368: main() called with [args], without --bench. context_set_solver_parameters is [in_force]. *)
Definition tool (sd : text -> scan dbl) (si sl : text -> scan Z) (fuel : nat) (args : list text) : run_result ending :=
  let m := parse_args sd si sl args in
  main_ dn cost (solve_or_optimize (in_force (mp_params m)) (mp_optimize m)) fs pid end_time method duration loops show_f show_value fuel
    (match mp_status m with success => true | _ => false end) (mp_files m).
End Tool.
