(** solve() as the user calls it: preprocessing, then the solver selected by the parameters. *)
From Verif Require Import Base Problem_model Merged_model Classify_model Preprocess_model Validate_model Params_model
  Rows_model Solver_model.
Open Scope Z_scope.

(** result(result_status), core:721-748: every other field has its default value. *)
Definition failed_result (st : result_status) : sresult := mk_sresult st [] int_max [] (mk_affected [] []) 0 0.

Section EndToEnd.
Context {F G : Type} (fo : fops F) (ro : rops G)
        (std_sort : forall A : Type, (A -> A -> bool) -> list A -> list A) (ddiv : Z -> Z -> Z).
(** The optimizer (Pool_model) with the class of random-solver.cpp: any function. *)
Variable random_optimizer : problem -> run_result (outcome sresult).
(** The costs given to the solver for a problem: as read, and normalised (C41, C44). *)
Variable raw_costs : problem -> nat -> option F.
Variable norm_costs : problem -> nat -> list bool -> option F.

(** itm.hpp:94-138, itm::solve; [buffered]: ctx.method == "buffered". With the random solver, solve() calls
    optimize_random_*; those for equalities run solve_problem and those for inequalities run
    optimize_problem (random-solver.cpp:342-444). *)
Definition itm_solve (fuel : nat) (random buffered : bool) (po : pre_order) (pa : sparams F) (after : list (rc F)) (g : G)
  (pb : problem) : run_result (outcome sresult) :=
  if negb random then
    let cl := if buffered then S_equalities_01 else dispatch (p_problem_type pb) in
    solve_problem fo ro std_sort fuel ddiv po cl pb (raw_costs pb) (norm_costs pb) pa after g
  else
    match p_problem_type pb with
    | equalities_Z | inequalities_Z => Finished (Ok (failed_result st_internal_error))
    | equalities_01 | equalities_101 => solve_problem fo ro std_sort fuel ddiv po S_random pb (raw_costs pb) (norm_costs pb) pa after g
    | inequalities_01 | inequalities_101 => random_optimizer pb
    end.

(** lpcore.cpp:88-98, solve with a context. [pfuel] bounds the propagation of the preprocessor. *)
Definition user_solve (pfuel fuel : nat) (pp : preprocessor_opt) (random buffered : bool) (po : pre_order) (pa : sparams F)
  (after : list (rc F)) (g : G) (pb : problem) : run_result (outcome sresult) :=
  match pp with
  | pp_all =>
    match preprocess pfuel pb with
    | Ok (Some q) => itm_solve fuel random buffered po pa after g q
    | Ok None => OutOfFuel
    | Throw => Finished Throw
    | Crash => Aborted
    end
  | pp_none => itm_solve fuel random buffered po pa after g (unpreprocess pb)
  end.
End EndToEnd.
