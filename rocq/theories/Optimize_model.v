(** optimize() as the user calls it: lib/src/lpcore.cpp:100-134, the dispatch of lib/src/itm.hpp:155-203, optimize_problem
    (lib/src/itm-optimizer-common.hpp:755-914), lib/src/nlopt-optimizer.cpp:34-168 and the time limit
    (lib/src/utils.hpp:193-205). The threads make optimize() a relation: [optimize_problem q r] says that some schedule of the
    threads returns [r]. What crashes or never ends has no result. Callbacks and logging are left out. *)
From Verif Require Import Base Problem_model Merged_model Classify_model Preprocess_model Validate_model Params_model
  Rows_model Solver_model Pool_model Pool_spec EndToEnd_model Tuning_model.
From Coq Require Import QArith Qround.
Open Scope Z_scope.

(** ** The time limit *)
(** is_time_limit, utils.hpp:193-205. [elapsed]: end - begin in seconds, a finite number. *)
Definition is_time_limit (limit : dbl) (elapsed : Q) : bool :=
  if dle limit (Fin 0%Q) then false else dlt limit (Fin elapsed).
(** The main thread, itm-optimizer-common.hpp:833-861: it sleeps, reads the clock and decides. [elapsed k]: the time read in
    turn [k], counted from 0. The number of turns, or None when there is no more fuel. *)
Fixpoint main_loop (fuel k : nat) (limit : dbl) (elapsed : nat -> Q) : option nat :=
  match fuel with
  | O => None
  | S fuel' => if is_time_limit limit (elapsed k) then Some (S k) else main_loop fuel' (S k) limit elapsed
  end.

(** ** optimize *)
(** get_thread_number, itm-optimizer-common.hpp:760-774. [hardware]: std::thread::hardware_concurrency(). *)
Definition get_thread_number (hardware : nat) (thread : Z) : nat :=
  let ret := if thread <=? 0 then hardware else Z.to_nat thread in
  if Nat.eqb ret 0 then 1%nat else ret.

(** The parameters read (core:370-462): mode as the bits of mode_type, preprocessor, whether solver is the random one,
    whether ctx.method is buffered, the order of the rows, the parameters of the optimizer, thread,
    init_population_size. *)
Record octx (F : Type) := mk_octx {
  oc_mode : Z; oc_pp : preprocessor_opt; oc_random : bool; oc_buffered : bool; oc_po : pre_order;
  oc_op : oparams F; oc_thread : Z; oc_population : Z }.
Arguments mk_octx {F}. Arguments oc_mode {F}. Arguments oc_pp {F}. Arguments oc_random {F}. Arguments oc_buffered {F}.
Arguments oc_po {F}. Arguments oc_op {F}. Arguments oc_thread {F}. Arguments oc_population {F}.

(** manual-optimizer.cpp:121-129 and nlopt-optimizer.cpp:66-72 change theta, delta, kappa_min, kappa_step and
    init_policy_random of a copy of the parameters, and nothing else. *)
Definition retuned {F} (p q : sparams F) : Prop :=
  pa_limit q = pa_limit p /\ pa_w q = pa_w p /\ pa_kappa_max q = pa_kappa_max p /\ pa_alpha q = pa_alpha p /\
  pa_pushing_k_factor q = pa_pushing_k_factor p /\ pa_amplifier q = pa_amplifier p /\ pa_pushes_limit q = pa_pushes_limit p /\
  pa_pushing_iteration_limit q = pa_pushing_iteration_limit p /\ pa_order q = pa_order p.
(** The copy of the context, manual-optimizer.cpp:115-129. *)
Definition with_params {F} (c : octx F) (p : sparams F) : octx F :=
  let o := oc_op c in
  mk_octx (oc_mode c) (oc_pp c) (oc_random c) (oc_buffered c) (oc_po c)
    (mk_oparams F p (op_start o) (op_increase o) (op_stop o) (op_insertion o) (op_mutation o) (op_storage o))
    (oc_thread c) (oc_population c).

(** The fields of the result read by branch-optimizer.cpp:35-215; [a]: annoying_variable, not modelled elsewhere. *)
Definition brief (r : sresult) (a : Z) : bresult :=
  mk_bresult (match sr_status r with st_success => true | _ => false end)
    (map (fun s => match snd s with Some v => v | None => 0 end) (sr_solutions r))
    (Z.of_nat (sr_constraints r)) (sr_remaining r) a.

Section Optimize.
Context {F G : Type} (fo : fops F) (ro : rops G)
        (std_sort : forall A : Type, (A -> A -> bool) -> list A -> list A) (ddiv : Z -> Z -> Z)
        (hash : list bool -> Z) (hardware : nat).
(** What the schedule of the threads guarantees of each state of a run. *)
Variable Q : sys F G -> Prop.

(** optimize_problem, itm-optimizer-common.hpp:776-914, for a solver class. *)
Inductive optimize_problem (c : octx F) (cl : solver_class) (pb : problem) : outcome sresult -> Prop :=
| op_throw : make_merged std_sort ddiv (oc_po c) pb = Throw -> optimize_problem c cl pb Throw
(** 785-792: the fields variables, constraints and remaining_constraints keep their initial values. *)
| op_empty cs : make_merged std_sort ddiv (oc_po c) pb = Ok cs -> is_nil cs || is_nil (v_values (p_vars pb)) = true ->
    optimize_problem c cl pb
      (Ok (mk_sresult st_success [([], Some (o_value (p_objective pb)))] int_max (v_names (p_vars pb)) (p_affected pb) 0 0))
(** 795-914: the pool is made by its constructor. The normalised costs of the threads are arbitrary. *)
| op_run cs size g g' p0 ws s r : let n := length (v_values (p_vars pb)) in
    make_merged std_sort ddiv (oc_po c) pb = Ok cs -> is_nil cs || is_nil (v_values (p_vars pb)) = false ->
    Z.of_nat size = oc_population c ->
    make_storage fo ro std_sort hash (p_type pb) (p_objective pb) cs size n g = Some (p0, g') ->
    length ws = get_thread_number hardware (oc_thread c) ->
    (forall w, In w ws -> starts fo (oc_op c) cl cs n (p_type pb) w) ->
    steps (step fo ro std_sort hash (p_type pb) (p_objective pb) (oc_op c)) Q (mk_sys p0 ws) s -> returned s ->
    final_result (op_storage (oc_op c)) n (length cs) (sy_pool s) = Some r ->
    optimize_problem c cl pb
      (Ok (mk_sresult (or_status r) (map (fun y => (fst y, Some (snd y))) (or_solutions r)) (or_remaining r)
             (v_names (p_vars pb)) (p_affected pb) (or_variables r) (or_constraints r))).

(** itm::optimize, itm.hpp:155-203. optimize_random_* for equalities runs solve_problem (random-solver.cpp:403-444). *)
Inductive itm_optimize (c : octx F) (pb : problem) : outcome sresult -> Prop :=
| io_bastert r : oc_random c = false ->
    optimize_problem c (if oc_buffered c then S_equalities_01 else dispatch (p_problem_type pb)) pb r -> itm_optimize c pb r
| io_random_Z : oc_random c = true -> p_problem_type pb = equalities_Z \/ p_problem_type pb = inequalities_Z ->
    itm_optimize c pb (Ok (failed_result st_internal_error))
| io_random_eq fuel c0 nc after g r : oc_random c = true ->
    p_problem_type pb = equalities_01 \/ p_problem_type pb = equalities_101 ->
    solve_problem fo ro std_sort fuel ddiv (oc_po c) S_random pb c0 nc (op_s (oc_op c)) after g = Finished r ->
    itm_optimize c pb r
| io_random_ineq r : oc_random c = true -> p_problem_type pb = inequalities_01 \/ p_problem_type pb = inequalities_101 ->
    optimize_problem c S_random pb r -> itm_optimize c pb r.

(** manual_optimize, manual-optimizer.cpp:113-174: the answer is that of a last run (C47). The exceptions of the
    other runs also leave the function. *)
Inductive manual (c : octx F) (pb : problem) : outcome sresult -> Prop :=
| ma_run p r : retuned (op_s (oc_op c)) p -> itm_optimize (with_params c p) pb r -> manual c pb r.

(** nlopt_optimize, nlopt-optimizer.cpp:145-168. [None]: the program is built without the nlopt library; [Some l]: the behaviour [l]
    of nlopt::opt::optimize, which asks for the value of the function at vectors then returns a code and leaves a vector. *)
Inductive library (D : Type) := L_return (code : Z) (x : list D) | L_ask (x : list D) (k : D -> library D).
Arguments L_return {D}. Arguments L_ask {D}.
(** The largest index read in x, nlopt-optimizer.cpp:35-43: param_init_policy_random is 5. *)
Definition param_init_policy_random : nat := 5.
(** nlopt-optimizer.cpp:57-137: how the search ends. [value]: what nlopt_optimize_fun returns for a vector it could read.
    [Some true]: 117-134, a last run with the vector found; [Some false]: 135-140, manual_optimize; None: x[5] is out of range. *)
Fixpoint nlopt_search {D} (value : list D -> D) (l : library D) : option bool :=
  match l with
  | L_return code x =>
    if (1 <=? code) || (code =? -4) then do _ <- nth_error x param_init_policy_random; Some true else Some false
  | L_ask x k => do _ <- nth_error x param_init_policy_random; nlopt_search value (k (value x))
  end.
(** nlopt_optimize, nlopt-optimizer.cpp:86-168 *)
Inductive nlopt {D} (lib : option (library D)) (c : octx F) (pb : problem) : outcome sresult -> Prop :=
| nl_none r : lib = None -> manual c pb r -> nlopt lib c pb r
| nl_failed l value r : lib = Some l -> nlopt_search value l = Some false -> manual c pb r -> nlopt lib c pb r
| nl_found l value p r : lib = Some l -> nlopt_search value l = Some true -> retuned (op_s (oc_op c)) p ->
    itm_optimize (with_params c p) pb r -> nlopt lib c pb r.

(** branch_optimize, branch-optimizer.cpp:138-215 (Tuning_model): [run] are the answers of the solver. *)
Inductive branch (c : octx F) (pb : problem) : outcome sresult -> Prop :=
| br_run run fuel b r a :
    (forall k q b', run k q = Ok b' -> exists r' a', itm_optimize c q (Ok r') /\ b' = brief r' a') ->
    branch_optimize run fuel pb = Br_done b -> b = brief r a -> branch c pb (Ok r)
| br_throw run fuel : (forall k q b', run k q = Ok b' -> exists r' a', itm_optimize c q (Ok r') /\ b' = brief r' a') ->
    branch_optimize run fuel pb = Br_throw -> branch c pb Throw.

(** mode & bit == bit, core-utils: operator& of mode_type, lpcore.cpp:104-122 *)
Definition has_mode (mode bit : Z) : bool := Z.land mode bit =? bit.
(** lpcore.cpp:104-129 on the problem prepared *)
Definition optimize_prepared {D} (lib : option (library D)) (c : octx F) (pb : problem) (r : outcome sresult) : Prop :=
  if has_mode (oc_mode c) 4 then branch c pb r
  else if has_mode (oc_mode c) 2 then nlopt lib c pb r
  else if has_mode (oc_mode c) 1 then manual c pb r
  else itm_optimize c pb r.
(** optimize, lpcore.cpp:100-134, with a context. *)
Inductive user_optimize {D} (lib : option (library D)) (c : octx F) (pb : problem) : outcome sresult -> Prop :=
| uo_preprocessed pfuel q r : oc_pp c = pp_all -> preprocess pfuel pb = Ok (Some q) -> optimize_prepared lib c q r ->
    user_optimize lib c pb r
| uo_throw pfuel : oc_pp c = pp_all -> preprocess pfuel pb = Throw -> user_optimize lib c pb Throw
| uo_unpreprocessed r : oc_pp c = pp_none -> optimize_prepared lib c (unpreprocess pb) r -> user_optimize lib c pb r.
End Optimize.
Arguments L_return {D}. Arguments L_ask {D}.
