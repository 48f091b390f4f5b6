(** C130: the pushes of solve() and optimize(). *)
From Coq Require Import String.
From Verif Require Import Base Problem_model Problem_spec Merged_model Merged_spec Classify_model Preprocess_model Preprocess_spec Rows_model Rows_spec Rows_props
  Params_model Solver_model Solver_spec Solver_props EndToEnd_model Pool_model Push_spec Push_proofs.
Open Scope Z_scope.
Open Scope list_scope.

(** C130. With every order of the constraints but pi-sign-change and cycle, two calls of solve() that differ in the parameters of the pushes
    return the same: the same status and the same solution. Whatever the problem, the random numbers and the time, with and without
    preprocessing, for all the solver classes. (The solver for inequalities with solver=random runs the optimizer: given here.) *)
Theorem C130_pushes_change_nothing :
  forall (F G : Type) (fo : fops F) (ro : rops G) std_sort ddiv, permutes std_sort -> shuffles ro ->
  forall random_optimizer raw_costs norm_costs pfuel fuel pp random buffered po pa pa' after (g : G) pb,
  violated_order (pa_order pa) -> same_but_pushes pa pa' ->
  user_solve fo ro std_sort ddiv random_optimizer raw_costs norm_costs pfuel fuel pp random buffered po pa after g pb =
  user_solve fo ro std_sort ddiv random_optimizer raw_costs norm_costs pfuel fuel pp random buffered po pa' after g pb.
Proof. intros F G fo ro std_sort ddiv Hp Hs. intros. now apply user_solve_pushes. Qed.
Print Assumptions C130_pushes_change_nothing.

(** The same in a round of a thread of optimize(), from its start to its end or to the next start: all the solutions that it reports are the
    same assignment with the same value (so that the pool, which refuses what it already has, gets one), or it reports one assignment that
    violates constraints. The order stays one of these, so that this holds for every round. *)
Theorem C130_a_round_reports_one_assignment :
  forall (F G : Type) (fo : fops F) (ro : rops G) std_sort obj, permutes std_sort -> shuffles ro ->
  forall fuel sv pa kappa od (s : state F G) evs od' s',
  od_cycle od = false -> violated_order (od_order od) ->
  round fo ro std_sort obj fuel sv pa kappa od s = Finished (evs, od', s') ->
  (od_cycle od' = false /\ violated_order (od_order od')) /\
  ((exists v, results obj (s_x s') = Some v /\ evs <> [] /\ forall ev, In ev evs -> exists i, ev = ev_update (s_x s') v i) \/
   (exists r, 0 < r /\ evs = [ev_advance (s_x s') r (pa_limit pa)])).
Proof.
  intros F G fo ro std_sort obj Hp Hs fuel sv pa kappa od s evs od' s' C V H.
  destruct (round_same fo ro std_sort Hp Hs obj fuel sv pa kappa od s evs od' s' C V H) as [K [(v & R & E & N)|E]]; split; auto.
  left. exists v. split; [exact R|]. split; [exact N|]. rewrite Forall_forall in E. exact E.
Qed.
Print Assumptions C130_a_round_reports_one_assignment.

(** What a user expects of pushes is false for these orders: minimize 5 x0 + x1 + 2 x2, each pair of variables has one set. solve() finds a
    solution of value 6; no number of pushes, no amplifier and no number of iterations makes it find {x1, x2}, whose value is 3. *)
Definition ex_cover (c : list Z) : problem :=
  mk_problem (mk_objective [mk_oelem (nth 0 c 0) 0; mk_oelem (nth 1 c 0) 1; mk_oelem (nth 2 c 0) 2] [] 0) []
    [mk_constraint (str "a") [mk_felem 1 0; mk_felem 1 1] 1 0; mk_constraint (str "b") [mk_felem 1 1; mk_felem 1 2] 1 1;
     mk_constraint (str "c") [mk_felem 1 0; mk_felem 1 2] 1 2] []
    (mk_variables [str "x"; str "y"; str "z"] (repeat (mk_variable_value 0 1 vt_binary) 3)) (mk_affected [] []) minimize inequalities_01.
Definition push_params (o : constraint_order) (k_factor amp pushes iterations : Z) : sparams Z :=
  mk_sparams Z 50 0 0 1 100 0 1 1 k_factor amp pushes iterations o ip_bastert.
Definition ex_cover_solve (costs : list Z) (pa : sparams Z) : run_result (outcome sresult) :=
  user_solve ex_fops ex_rops insertion_sort Z.div (fun _ => Aborted) (fun _ => ex_c0 costs) (fun _ => ex_cost costs) 20 60 pp_all false false po_none
    pa [mk_rc 0 0 0%nat] tt (ex_cover costs).
Lemma ex_cover_solution : solution (as_assignment [false; true; true]) (ex_cover [5; 1; 2]).
Proof.
  split.
  - split; [|split]; intros c Hc.
    + destruct Hc.
    + destruct Hc as [<-|[<-|[<-|[]]]]; vm_compute; discriminate.
    + destruct Hc.
  - intros i v Hi. do 3 (destruct i as [|i]; [injection Hi as <-; vm_compute; split; discriminate|]). destruct i; discriminate.
Qed.
Theorem C130_better_by_pushing_refuted :
  exists r, sr_status r = Validate_model.st_success /\ sr_solutions r = [([true; true; false], Some 6)] /\
    (forall k_factor amp pushes iterations, ex_cover_solve [5; 1; 2] (push_params co_none k_factor amp pushes iterations) = Finished (Ok r)) /\
    solution (as_assignment [false; true; true]) (ex_cover [5; 1; 2]) /\
    objective_value (as_assignment [false; true; true]) (p_objective (ex_cover [5; 1; 2])) = 3.
Proof.
  eexists. split; [|split; [|split; [|split]]].
  4: exact ex_cover_solution.
  3:{ intros k_factor amp pushes iterations. unfold ex_cover_solve.
      rewrite (C130_pushes_change_nothing Z unit ex_fops ex_rops insertion_sort Z.div ex_sort_permutes ex_shuffles _ _ _ 20 60 pp_all false false po_none
        (push_params co_none k_factor amp pushes iterations) (push_params co_none 1 1 0 0)); [vm_compute; reflexivity|split; discriminate|repeat split]. }
  all: reflexivity.
Qed.
Print Assumptions C130_better_by_pushing_refuted.

(** With pi-sign-change the pushes do change the answer: minimize x0 + 2 x1 + 3 x2 on the same constraints, 4 without pushes, 3 with 8. *)
Example C130_pi_sign_change : exists r r',
  ex_cover_solve [1; 2; 3] (push_params co_pi_sign_change 1 5 0 0) = Finished (Ok r) /\ sr_solutions r = [([true; false; true], Some 4)] /\
  ex_cover_solve [1; 2; 3] (push_params co_pi_sign_change 1 5 8 4) = Finished (Ok r') /\ sr_solutions r' = [([true; true; false], Some 3)].
Proof. eexists _, _. split; [vm_compute; reflexivity|]. split; [reflexivity|]. split; [vm_compute; reflexivity|]. reflexivity. Qed.

(** A round of the optimizer: it reports the solution of value 6 five times. *)
Example C130_round : exists sv (s s' : state Z unit) od' evs,
  make_solver ex_fops S_inequalities_101 ex_rows 5 (ex_cost [3; -2; 5; 1; -4]) minimize [] [false; true; false; false; true] tt = Ok (sv, s) /\
  round ex_fops ex_rops insertion_sort (mk_objective [mk_oelem 3 0; mk_oelem (-2) 1; mk_oelem 5 2; mk_oelem 1 3; mk_oelem (-4) 4] [] 0) 20 sv
    (push_params co_none 1 5 2 2) 0 (make_order co_none 5) s = Finished (evs, od', s') /\ length evs = 5%nat.
Proof. eexists _, _, _, _, _. split; [vm_compute; reflexivity|]. split; [vm_compute; reflexivity|]. reflexivity. Qed.
