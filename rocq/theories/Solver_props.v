(** Property theorems C31-C34, C42, C58 and C61: the sweeps and the solving loop. *)
From Coq Require Import String Permutation Sorted.
From Verif Require Import Base Problem_model Problem_spec Merged_model Merged_spec Classify_model Matrix_model
  Rows_model Rows_spec Rows_proofs Rows_props Validate_model Solver_model Solver_spec Solver_proofs Solver_proofs2
  Solver_proofs3 ZRow_spec.
Open Scope Z_scope.

(** C31. The number each sweep returns, whatever the order, the parameters and the state, is
    the number of rows violated by the assignment it ends with. *)
Theorem C31_remaining_is_exact :
  forall (F G : Type) (fo : fops F) (ro : rops G) std_sort cl cs n c mode after x0 (g0 : G) sv s0,
  make_solver fo cl cs n c mode after x0 g0 = Ok (sv, s0) ->
  (forall r, In r cs -> row_ok n r) ->
  forall push kappa delta theta od s r od' s',
  length (s_x s) = n ->
  run fo ro std_sort sv push kappa delta theta od s = Some (r, od', s') ->
  length (s_x s') = n /\ r = violations cs (s_x s').
Proof. intros. eapply run_exact; eassumption. Qed.
Print Assumptions C31_remaining_is_exact.

(** A concrete solver: the rows of Rows_props, order by infeasibility, one sweep. *)
Definition ex_order : order_state := make_order co_infeasibility_decr 5.
Example C31_hyps : exists sv s0 od r od' s',
  make_solver ex_fops S_inequalities_101 ex_rows 5 (ex_cost [3; -2; 5; 1; -4]) minimize [] [true; true; false; false; false] tt = Ok (sv, s0) /\
  order_init sv (s_x s0) ex_order = Some od /\
  run ex_fops ex_rops insertion_sort sv None 0 1 1 od s0 = Some (r, od', s') /\ violations ex_rows (s_x s0) = 2 /\ r = 1.
Proof. eexists _, _, _, _, _, _. split; [vm_compute; reflexivity|]. split; [vm_compute; reflexivity|]. split; [vm_compute; reflexivity|]. split; vm_compute; reflexivity. Qed.

(** ** C32. solve() *)
(** Whatever the random draws, the clock, the floating-point operations and the parameters: a
    solution returned with the status success satisfies the constraints of the problem, its
    value is the objective at that solution, and it gives a value to each variable. And a
    solution returned with another status is not one. Missing: problems without constraint
    (see C32_refuted). *)
Theorem C32_success_is_feasible_partial :
  forall (F G : Type) (fo : fops F) (ro : rops G) std_sort ddiv, permutes std_sort ->
  forall fuel po cl pb c0 nc pa after (g : G) r,
  row_indices_ok pb -> distinct_vars pb ->
  solve_problem fo ro std_sort fuel ddiv po cl pb c0 nc pa after g = Finished (Ok r) ->
  forall x v, In (x, v) (sr_solutions r) -> x <> [] ->
  length x = length (v_values (p_vars pb)) /\
  (sr_status r = st_success ->
     (fits_int (as_assignment x) pb -> feasible (as_assignment x) pb) /\
     v = Some (objective_value (as_assignment x) (p_objective pb))) /\
  (sr_status r <> st_success ->
     v = None /\ (fits_int (as_assignment x) pb -> ~ feasible (as_assignment x) pb)).
Proof. intros. eapply solve_ok; eassumption. Qed.
Print Assumptions C32_success_is_feasible_partial.

(** With at least a constraint, success comes with exactly one such solution. *)
Theorem C32_success_has_solution :
  forall (F G : Type) (fo : fops F) (ro : rops G) std_sort ddiv, permutes std_sort ->
  forall fuel po cl pb c0 nc pa after (g : G) r,
  row_indices_ok pb -> distinct_vars pb ->
  solve_problem fo ro std_sort fuel ddiv po cl pb c0 nc pa after g = Finished (Ok r) ->
  sr_constraints r <> 0%nat -> v_values (p_vars pb) <> [] -> sr_status r = st_success ->
  exists x v, sr_solutions r = [(x, v)] /\ x <> [].
Proof. intros. eapply solve_has_solution; eassumption. Qed.
Print Assumptions C32_success_has_solution.

(** Concrete run: minimize x0 - 2 x1 + 3 x2 + 7 with x0 + x1 + x2 = 1 and x0 - x1 <= 0 *)
Definition ex_solve_pb : problem :=
  mk_problem (mk_objective [mk_oelem 1 0; mk_oelem (-2) 1; mk_oelem 3 2] [] 7)
    [mk_constraint (str "a") [mk_felem 1 0; mk_felem 1 1; mk_felem 1 2] 1 0] []
    [mk_constraint (str "b") [mk_felem 1 0; mk_felem (-1) 1] 0 1]
    (mk_variables [str "x"; str "y"; str "z"] (repeat (mk_variable_value 0 1 vt_binary) 3)) (mk_affected [] []) minimize inequalities_101.
Definition ex_params (limit kmin kmax : Z) (o : constraint_order) : sparams Z :=
  mk_sparams Z limit 0 kmin 1 kmax 0 1 1 1 1 2 2 o ip_bastert.
Definition ex_c0 (l : list Z) : nat -> option Z := fun v => nth_error l v.
Definition ex_solve (pb : problem) (costs : list Z) (pa : sparams Z) : run_result (outcome sresult) :=
  solve_problem ex_fops ex_rops insertion_sort 20 Z.div po_none S_inequalities_101 pb (ex_c0 costs) (ex_cost costs) pa [] tt.
Example C32_hyps : indices_ok ex_solve_pb /\ distinct_vars ex_solve_pb /\
  (exists r, ex_solve ex_solve_pb [1; -2; 3] (ex_params 10 0 100 co_none) = Finished (Ok r) /\ sr_status r = st_success /\
    sr_solutions r = [([false; true; false], Some 5)]) /\
  (exists r, ex_solve ex_solve_pb [1; -2; 3] (ex_params 10 0 100 co_lagrangian_incr) = Finished (Ok r) /\ sr_status r = st_success) /\
  (forall x, fits_int x ex_solve_pb).
Proof.
  split; [|split; [|split; [|split]]].
  - repeat split.
    + intros c H. repeat (destruct H as [<-|H]; [discriminate|]). destruct H.
    + intros c e H He. repeat (destruct H as [<-|H]; [cbn in He; repeat (destruct He as [<-|He]; [cbn; lia|]); destruct He|]). destruct H.
    + intros e He. cbn in He. repeat (destruct He as [<-|He]; [cbn; lia|]). destruct He.
  - intros c H. repeat (destruct H as [<-|H]; [cbn; repeat constructor; cbn; intuition discriminate|]). destruct H.
  - eexists. split; [vm_compute; reflexivity|]. split; vm_compute; reflexivity.
  - eexists. split; [vm_compute; reflexivity|]. vm_compute; reflexivity.
  - intros x c H. repeat (destruct H as [<-|H]; [cbn; destruct (x 0%nat), (x 1%nat), (x 2%nat); vm_compute; split; discriminate|]). destruct H.
Qed.

(** C32 fails for a problem without constraint: minimize -5 x with no constraint is reported
    solved, with a solution without any value, and the value 0 that no assignment of least
    cost has. *)
Definition ex_free_pb : problem :=
  mk_problem (mk_objective [mk_oelem (-5) 0] [] 0) [] [] []
    (mk_variables [str "x"] [mk_variable_value 0 1 vt_binary]) (mk_affected [] []) minimize equalities_01.
Theorem C32_refuted :
  exists (pb : problem) costs pa r, ex_solve pb costs pa = Finished (Ok r) /\ indices_ok pb /\ distinct_vars pb /\
    v_values (p_vars pb) <> [] /\ sr_status r = st_success /\ sr_solutions r = [([], Some 0)].
Proof.
  exists ex_free_pb, [-5], (ex_params 10 0 100 co_none). eexists. split; [vm_compute; reflexivity|].
  split; [|split; [intros c []|split; [discriminate|split; reflexivity]]].
  repeat split; [intros c []|intros c e []|]. intros e [<-|[]]. cbn. lia.
Qed.
Print Assumptions C32_refuted.

(** ** C33. The best solution *)
(** What is returned is at least as good as every assignment reached at the end of a sweep: no
    more violated rows and, if it has none, no worse a value; and it is one of them. *)
Theorem C33_best_of_all_sweeps :
  forall (F G : Type) (fo : fops F) (ro : rops G) std_sort fuel cl cs n c0 nc pa mode obj after (g : G) l st,
  (forall r, In r cs -> row_ok n r) ->
  functor fo ro std_sort fuel cl cs n c0 nc pa mode obj after g = Finished (l, st) ->
  let b := lp_best l in
  (forall x, In x (lp_tried l) -> be_remaining b <= violations cs x /\
     (violations cs x = 0 -> no_worse mode (be_value b) (objective_value (as_assignment x) obj))) /\
  (b = best0 \/
   (In (be_x b) (lp_tried l) /\ be_remaining b = violations cs (be_x b) /\
    (be_remaining b = 0 -> be_value b = Some (objective_value (as_assignment (be_x b)) obj)))).
Proof.
  intros F G fo ro std_sort fuel cl cs n c0 nc pa mode obj after g l st Hrows H b.
  apply functor_ok in H; [|assumption]. destruct H as ((_ & _ & H1 & H2) & _).
  split; [exact H1|]. destruct H2 as [H2|(A & B & C & _)]; auto.
Qed.
Print Assumptions C33_best_of_all_sweeps.

(** From any point of the first loop, of the pushes or between two pushes, the best record
    at the end is at least as good as the record at that point. *)
Theorem C33_best_never_worse :
  forall (F G : Type) (fo : fops F) (ro : rops G) std_sort cl cs n c mode after x0 (g0 : G) sv s0,
  make_solver fo cl cs n c mode after x0 g0 = Ok (sv, s0) ->
  forall pa obj l l',
  0 <= be_remaining (lp_best l) ->
  ((exists fuel i br e, main_loop fo ro std_sort fuel sv pa obj i br l = Finished (l', e)) \/
   (exists k iter, push_inner fo ro std_sort k sv pa obj iter l = Some l') \/
   (exists k, push_loop fo ro std_sort k sv pa obj l = Some l')) ->
  at_least mode (lp_best l') (lp_best l).
Proof.
  intros F G fo ro std_sort cl cs n c mode after x0 g0 sv s0 Hmk pa obj l l' H0 [(fuel & i & br & e & H)|[(k & iter & H)|(k & H)]].
  - eapply main_loop_improved; eassumption.
  - eapply push_inner_improved; eassumption.
  - eapply push_loop_improved; eassumption.
Qed.
Print Assumptions C33_best_never_worse.
Definition ex_functor (pa : sparams Z) : run_result (@loop Z unit * result_status) :=
  functor ex_fops ex_rops insertion_sort 20 S_inequalities_101 ex_rows 5 (ex_c0 [3; -2; 5; 1; -4]) (ex_cost [3; -2; 5; 1; -4])
    pa minimize (mk_objective [mk_oelem 3 0; mk_oelem (-2) 1; mk_oelem 5 2; mk_oelem 1 3; mk_oelem (-4) 4] [] 0) [] tt.
Example C33_hyps : exists l,
  ex_functor (ex_params 10 0 100 co_none) = Finished (l, st_success) /\ length (lp_tried l) = 5%nat /\
  be_value (lp_best l) = Some (-3) /\ violations ex_rows (be_x (lp_best l)) = 0.
Proof. eexists. split; [vm_compute; reflexivity|]. repeat split; vm_compute; reflexivity. Qed.

(** ** C34. The status *)
(** The status is success exactly when a sweep reached an assignment violating no row, and
    limit_reached otherwise. Missing: which limit. *)
Theorem C34_status_partial :
  forall (F G : Type) (fo : fops F) (ro : rops G) std_sort fuel cl cs n c0 nc pa mode obj after (g : G) l st,
  (forall r, In r cs -> row_ok n r) ->
  functor fo ro std_sort fuel cl cs n c0 nc pa mode obj after g = Finished (l, st) ->
  (st = st_success <-> exists x, In x (lp_tried l) /\ violations cs x = 0) /\
  (st <> st_success -> st = st_limit_reached).
Proof.
  intros F G fo ro std_sort fuel cl cs n c0 nc pa mode obj after g l st Hrows H.
  apply functor_ok in H; [|assumption]. destruct H as (_ & H1 & H2 & _). split; [exact H2|]. tauto.
Qed.
Print Assumptions C34_status_partial.

(** A contradictory pair of rows, x0 = 0 and x0 = 1 (each satisfiable). *)
Definition ex_contradiction : list merged :=
  [mk_merged [mk_felem 1 0] 0 0 0; mk_merged [mk_felem 1 0] 1 1 1].
(** The loop stops after two sweeps out of a thousand because kappa passes its maximum; the
    status says the loop limit was reached. *)
Theorem C34_refuted :
  exists (pa : sparams Z) l sv s od l',
    pa_limit pa = 1000 /\
    functor ex_fops ex_rops insertion_sort 20 S_equalities_01 ex_contradiction 1 (ex_c0 [1]) (ex_cost [1]) pa minimize
      (mk_objective [] [] 0) [] tt = Finished (l, st_limit_reached) /\
    length (lp_tried l) = 2%nat /\
    make_solver ex_fops S_equalities_01 ex_contradiction 1 (ex_cost [1]) minimize [] [false] tt = Ok (sv, s) /\
    order_init sv (s_x s) (make_order co_none 1) = Some od /\
    main_loop ex_fops ex_rops insertion_sort 20 sv pa (mk_objective [] [] 0) 0 int_max (mk_loop od s (pa_kappa_min pa) best0 []) = Finished (l', stop_kappa) /\
    lp_tried l' = lp_tried l.
Proof.
  exists (ex_params 1000 0 0 co_none). eexists _, _, _, _, _. split; [reflexivity|]. split; [vm_compute; reflexivity|]. split; [vm_compute; reflexivity|].
  split; [vm_compute; reflexivity|]. split; [vm_compute; reflexivity|]. split; vm_compute; reflexivity.
Qed.
Print Assumptions C34_refuted.

(** ** C42. The rows visited by a sweep *)
(** For every order option except pi_sign_change and cycle, in every history, a sweep
    updates exactly the rows violated at its start, each once, in the order asked for. *)
Theorem C42_sweep_visits_partial :
  forall (F G : Type) (fo : fops F) (ro : rops G) std_sort,
  permutes std_sort -> shuffles ro ->
  forall cl cs n c mode after x0 (g0 : G) sv s0,
  make_solver fo cl cs n c mode after x0 g0 = Ok (sv, s0) ->
  (forall r, In r cs -> row_ok n r) ->
  forall o push kappa delta theta od s r od' s',
  o <> co_cycle -> o <> co_pi_sign_change ->
  history fo ro std_sort sv o n od s ->
  run fo ro std_sort sv push kappa delta theta od s = Some (r, od', s') ->
  exists rows g b,
    update_rows fo ro std_sort sv push kappa delta theta rows (mk_state (s_x s) (s_P s) (s_pi s) (s_R s) g) false = Some (s', b) /\
    Permutation rows (violated_rows cs (s_x s)) /\ NoDup rows /\
    (forall k, In k rows <-> exists c, nth_error cs k = Some c /\ ~ row_satisfied (s_x s) c) /\
    (sorts std_sort -> weak_order (fl_lt fo) -> in_order fo o cs (s_x s) (s_pi s) rows).
Proof.
  intros F G fo ro std_sort Hp Hs cl cs n c mode after x0 g0 sv s0 Hmk Hrows o push kappa delta theta od s r od' s' Ho Ho2 Hh Hr.
  destruct (run_visits fo ro std_sort Hp Hs cl cs n c mode after x0 g0 sv s0 Hmk Hrows o push kappa delta theta od s r od' s' Ho Hh Hr)
    as (rows & g & b & H1 & _ & H2 & H3).
  specialize (H2 Ho2). exists rows, g, b. split; [exact H1|]. split; [exact H2|]. split; [|split; [|exact H3]].
  - eapply Permutation_NoDup; [symmetry; exact H2|]. apply violated_rows_nodup.
  - intros k. rewrite <- violated_rows_unsat. split; apply Permutation_in; [exact H2|symmetry; exact H2].
Qed.
Print Assumptions C42_sweep_visits_partial.

(** With pi_sign_change every row is visited once, if there are as many rows as variables. *)
Theorem C42_pi_sign_change_partial :
  forall (F G : Type) (fo : fops F) (ro : rops G) std_sort,
  permutes std_sort -> shuffles ro ->
  forall cl cs n c mode after x0 (g0 : G) sv s0,
  make_solver fo cl cs n c mode after x0 g0 = Ok (sv, s0) ->
  (forall r, In r cs -> row_ok n r) ->
  forall push kappa delta theta od s r od' s',
  n = length cs ->
  history fo ro std_sort sv co_pi_sign_change n od s ->
  run fo ro std_sort sv push kappa delta theta od s = Some (r, od', s') ->
  exists rows g b,
    update_rows fo ro std_sort sv push kappa delta theta rows (mk_state (s_x s) (s_P s) (s_pi s) (s_R s) g) false = Some (s', b) /\
    Permutation rows (seq 0 (length cs)).
Proof.
  intros F G fo ro std_sort Hp Hs cl cs n c mode after x0 g0 sv s0 Hmk Hrows push kappa delta theta od s r od' s' Hn Hh Hr.
  destruct (run_visits fo ro std_sort Hp Hs cl cs n c mode after x0 g0 sv s0 Hmk Hrows co_pi_sign_change push kappa delta theta od s r od' s' ltac:(discriminate) Hh Hr)
    as (rows & g & b & H1 & H2 & _).
  exists rows, g, b. split; [exact H1|]. rewrite <- Hn. apply H2. reflexivity.
Qed.
Print Assumptions C42_pi_sign_change_partial.
Example C42_hyps : exists sv s0 od r od' s',
  make_solver ex_fops S_inequalities_101 ex_rows 5 (ex_cost [3; -2; 5; 1; -4]) minimize [] [true; true; false; false; false] tt = Ok (sv, s0) /\
  history ex_fops ex_rops insertion_sort sv co_infeasibility_decr 5 od s0 /\
  violated_rows ex_rows (s_x s0) = [0%nat; 1%nat] /\
  run ex_fops ex_rops insertion_sort sv None 0 1 1 od s0 = Some (r, od', s') /\
  sorts insertion_sort /\ weak_order (fl_lt ex_fops).
Proof.
  eexists _, _, _, _, _, _. split; [vm_compute; reflexivity|]. split; [apply history_init; vm_compute; reflexivity|].
  split; [vm_compute; reflexivity|]. split; [vm_compute; reflexivity|]. split.
  - exact Merged_proofs.insertion_sort_sorts.
  - repeat split; cbn; intros; lia.
Qed.

(** pi_sign_change numbers its rows by the number of variables. With more variables than rows
    the sweep reads a row that does not exist. *)
Definition ex_one_row : list merged := [mk_merged [mk_felem 1 0; mk_felem 1 1] 1 1 0].
Theorem C42_refuted_bad_row :
  exists sv s0 od,
    make_solver ex_fops S_equalities_01 ex_one_row 2 (ex_cost [1; 2]) minimize [] [false; false] tt = Ok (sv, s0) /\
    history ex_fops ex_rops insertion_sort sv co_pi_sign_change 2 od s0 /\
    run ex_fops ex_rops insertion_sort sv None 0 1 1 od s0 = None /\
    (exists od2 r od' s', history ex_fops ex_rops insertion_sort sv co_none 2 od2 s0 /\
       run ex_fops ex_rops insertion_sort sv None 0 1 1 od2 s0 = Some (r, od', s')).
Proof.
  eexists _, _, _. split; [vm_compute; reflexivity|]. split; [apply history_init; vm_compute; reflexivity|]. split; [vm_compute; reflexivity|].
  eexists _, _, _, _. split; [apply history_init; vm_compute; reflexivity|]. vm_compute. reflexivity.
Qed.
Print Assumptions C42_refuted_bad_row.
(** With fewer variables than rows a violated row is never visited: the only variable must be
    1 by the second row, and is not updated. *)
Definition ex_two_rows : list merged := [mk_merged [mk_felem 1 0] 0 1 0; mk_merged [mk_felem 1 0] 1 1 1].
Theorem C42_refuted_not_visited :
  exists sv s0 od od' s',
    make_solver ex_fops S_inequalities_01 ex_two_rows 1 (ex_cost [2]) minimize [mk_rc 0 0 0%nat] [false] tt = Ok (sv, s0) /\
    history ex_fops ex_rops insertion_sort sv co_pi_sign_change 1 od s0 /\
    violated_rows ex_two_rows (s_x s0) = [1%nat] /\
    run ex_fops ex_rops insertion_sort sv None 0 1 1 od s0 = Some (1, od', s') /\
    violated_rows ex_two_rows (s_x s') = [1%nat].
Proof.
  eexists _, _, _, _, _. split; [vm_compute; reflexivity|]. split; [apply history_init; vm_compute; reflexivity|].
  split; [vm_compute; reflexivity|]. split; vm_compute; reflexivity.
Qed.
Print Assumptions C42_refuted_not_visited.
(** The order cycle, at its third push, sorts an array that was never filled: the first row is
    updated once for each variable, though the assignment violates no row. *)
Theorem C42_refuted_cycle :
  exists sv s0 od0 r1 od1 s1 r2 od2 s2 rows od' g',
    make_solver ex_fops S_equalities_01 ex_one_row 2 (ex_cost [1; 2]) minimize [] [true; false] tt = Ok (sv, s0) /\
    history ex_fops ex_rops insertion_sort sv co_cycle 2 od0 s0 /\
    run ex_fops ex_rops insertion_sort sv (Some 1) 0 1 1 od0 s0 = Some (r1, od1, s1) /\
    run ex_fops ex_rops insertion_sort sv (Some 1) 0 1 1 od1 s1 = Some (r2, od2, s2) /\
    violations ex_one_row (s_x s2) = 0 /\
    sweep ex_fops ex_rops insertion_sort (s_pi s2) (mk_order (od_R od2) (od_m od2) (next_state (od_order od2)) (od_cycle od2)) (s_g s2)
      = Some (rows, od', g') /\
    rows = [0%nat; 0%nat].
Proof.
  eexists _, _, _, _, _, _, _, _, _, _, _, _. split; [vm_compute; reflexivity|]. split; [apply history_init; vm_compute; reflexivity|].
  split; [vm_compute; reflexivity|]. split; [vm_compute; reflexivity|]. split; [vm_compute; reflexivity|]. split; vm_compute; reflexivity.
Qed.
Print Assumptions C42_refuted_cycle.

(** ** C58. Remaining constraints *)
(** The record kept by the loop has the right number ... *)
Theorem C58_recorded_partial :
  forall (F G : Type) (fo : fops F) (ro : rops G) std_sort fuel cl cs n c0 nc pa mode obj after (g : G) l st,
  (forall r, In r cs -> row_ok n r) ->
  functor fo ro std_sort fuel cl cs n c0 nc pa mode obj after g = Finished (l, st) ->
  be_x (lp_best l) <> [] -> be_remaining (lp_best l) = violations cs (be_x (lp_best l)).
Proof.
  intros F G fo ro std_sort fuel cl cs n c0 nc pa mode obj after g l st Hrows H Hx.
  apply functor_ok in H; [|assumption]. destruct H as ((_ & _ & _ & [H|H]) & _); [rewrite H in Hx; contradiction|tauto].
Qed.
Print Assumptions C58_recorded_partial.
(** ... but the result does not: it always says INT_MAX, here for x + y = 1, y + z = 1, x + z = 1,
    which no assignment satisfies. *)
Definition ex_odd_pb : problem :=
  mk_problem (mk_objective [mk_oelem 1 0; mk_oelem 1 1; mk_oelem 1 2] [] 0)
    [mk_constraint (str "a") [mk_felem 1 0; mk_felem 1 1] 1 0; mk_constraint (str "b") [mk_felem 1 1; mk_felem 1 2] 1 1;
     mk_constraint (str "c") [mk_felem 1 0; mk_felem 1 2] 1 2] [] []
    (mk_variables [str "x"; str "y"; str "z"] (repeat (mk_variable_value 0 1 vt_binary) 3)) (mk_affected [] []) minimize equalities_01.
Theorem C58_refuted :
  exists r x, ex_solve ex_odd_pb [1; 1; 1] (ex_params 5 0 100 co_none) = Finished (Ok r) /\
    sr_status r = st_limit_reached /\ sr_solutions r = [(x, None)] /\ sr_remaining r = 2147483647 /\
    length (filter (fun c => negb (lhs (as_assignment x) (c_elements c) =? c_value c)) (p_equal ex_odd_pb)) = 1%nat.
Proof. eexists _, _. split; [vm_compute; reflexivity|]. split; [vm_compute; reflexivity|]. split; [vm_compute; reflexivity|]. split; vm_compute; reflexivity. Qed.
Print Assumptions C58_refuted.

(** ** C61. The run ends *)
(** Rows satisfiable one by one, costs defined: the run ends without any error, after at most
    limit + pushes * (1 + iterations per push) sweeps. Missing: more variables than rows with
    pi_sign_change (C42_refuted_bad_row) and the read after the buffer (C30_refuted). *)
Theorem C61_run_ends_partial :
  forall (F G : Type) (fo : fops F) (ro : rops G) std_sort, permutes std_sort -> shuffles ro ->
  forall fuel cl cs n c0 nc pa mode obj after (g : G) sv s,
  shares_affect cl -> (forall r, In r cs -> row_ok n r) ->
  make_any_solver fo cl cs n nc mode after [] g = Ok (sv, s) ->
  (forall v, (v < n)%nat -> exists f, c0 v = Some f) -> cost_defined n nc ->
  (forall r, In r cs -> row_satisfiable r /\ buffer_long_enough cs after r) ->
  objective_in n obj -> cs <> [] ->
  (pa_order pa = co_pi_sign_change -> (n <= length cs)%nat) ->
  0 <= pa_limit pa < Z.of_nat fuel ->
  exists l st,
    functor fo ro std_sort fuel cl cs n c0 nc pa mode obj after g = Finished (l, st) /\
    Z.of_nat (length (lp_tried l)) <= pa_limit pa + Z.max 0 (pa_pushes_limit pa) * (1 + Z.max 0 (pa_pushing_iteration_limit pa)).
Proof.
  intros F G fo ro std_sort Hp Hs fuel cl cs n c0 nc pa mode obj after g sv s Hcl Hrows Hmk Hc0 Hnc Hsat Hobj Hne Hpi Hfu.
  destruct (functor_total fo ro std_sort Hp fuel cl cs n c0 nc pa mode obj after g sv s Hs Hrows Hmk Hc0) as (l & st & H); try assumption.
  - intros push kappa delta theta k s' Hk Hsz. destruct (nth_error cs k) as [r|] eqn:E; [|apply nth_error_None in E; lia].
    destruct (Hsat r (nth_error_In _ _ E)) as [H1 H2].
    destruct (any_update_unit fo ro std_sort Hp Hs cl cs n nc mode after [] g sv s Hmk Hrows Hnc push kappa delta theta k r s' Hcl E H1 H2 Hsz)
      as (s2 & b & K1 & K2 & _). eauto.
  - exists l, st. split; [exact H|]. eapply functor_tried; [exact H|lia].
Qed.
Print Assumptions C61_run_ends_partial.
(** The same for the solver for arbitrary coefficients, on the rows it supports (C62). Missing: the
    rows given to branch-and-bound, whose reduced costs must have finite sums (C62). *)
Theorem C61_run_ends_Z_partial :
  forall (F G : Type) (fo : fops F) (ro : rops G) std_sort, permutes std_sort -> sorts std_sort -> weak_order (fl_lt fo) -> shuffles ro ->
  forall fuel cs n c0 nc pa mode obj after (g : G) sv s,
  (forall r, In r cs -> row_ok n r) ->
  make_any_solver fo S_inequalities_Z cs n nc mode after [] g = Ok (sv, s) ->
  (forall v, (v < n)%nat -> exists f, c0 v = Some f) -> cost_defined n nc ->
  (forall r, In r cs -> supported r /\ buffer_one_more cs after r /\ (unit_row r \/ (length (m_elements r) < 10)%nat)) ->
  objective_in n obj -> cs <> [] ->
  (pa_order pa = co_pi_sign_change -> (n <= length cs)%nat) ->
  0 <= pa_limit pa < Z.of_nat fuel ->
  exists l st,
    functor fo ro std_sort fuel S_inequalities_Z cs n c0 nc pa mode obj after g = Finished (l, st) /\
    Z.of_nat (length (lp_tried l)) <= pa_limit pa + Z.max 0 (pa_pushes_limit pa) * (1 + Z.max 0 (pa_pushing_iteration_limit pa)).
Proof.
  intros F G fo ro std_sort Hp Hso Hw Hs fuel cs n c0 nc pa mode obj after g sv s Hrows Hmk Hc0 Hnc Hsat Hobj Hne Hpi Hfu.
  destruct (functor_total fo ro std_sort Hp fuel S_inequalities_Z cs n c0 nc pa mode obj after g sv s Hs Hrows Hmk Hc0) as (l & st & H); try assumption.
  - intros push kappa delta theta k s' Hk Hsz. destruct (nth_error cs k) as [r|] eqn:E; [|apply nth_error_None in E; lia].
    destruct (Hsat r (nth_error_In _ _ E)) as (H1 & H2 & H3).
    destruct (any_update_Z fo ro std_sort Hp Hs S_inequalities_Z cs n nc mode after [] g sv s Hmk Hrows Hnc Hso Hw push kappa delta theta k r s' eq_refl E H1 H2 H3 Hsz)
      as (s2 & b & K1 & K2 & _). eauto.
  - exists l, st. split; [exact H|]. eapply functor_tried; [exact H|lia].
Qed.
Print Assumptions C61_run_ends_Z_partial.
Example C61_hyps : exists sv s,
  make_any_solver ex_fops S_inequalities_101 ex_rows 5 (ex_cost [3; -2; 5; 1; -4]) minimize [] [] tt = Ok (sv, s) /\
  (forall v, (v < 5)%nat -> exists f, ex_c0 [3; -2; 5; 1; -4] v = Some f) /\ objective_in 5 (mk_objective [mk_oelem 3 0] [mk_qelem 2 1 4] 0) /\
  (forall r, In r ex_rows -> row_satisfiable r /\ buffer_long_enough ex_rows (@nil (rc Z)) r).
Proof.
  destruct C30_hyps as (_ & _ & _ & Hc & Hr & _). eexists _, _. split; [vm_compute; reflexivity|]. split; [|split; [|exact Hr]].
  - intros v Hv. unfold ex_c0. destruct (nth_error [3; -2; 5; 1; -4] v) eqn:E; [eauto|]. apply nth_error_None in E. cbn in E. lia.
  - split; cbn; intros e [<-|[]]; cbn; lia.
Qed.

(** A run of the solver for arbitrary coefficients: 2x0 + 3x1 - x2 = 4 and x0 + x1 >= 1. *)
Definition ex_solve_Z : problem :=
  mk_problem (mk_objective [mk_oelem 1 0; mk_oelem (-2) 1; mk_oelem 3 2] [] 7)
    [mk_constraint (str "a") [mk_felem 2 0; mk_felem 3 1; mk_felem (-1) 2] 4 0] [mk_constraint (str "b") [mk_felem 1 0; mk_felem 1 1] 1 1] []
    (mk_variables [str "x"; str "y"; str "z"] (repeat (mk_variable_value 0 1 vt_binary) 3)) (mk_affected [] []) minimize inequalities_Z.
Example C32_run_Z : exists r,
  solve_problem ex_fops ex_rops insertion_sort 20 Z.div po_none S_inequalities_Z ex_solve_Z (ex_c0 [1; -2; 3]) (ex_cost [1; -2; 3])
    (ex_params 10 0 100 co_none) [mk_rc 0 0 0%nat] tt = Finished (Ok r) /\
  sr_status r = st_success /\ sr_solutions r = [([true; true; true], Some 9)] /\ indices_ok ex_solve_Z /\ distinct_vars ex_solve_Z.
Proof.
  eexists. split; [vm_compute; reflexivity|]. split; [reflexivity|]. split; [reflexivity|]. split; [repeat split|].
  - intros c H. cbn in H. repeat (destruct H as [<-|H]; [discriminate|]). destruct H.
  - intros c e H He. cbn in H. repeat (destruct H as [<-|H]; [cbn in He; repeat (destruct He as [<-|He]; [cbn; lia|]); destruct He|]). destruct H.
  - intros e He. cbn in He. repeat (destruct He as [<-|He]; [cbn; lia|]). destruct He.
  - intros c H. cbn in H. repeat (destruct H as [<-|H]; [repeat constructor; cbn; intuition discriminate|]). destruct H.
Qed.
Definition ex_rows_Z : list merged :=
  [mk_merged [mk_felem 2 0; mk_felem 3 1; mk_felem (-1) 2] 4 4 0; mk_merged [mk_felem 1 0; mk_felem 1 1] 1 int_max 1].
Example C61_hyps_Z : exists sv s,
  make_any_solver ex_fops S_inequalities_Z ex_rows_Z 3 (ex_cost [1; -2; 3]) minimize [mk_rc 0 0 0%nat] [] tt = Ok (sv, s) /\
  (forall r, In r ex_rows_Z -> row_ok 3 r) /\
  (forall r, In r ex_rows_Z -> supported r /\ buffer_one_more ex_rows_Z [mk_rc 0 0 0%nat] r /\ (unit_row r \/ (length (m_elements r) < 10)%nat)) /\
  cost_defined 3 (ex_cost [1; -2; 3]).
Proof.
  eexists _, _. split; [vm_compute; reflexivity|]. split; [|split].
  - intros r [<-|[<-|[]]]; split; cbn; try (repeat constructor; cbn; intuition discriminate);
      intros e He; repeat (destruct He as [<-|He]; [cbn; lia|]); destruct He.
  - intros r [<-|[<-|[]]]; (split; [|split; [left; discriminate|right; cbn; lia]]).
    + right. right. right. right. split; [intros H; specialize (H (mk_felem 2 0) (or_introl eq_refl)); cbn in H; lia|].
      split; [|left; reflexivity]. exists (fun v => true). vm_compute. split; discriminate.
    + right. left. vm_compute. split; discriminate.
  - intros v x Hv _. unfold ex_cost. destruct (nth_error _ v) eqn:E; [eauto|]. apply nth_error_None in E. cbn in E. lia.
Qed.
