(** Property theorem C48 (solve() answers the user's problem). *)
From Coq Require Import String.
From Verif Require Import Base Problem_model Problem_spec Merged_model Merged_spec Merged_proofs Classify_model Preprocess_model
  Preprocess_spec Preprocess_proofs4 Preprocess_props Validate_model Params_model Rows_model Rows_spec Rows_props
  Solver_model Solver_spec Solver_props EndToEnd_model EndToEnd_spec EndToEnd_proofs.
Open Scope Z_scope.

(** C48. When solve() with preprocessing reports success, it gives exactly one solution; together
    with the fixed variables it gives one value to each variable of the user's problem; the
    assignment so defined satisfies every constraint of the user's problem, it respects the bounds
    when they are those of 0/1 variables, and if the objective is linear the value reported is the
    user's objective there. For any float arithmetic, shuffles, sorts, costs used to guide
    the search, parameters, orders, "buffered" or not, with the default solver and with the random one. Missing:
    the value of quadratic objectives (C48_refuted), other bounds (C53_refuted), and the random solver when the preprocessed problem has
    inequalities (it then runs the optimizer, C39). *)
Theorem C48_solve_answers_the_users_problem_partial :
  forall (F G : Type) (fo : fops F) (ro : rops G) std_sort ddiv, permutes std_sort ->
  forall random_optimizer raw_costs norm_costs pfuel fuel random buffered po pa after (g : G) pb r,
  well_formed pb -> (exists x0, solution x0 pb) -> (forall X, fits_int X pb) ->
  (random = true -> forall q, preprocess pfuel pb = Ok (Some q) -> p_problem_type q <> inequalities_01 /\ p_problem_type q <> inequalities_101) ->
  user_solve fo ro std_sort ddiv random_optimizer raw_costs norm_costs pfuel fuel pp_all random buffered po pa after g pb = Finished (Ok r) ->
  sr_status r = st_success ->
  exists x v, sr_solutions r = [(x, v)] /\ names_all r pb /\ (exists X, reports r x X pb) /\
    forall X, reports r x X pb -> feasible X pb /\ (binary_bounds pb -> in_bounds X pb) /\
      (linear_objective pb -> v = Some (objective_value X (p_objective pb))).
Proof.
  intros F G fo ro std_sort ddiv Hperm rs rc nc pfuel fuel rnd buf po pa after g pb r Hwf Hx0 Hfit Hrnd H Hs.
  destruct (user_solve_answers fo ro std_sort ddiv Hperm _ _ _ _ _ _ _ _ _ _ _ _ _ Hwf Hx0 Hfit Hrnd H Hs) as (x & v & H1 & _ & H2).
  exists x, v. auto.
Qed.
Print Assumptions C48_solve_answers_the_users_problem_partial.

(** Concrete run: min x - 2y + 3z + 4w + 7 with x + y + z = 1, x - y <= 0 and w >= 1: w is fixed, y is
    found. *)
Definition ex_user : problem :=
  mk_problem (mk_objective [mk_oelem 1 0; mk_oelem (-2) 1; mk_oelem 3 2; mk_oelem 4 3] [] 7)
    [mk_constraint (str "a") [mk_felem 1 0; mk_felem 1 1; mk_felem 1 2] 1 0] [mk_constraint (str "c") [mk_felem 1 3] 1 2]
    [mk_constraint (str "b") [mk_felem 1 0; mk_felem (-1) 1] 0 1]
    (mk_variables [str "x"; str "y"; str "z"; str "w"] (repeat (mk_variable_value 0 1 vt_binary) 4)) (mk_affected [] []) minimize equalities_01.
Definition ex_user_solve (pb : problem) (costs : list Z) : run_result (outcome sresult) :=
  user_solve ex_fops ex_rops insertion_sort Z.div (fun _ => Aborted) (fun _ => ex_c0 costs) (fun _ => ex_cost costs) 10 20 pp_all false false
    po_none (ex_params 10 0 100 co_none) [mk_rc 0 0 0%nat] tt pb.
(** The same with the random solver, on the equality alone. *)
Definition ex_user_eq : problem :=
  mk_problem (p_objective ex_user) (p_equal ex_user) [] [] (p_vars ex_user) (mk_affected [] []) minimize equalities_01.
Example C48_random_run : exists r,
  user_solve ex_fops ex_rops insertion_sort Z.div (fun _ => Aborted) (fun _ => ex_c0 [1; -2; 3]) (fun _ => ex_cost [1; -2; 3]) 10 20 pp_all true false
    po_none (ex_params 10 0 100 co_none) [] tt ex_user_eq = Finished (Ok r) /\ sr_status r = st_success /\ sr_names r = [str "x"; str "y"; str "z"] /\
  (forall q, preprocess 10 ex_user_eq = Ok (Some q) -> p_problem_type q = equalities_01).
Proof.
  eexists. split; [vm_compute; reflexivity|]. split; [reflexivity|]. split; [reflexivity|].
  intros q H. vm_compute in H. inversion H; subst q. reflexivity.
Qed.
Example C48_run : exists r, ex_user_solve ex_user [1; -2; 3] = Finished (Ok r) /\ sr_status r = st_success /\
  sr_solutions r = [([false; true; false], Some 9)] /\ sr_names r = [str "x"; str "y"; str "z"] /\ a_names (sr_affected r) = [str "w"] /\
  well_formed ex_user /\ (exists x0, solution x0 ex_user) /\ linear_objective ex_user /\ (forall X, fits_int X ex_user).
Proof.
  eexists. split; [vm_compute; reflexivity|]. split; [reflexivity|]. split; [reflexivity|]. split; [reflexivity|]. split; [reflexivity|].
  split; [apply wf_check_ok; vm_compute; reflexivity|]. split; [|split; [reflexivity|]].
  - exists (fun i => Nat.eqb i 1 || Nat.eqb i 3). split.
    + repeat split; intros c H; in_cases; vm_compute; congruence.
    + intros i v H. do 4 (destruct i as [|i]; [inversion H; subst; vm_compute; split; congruence|]). destruct i; discriminate.
  - intros X c Hc. cbn in Hc. repeat (destruct Hc as [<-|Hc]; [cbn [c_elements lhs f_var f_factor]; unfold bz, int_min, int_max;
      destruct (X 0%nat), (X 1%nat), (X 2%nat), (X 3%nat); lia|]). destruct Hc.
Qed.

(** C48 is false for quadratic objectives: min 2 x y + 3 y z with x = 0, y + z >= 1, y - z >= 0. The only value
    possible for y is 1, x is fixed to 0, and the result adds the cost of x y. *)
Definition ex_user_quad : problem :=
  mk_problem (mk_objective [] [mk_qelem 2 0 1; mk_qelem 3 1 2] 0)
    [mk_constraint (str "c1") [el 1 0] 0 0]
    [mk_constraint (str "c2") [el 1 1; el 1 2] 1 1; mk_constraint (str "c3") [el 1 1; el (-1) 2] 0 2] []
    (mk_variables [str "x"; str "y"; str "z"] (repeat bin01 3)) (mk_affected [] []) minimize equalities_01.
Theorem C48_refuted : exists pb costs r x v X, well_formed pb /\ (exists x0, solution x0 pb) /\ (forall X, fits_int X pb) /\
  ex_user_solve pb costs = Finished (Ok r) /\ sr_status r = st_success /\ sr_solutions r = [(x, Some v)] /\
  reports r x X pb /\ v <> objective_value X (p_objective pb).
Proof.
  eexists ex_user_quad, [5; -2], _, _, _, (fun i => Nat.eqb i 1).
  split; [apply wf_check_ok; vm_compute; reflexivity|]. split; [|split; [|split; [vm_compute; reflexivity|split; [reflexivity|split; [reflexivity|]]]]].
  - exists (fun i => Nat.eqb i 1). split.
    + repeat split; intros c H; in_cases; vm_compute; congruence.
    + intros i v H. do 3 (destruct i as [|i]; [inversion H; subst; vm_compute; split; congruence|]). destruct i; discriminate.
  - intros X c Hc. cbn in Hc. repeat (destruct Hc as [<-|Hc]; [cbn [c_elements lhs f_var f_factor el]; unfold bz, int_min, int_max;
      destruct (X 0%nat), (X 1%nat), (X 2%nat); lia|]). destruct Hc.
  - split; [|vm_compute; discriminate]. intros i nm Hi. unfold called in Hi. cbn [sr_names sr_affected a_names a_values].
    do 3 (destruct i as [|i]; [inversion Hi; subst nm; split;
      [intros j Hj; do 2 (destruct j as [|j]; [cbn in Hj; discriminate || reflexivity|]); destruct j; discriminate
      |intros k b Hk Hb; destruct k as [|k]; [cbn in Hk, Hb; discriminate || (inversion Hb; reflexivity)|destruct k; discriminate]]|]).
    destruct i; discriminate.
Qed.
Print Assumptions C48_refuted.

(** C82. solve() without preprocessing: success comes with exactly one solution, which gives a
    value to each variable of the problem, in its order; it satisfies every constraint, and the value reported is the
    objective there, quadratic terms included. Whether or not the problem has solutions: so a problem
    that has none is never reported solved. For problems with a constraint; default solver, or random solver on equality problems. *)
Theorem C82_success_without_preprocessing :
  forall (F G : Type) (fo : fops F) (ro : rops G) std_sort ddiv, permutes std_sort ->
  forall random_optimizer raw_costs norm_costs pfuel fuel random buffered po pa after (g : G) pb r,
  well_formed_rows pb -> all_constraints pb <> [] -> v_values (p_vars pb) <> [] -> (forall X, fits_int X pb) ->
  (random = true -> which_problem_type pb <> inequalities_01 /\ which_problem_type pb <> inequalities_101) ->
  user_solve fo ro std_sort ddiv random_optimizer raw_costs norm_costs pfuel fuel pp_none random buffered po pa after g pb = Finished (Ok r) ->
  sr_status r = st_success ->
  exists x, sr_names r = v_names (p_vars pb) /\ sr_affected r = mk_affected [] [] /\ length x = length (v_values (p_vars pb)) /\
    sr_solutions r = [(x, Some (objective_value (as_assignment x) (p_objective pb)))] /\ feasible (as_assignment x) pb.
Proof.
  intros F G fo ro std_sort ddiv Hp ropt rc nc pfuel fuel random buffered po pa after g pb r.
  exact (plain_solve_answers fo ro std_sort ddiv Hp ropt rc nc pfuel fuel random buffered po pa after g pb r).
Qed.
Print Assumptions C82_success_without_preprocessing.
(** The quadratic problem of C48_refuted is solved with the right value, and the contradiction of C16 is not
    reported solved. *)
Definition ex_plain_solve (pb : problem) (costs : list Z) : run_result (outcome sresult) :=
  user_solve ex_fops ex_rops insertion_sort Z.div (fun _ => Aborted) (fun _ => ex_c0 costs) (fun _ => ex_cost costs) 10 20 pp_none false false
    po_none (ex_params 10 0 100 co_none) [mk_rc 0 0 0%nat] tt pb.
Example C82_run : exists r, ex_plain_solve ex_user_quad [0; -5; 1] = Finished (Ok r) /\ sr_status r = st_success /\
  sr_solutions r = [([false; true; false], Some 0)] /\ well_formed_rows ex_user_quad.
Proof.
  eexists. split; [vm_compute; reflexivity|]. split; [reflexivity|]. split; [reflexivity|].
  destruct (wf_check_ok ex_user_quad eq_refl) as (H1 & H2 & H3 & H4 & _). exact (conj H1 (conj H2 (conj H3 H4))).
Qed.
Example C82_unsat : ex_plain_solve ex_unsat [0; 0] = Finished Throw \/ exists r, ex_plain_solve ex_unsat [0; 0] = Finished (Ok r) /\ sr_status r <> st_success.
Proof. first [left; vm_compute; reflexivity | right; eexists; split; [vm_compute; reflexivity|discriminate]]. Qed.
