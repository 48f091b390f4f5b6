(** Property theorems C113-C115: comparisons of problems and of solutions, clear(). *)
From Coq Require Import String QArith.
From Verif Require Import Base Problem_model Problem_spec Classify_model Validate_model Params_model Preprocess_model Preprocess_spec Compare_model Compare_spec Compare_proofs.
Open Scope string_scope.
Open Scope list_scope.
Open Scope Z_scope.

(** C113. Problems that compare equal can be exchanged. == is an equivalence and != its negation. Two raw problems are equal exactly when they have the same variables, constraints
    (order, labels, coefficients, right-hand sides), direction, linear costs and constant. They have the same feasible assignments and is_valid_solution
    gives the same answer for every result; turned into problems they are equal again, so they are given to the same solver. If they also have the same quadratic costs, the
    objective has the same value everywhere and compute_solution too. Missing: the quadratic costs are not compared (C113_refuted). *)
Theorem C113_equal_problems_partial :
  (forall a, problem_eqb a a = true) /\ (forall a b, problem_eqb a b = problem_eqb b a) /\
  (forall a b c, problem_eqb a b = true -> problem_eqb b c = true -> problem_eqb a c = true) /\
  (forall a b, problem_neqb a b = negb (problem_eqb a b)) /\
  (forall a b, raw_eqb a b = true <-> same_linear a b) /\
  (forall a b, problem_eqb a b = true <-> same_linear a b /\ p_affected a = p_affected b /\ p_problem_type a = p_problem_type b) /\
  (forall a b, raw_eqb a b = true ->
    (forall x, feasible x a <-> feasible x b) /\ (forall r, is_valid_solution a r = is_valid_solution b r) /\
    problem_eqb (unpreprocess a) (unpreprocess b) = true /\ which_problem_type a = which_problem_type b /\
    (o_qelements (p_objective a) = o_qelements (p_objective b) ->
      (forall x, objective_value x (p_objective a) = objective_value x (p_objective b)) /\ (forall r, compute_solution a r = compute_solution b r))).
Proof.
  assert (P : forall a b, problem_eqb a b = true <-> same_linear a b /\ p_affected a = p_affected b /\ p_problem_type a = p_problem_type b).
  { intros a b. rewrite problem_eqb_raw, raw_eqb_same. tauto. }
  split; [|split; [|split; [|split; [|split; [|split]]]]].
  - intros a. apply P. split; [apply same_linear_refl|auto].
  - intros a b. destruct (problem_eqb a b) eqn:E, (problem_eqb b a) eqn:E2; try reflexivity; exfalso.
    + apply P in E. destruct E as (H & H1 & H2). assert (K : problem_eqb b a = true) by (apply P; split; [apply same_linear_sym; exact H|auto]). congruence.
    + apply P in E2. destruct E2 as (H & H1 & H2). assert (K : problem_eqb a b = true) by (apply P; split; [apply same_linear_sym; exact H|auto]). congruence.
  - intros a b c H1 H2. apply P in H1, H2. apply P. destruct H1 as (H & H1 & H3), H2 as (K & K1 & K2). split; [eapply same_linear_trans; eauto|]. split; congruence.
  - reflexivity.
  - exact raw_eqb_same.
  - exact P.
  - intros a b H. apply raw_eqb_same in H. split; [|split; [|split; [|split]]].
    + intros x. split; apply same_feasible; [exact H|apply same_linear_sym; exact H].
    + intros r. apply same_valid. exact H.
    + apply same_unpreprocess. exact H.
    + apply same_class. exact H.
    + intros Hq. split; [intros x; apply same_objective; assumption|intros r; apply same_value; assumption].
Qed.
Print Assumptions C113_equal_problems_partial.
(** max x + y with c: x + y = 1; the constraint has number [id], the objective the quadratic part [q]. *)
Definition ex_cmp (id : Z) (q : list qelem) (rhs : Z) : problem :=
  mk_problem (mk_objective [mk_oelem 1 0; mk_oelem 1 1] q 0) [mk_constraint (str "c") [mk_felem 1 0; mk_felem 1 1] rhs id] [] []
    (mk_variables [str "x"; str "y"] [mk_variable_value 0 1 vt_binary; mk_variable_value 0 1 vt_binary]) (mk_affected [] []) maximize equalities_01.
Example C113_example : raw_eqb (ex_cmp 0 [] 1) (ex_cmp 7 [] 1) = true /\ ex_cmp 0 [] 1 <> ex_cmp 7 [] 1 /\ raw_eqb (ex_cmp 0 [] 1) (ex_cmp 0 [] 2) = false /\
  feasible (fun i => Nat.eqb i 0) (ex_cmp 7 [] 1).
Proof.
  split; [vm_compute; reflexivity|]. split; [discriminate|]. split; [vm_compute; reflexivity|].
  split; [|split; intros c []]. intros c [<-|[]]. vm_compute. reflexivity.
Qed.
(** Two equal problems with another value at x = y = 1, for compute_solution too: one of them has the term 5 x y. *)
Theorem C113_refuted : exists a b r, problem_eqb a b = true /\ raw_eqb a b = true /\ is_valid_solution a r = Ok true /\ is_valid_solution b r = Ok true /\
  compute_solution a r = Ok 2 /\ compute_solution b r = Ok 7 /\
  objective_value (fun _ => true) (p_objective a) = 2 /\ objective_value (fun _ => true) (p_objective b) = 7.
Proof.
  exists (ex_cmp 0 [] 2), (ex_cmp 0 [mk_qelem 5 0 1] 2), (mk_result (mk_affected [] []) [str "x"; str "y"] [mk_solution [true; true] 2] st_success).
  repeat (split; [vm_compute; reflexivity|]). vm_compute. reflexivity.
Qed.
Print Assumptions C113_refuted.

(** C114. clear() leaves nothing of a problem: the problem cleared is equal to a new one when the constant of its objective is 0, has no variable, no constraint and no
    cost, linear or quadratic. Missing: the constant stays (C114_refuted). *)
Theorem C114_clear_partial : forall pb,
  (raw_eqb (clear pb) raw_problem0 = true <-> o_value (p_objective pb) = 0) /\
  o_qelements (p_objective (clear pb)) = [] /\ all_constraints (clear pb) = [] /\ p_vars (clear pb) = mk_variables [] [] /\
  (forall x, objective_value x (p_objective (clear pb)) = o_value (p_objective pb)) /\ (forall x, feasible x (clear pb)) /\ clear (clear pb) = clear pb.
Proof.
  intros pb. split; [|split; [reflexivity|split; [reflexivity|split; [reflexivity|split; [|split; [|reflexivity]]]]]].
  - rewrite raw_eqb_same. unfold same_linear. cbn. split; [intros (_ & H & _); exact H|]. intros H. repeat split; auto.
  - intros x. unfold objective_value. cbn. lia.
  - intros x. split; [|split]; intros c [].
Qed.
Print Assumptions C114_clear_partial.
Example C114_example : o_value (p_objective (ex_cmp 0 [mk_qelem 5 0 1] 2)) = 0 /\ raw_eqb (ex_cmp 0 [mk_qelem 5 0 1] 2) raw_problem0 = false.
Proof. split; vm_compute; reflexivity. Qed.
Theorem C114_refuted : exists pb, raw_eqb (clear pb) raw_problem0 = false /\ objective_value (fun _ => false) (p_objective (clear pb)) = 3.
Proof. exists (mk_problem (mk_objective [] [] 3) [] [] [] (mk_variables [] []) (mk_affected [] []) minimize equalities_01). split; vm_compute; reflexivity. Qed.
Print Assumptions C114_refuted.

(** C115. The order of the solutions can be used to sort them: it is irreflexive, asymmetric and transitive; between solutions whose values are numbers, not being comparable
    is transitive; a solution before another one has the larger value, and equal solutions are not before one another. Missing: values that are not numbers (C115_refuted). *)
Theorem C115_order_partial :
  (forall a, solution_ltb a a = false) /\ (forall a b, solution_ltb a b = true -> solution_ltb b a = false) /\
  (forall a b c, solution_ltb a b = true -> solution_ltb b c = true -> solution_ltb a c = true) /\
  (forall a b c, a_number (ds_value b) -> solution_ltb a b = false -> solution_ltb b a = false -> solution_ltb b c = false -> solution_ltb c b = false ->
    solution_ltb a c = false /\ solution_ltb c a = false) /\
  (forall u v x y, solution_ltb (mk_dsolution u (Fin x)) (mk_dsolution v (Fin y)) = true <-> (y < x)%Q) /\
  (forall a b, solution_eqb a b = true -> solution_ltb a b = false /\ solution_ltb b a = false /\ ds_variables a = ds_variables b).
Proof.
  unfold solution_ltb. split; [intros a; apply dlt_irrefl|]. split.
  { intros a b H. destruct (dlt (ds_value a) (ds_value b)) eqn:E; [|reflexivity]. pose proof (dlt_trans _ _ _ H E) as K. rewrite dlt_irrefl in K. discriminate. }
  split; [intros a b c H1 H2; eapply dlt_trans; eauto|]. split.
  { intros a b c Hn H1 H2 H3 H4. split.
    - destruct (dlt (ds_value c) (ds_value a)) eqn:E; [|reflexivity]. destruct (dlt_cotrans _ (ds_value b) _ Hn E); congruence.
    - destruct (dlt (ds_value a) (ds_value c)) eqn:E; [|reflexivity]. destruct (dlt_cotrans _ (ds_value b) _ Hn E); congruence. }
  split; [intros u v x y; apply Params_proofs.dlt_fin|].
  intros a b H. unfold solution_eqb in H. apply andb_true_iff in H. destruct H as [H1 H2]. rewrite (vec_eqb_eq _ Bool.eqb_true_iff) in H2. split; [|split; [|exact H2]].
  - destruct (ds_value a), (ds_value b); try discriminate; try reflexivity. cbn [deq] in H1. apply Params_proofs.dlt_fin_f. apply Qeq_bool_iff in H1. rewrite H1. apply Qle_refl.
  - destruct (ds_value a), (ds_value b); try discriminate; try reflexivity. cbn [deq] in H1. apply Params_proofs.dlt_fin_f. apply Qeq_bool_iff in H1. rewrite H1. apply Qle_refl.
Qed.
Print Assumptions C115_order_partial.
Example C115_example : solution_ltb (mk_dsolution [true; false] (dofZ 5)) (mk_dsolution [false; true] (dofZ 3)) = true /\
  solution_ltb (mk_dsolution [true] (dofZ 5)) (mk_dsolution [false] (dofZ 5)) = false /\ a_number (dofZ 5).
Proof. split; [vm_compute; reflexivity|]. split; [vm_compute; reflexivity|discriminate]. Qed.
(** A solution whose value is not a number is comparable with neither of two others, which are comparable. *)
Theorem C115_refuted : exists a b c, solution_ltb a b = false /\ solution_ltb b a = false /\ solution_ltb b c = false /\ solution_ltb c b = false /\ solution_ltb a c = true.
Proof.
  exists (mk_dsolution [true] (dofZ 2)), (mk_dsolution [true] NaN), (mk_dsolution [true] (dofZ 1)). repeat (split; [vm_compute; reflexivity|]). vm_compute. reflexivity.
Qed.
Print Assumptions C115_refuted.
