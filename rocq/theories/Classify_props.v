(** Property theorems C08, C51, C52 (problem class and solver construction). *)
From Coq Require Import String.
From Verif Require Import Base Problem_model Problem_spec Merged_model Merged_spec Merged_proofs Merged_props
  Classify_model Classify_spec Classify_proofs.
Open Scope Z_scope.

(** C08, for problems without a zero coefficient (see C08_refuted for the rest): the class
    chosen fits the problem and no more specific class does. *)
Theorem C08_class_is_correct_partial :
  forall pb : problem, all_factors factor_nonzero pb ->
    class_fits (which_problem_type pb) pb /\
    forall t, class_fits t pb ->
      (rank_coef (which_problem_type pb) <= rank_coef t)%nat /\
      (rank_op (which_problem_type pb) <= rank_op t)%nat.
Proof. exact (fun pb H => conj (which_fits pb H) (which_minimal pb)). Qed.
Print Assumptions C08_class_is_correct_partial.

(** C08, every problem: the equality classes are only used without inequality, and the
    class chosen is never more general than a class that fits. *)
Theorem C08_class_is_minimal :
  forall (pb : problem) (t : problem_solver_type), class_fits t pb ->
    (rank_coef (which_problem_type pb) <= rank_coef t)%nat /\
    (rank_op (which_problem_type pb) <= rank_op t)%nat.
Proof. exact which_minimal. Qed.
Print Assumptions C08_class_is_minimal.

(** A zero coefficient is classified 01: the constructor check then aborts, although the
    problem is satisfiable. *)
Definition ex_zero : problem :=
  mk_problem (mk_objective [] [] 0)
    [mk_constraint (str "a") [mk_felem 0 0; mk_felem 1 1] 1 0] [] []
    (mk_variables [str "x"; str "y"] (repeat (mk_variable_value 0 1 vt_binary) 2))
    (mk_affected [] []) minimize equalities_01.
Theorem C08_refuted :
  exists (pb : problem) (cs : list merged) (x : assignment),
    ~ class_fits (which_problem_type pb) pb /\ feasible x pb /\ fits_int x pb /\
    make_merged insertion_sort Z.div po_none pb = Ok cs /\
    solver_ctor (dispatch (which_problem_type pb)) cs = Crash.
Proof.
  exists ex_zero, [mk_merged [mk_felem 0 0; mk_felem 1 1] 1 1 0], (fun v => Nat.eqb v 1).
  split; [|split; [|split; [|split; vm_compute; reflexivity]]].
  - intros [H _]. specialize (H (mk_constraint (str "a") [mk_felem 0 0; mk_felem 1 1] 1 0) (mk_felem 0 0)
      ltac:(left; reflexivity) ltac:(left; reflexivity)). discriminate H.
  - split; [intros c [<-|[]]; reflexivity|split; intros c []].
  - intros c [<-|[]]; vm_compute; split; discriminate.
Qed.
Print Assumptions C08_refuted.

(** C51: for a satisfiable problem without zero coefficient, the constructor of the
    selected solver accepts the merged constraints, and the (possibly tightened) bounds it
    keeps for each row accept exactly the same assignments. *)
Theorem C51_constructor_accepts_and_keeps_meaning :
  forall (std_sort : forall A : Type, (A -> A -> bool) -> list A -> list A) (ddiv : Z -> Z -> Z),
  permutes std_sort ->
  forall (po : pre_order) (pb : problem) (cs : list merged) (x0 : assignment),
  all_factors factor_nonzero pb -> feasible x0 pb -> fits_int x0 pb ->
  make_merged std_sort ddiv po pb = Ok cs ->
  exists bs, solver_ctor (dispatch (which_problem_type pb)) cs = Ok bs /\
    Forall2 (fun b c => forall x, fst b <= lhs x (m_elements c) <= snd b <->
                                  m_min c <= lhs x (m_elements c) <= m_max c) bs cs.
Proof. exact constructor_accepts. Qed.
Print Assumptions C51_constructor_accepts_and_keeps_meaning.

(** C52 refuted: x + y >= 3 has no solution; instead of a failure result, the constructor
    of the solver ends the process. *)
Definition ex_unsat : problem :=
  mk_problem (mk_objective [] [] 0)
    [] [mk_constraint (str "a") [mk_felem 1 0; mk_felem 1 1] 3 0] []
    (mk_variables [str "x"; str "y"] (repeat (mk_variable_value 0 1 vt_binary) 2))
    (mk_affected [] []) minimize inequalities_01.
Theorem C52_unsatisfiable_is_reported_refuted :
  exists (pb : problem) (cs : list merged),
    all_factors factor_nonzero pb /\ indices_ok pb /\
    make_merged insertion_sort Z.div po_none pb = Ok cs /\
    solver_ctor (dispatch (which_problem_type pb)) cs = Crash.
Proof.
  exists ex_unsat, [mk_merged [mk_felem 1 0; mk_felem 1 1] 3 int_max 0].
  split; [|split; [|split; vm_compute; reflexivity]].
  - intros c e [<-|[]] [<-|[<-|[]]]; discriminate.
  - unfold indices_ok, ex_unsat; cbn. repeat split.
    + intros c [<-|[]]; discriminate.
    + intros c e [<-|[]] [<-|[<-|[]]]; cbn; lia.
    + intros e [].
Qed.
Print Assumptions C52_unsatisfiable_is_reported_refuted.
(** C52, what remains: if each (merged) constraint taken alone can be satisfied, the constructor
    accepts the problem, even when the constraints contradict each other. Missing: constraints
    that no assignment satisfies (C52_unsatisfiable_is_reported_refuted). *)
Theorem C52_constructor_accepts_partial :
  forall (std_sort : forall A : Type, (A -> A -> bool) -> list A -> list A) (ddiv : Z -> Z -> Z),
  permutes std_sort ->
  forall (po : pre_order) (pb : problem) (cs : list merged),
  all_factors factor_nonzero pb -> make_merged std_sort ddiv po pb = Ok cs ->
  (forall c, In c cs -> exists x, m_min c <= lhs x (m_elements c) <= m_max c) ->
  exists bs, solver_ctor (dispatch (which_problem_type pb)) cs = Ok bs.
Proof. exact constructor_accepts_each. Qed.
Print Assumptions C52_constructor_accepts_partial.
(** x + y = 1, x - y = 0 has no solution. *)
Definition ex_unsat2 : problem :=
  mk_problem (mk_objective [] [] 0)
    [mk_constraint (str "a") [mk_felem 1 0; mk_felem 1 1] 1 0; mk_constraint (str "b") [mk_felem 1 0; mk_felem (-1) 1] 0 1] [] []
    (mk_variables [str "x"; str "y"] (repeat (mk_variable_value 0 1 vt_binary) 2))
    (mk_affected [] []) minimize equalities_101.
Example C52_hyps : all_factors factor_nonzero ex_unsat2 /\ (forall x, ~ feasible x ex_unsat2) /\
  exists cs, make_merged insertion_sort Z.div po_none ex_unsat2 = Ok cs /\
    forall c, In c cs -> exists x, m_min c <= lhs x (m_elements c) <= m_max c.
Proof.
  split; [|split].
  - intros c e [<-|[<-|[]]] [<-|[<-|[]]]; discriminate.
  - intros x [H _]. pose proof (H _ (or_introl eq_refl)) as H1. pose proof (H _ (or_intror (or_introl eq_refl))) as H2.
    unfold sat_equal in *. cbn in H1, H2. destruct (x 0%nat), (x 1%nat); cbn in *; lia.
  - eexists. split; [vm_compute; reflexivity|]. intros c [<-|[<-|[]]].
    + exists (fun v => Nat.eqb v 0). vm_compute. split; discriminate.
    + exists (fun v => true). vm_compute. split; discriminate.
Qed.

Example C51_nonvacuous :
  all_factors factor_nonzero ex_pb /\ which_problem_type ex_pb = inequalities_101 /\
  exists cs bs, make_merged insertion_sort Z.div po_none ex_pb = Ok cs /\
    solver_ctor S_inequalities_101 cs = Ok bs /\ bs = [(1, 1); (0, 1)].
Proof.
  split; [|split; [reflexivity|]].
  - intros c e [<-|[<-|[<-|[<-|[]]]]] [<-|[<-|[]]]; discriminate.
  - eexists _, _. split; [vm_compute; reflexivity|]. split; vm_compute; reflexivity.
Qed.
