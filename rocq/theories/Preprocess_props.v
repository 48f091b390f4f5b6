(** Property theorems C09-C16 and C53-C55 (preprocessor). *)
From Coq Require Import String.
From Verif Require Import Base Problem_model Problem_spec Merged_model Merged_spec Merged_proofs Classify_model
  Preprocess_model Preprocess_spec Preprocess_proofs Preprocess_proofs2 Preprocess_proofs3 Preprocess_proofs4 Preprocess_proofs5.
Open Scope Z_scope.

(** ** A concrete problem:  min 2b + 3c - f  with
    a = 1,  a + b + c >= 2,  d + e <= 0; f appears in no constraint. *)
Definition bin01 := mk_variable_value 0 1 vt_binary.
Definition ex_vars : variables :=
  mk_variables [str "a"; str "b"; str "c"; str "d"; str "e"; str "f"] (repeat bin01 6).
Definition el (f : Z) (v : nat) := mk_felem f v.
Definition ex_pb : problem :=
  mk_problem (mk_objective [mk_oelem 2 1; mk_oelem 3 2; mk_oelem (-1) 5] [] 0)
    [mk_constraint (str "c1") [el 1 0] 1 0]
    [mk_constraint (str "c2") [el 1 0; el 1 1; el 1 2] 2 1]
    [mk_constraint (str "c3") [el 1 3; el 1 4] 0 2]
    ex_vars (mk_affected [] []) minimize equalities_01.
Definition ex_x : assignment := fun i => Nat.eqb i 0 || Nat.eqb i 2.
Definition ex_q : problem :=
  mk_problem (mk_objective [mk_oelem 2 0; mk_oelem 3 1] [] (-1)) []
    [mk_constraint (str "c2") [el 1 0; el 1 1] 1 1] []
    (mk_variables [str "b"; str "c"] (repeat bin01 2))
    (mk_affected [str "a"; str "d"; str "e"; str "f"] [true; false; false; true]) minimize inequalities_01.

Example ex_run : preprocess 7 ex_pb = Ok (Some ex_q).
Proof. vm_compute. reflexivity. Qed.
Ltac in_cases := repeat match goal with H : In _ _ |- _ => cbn in H; repeat (destruct H as [H|H]); try destruct H; subst end.
(** A decision procedure for the examples. *)
Fixpoint nodupb {A} (eq : A -> A -> bool) (l : list A) : bool :=
  match l with [] => true | a :: l' => negb (existsb (eq a) l') && nodupb eq l' end.
Lemma nodupb_ok {A} (eq : A -> A -> bool) : (forall a b, a = b -> eq a b = true) ->
  forall l, nodupb eq l = true -> NoDup l.
Proof.
  intros He. induction l as [|a l IH]; cbn; [constructor|]. rewrite Bool.andb_true_iff, Bool.negb_true_iff. intros [H1 H2].
  constructor; [|auto]. intros Hin.
  assert (existsb (eq a) l = true) by (apply existsb_exists; exists a; split; [assumption|apply He; reflexivity]). congruence.
Qed.
Definition text_eqb (a b : text) : bool := if list_eq_dec Ascii.ascii_dec a b then true else false.
Definition wf_check (pb : problem) : bool :=
  let n := List.length (v_values (p_vars pb)) in
  Nat.eqb (List.length (v_names (p_vars pb))) n && nodupb text_eqb (v_names (p_vars pb)) &&
  forallb (fun c => forallb (fun e => Nat.ltb (f_var e) n) (c_elements c) && nodupb Nat.eqb (map f_var (c_elements c)))
    (all_constraints pb) &&
  forallb (fun e => Nat.ltb (o_var e) n) (o_elements (p_objective pb)) &&
  nodupb Nat.eqb (map o_var (o_elements (p_objective pb))) &&
  forallb (fun t => Nat.ltb (q_vara t) n && Nat.ltb (q_varb t) n) (o_qelements (p_objective pb)).
Lemma wf_check_ok pb : wf_check pb = true -> well_formed pb.
Proof.
  unfold wf_check, well_formed. cbv zeta. rewrite !Bool.andb_true_iff, !forallb_forall.
  intros (((((H1 & H2) & H3) & H4) & H5) & H6).
  assert (Hn : forall a b : nat, a = b -> Nat.eqb a b = true) by (intros a b ->; apply Nat.eqb_refl).
  split; [apply Nat.eqb_eq; assumption|].
  split; [revert H2; apply nodupb_ok; intros a b ->; unfold text_eqb; destruct (list_eq_dec Ascii.ascii_dec b b); congruence|].
  split; [intros c e Hc He; specialize (H3 c Hc); rewrite Bool.andb_true_iff, forallb_forall in H3; apply Nat.ltb_lt; apply (proj1 H3 e He)|].
  split; [intros c Hc; specialize (H3 c Hc); rewrite Bool.andb_true_iff in H3; exact (nodupb_ok _ Hn _ (proj2 H3))|].
  split; [intros e He; apply Nat.ltb_lt; auto|].
  split; [exact (nodupb_ok _ Hn _ H5)|].
  intros t Ht. specialize (H6 t Ht). rewrite Bool.andb_true_iff, !Nat.ltb_lt in H6. assumption.
Qed.
Example ex_wf : well_formed ex_pb.
Proof. apply wf_check_ok. vm_compute. reflexivity. Qed.
Example ex_sol : solution ex_x ex_pb.
Proof.
  split.
  - repeat split; intros c H; in_cases; vm_compute; congruence.
  - intros i v H. do 6 (destruct i as [|i]; [inversion H; subst; vm_compute; split; congruence|]). destruct i; discriminate.
Qed.
Example ex_bin : binary_bounds ex_pb.
Proof. intros v H. left. in_cases; vm_compute; split; congruence. Qed.

(** C09. A completed solution of the preprocessed problem satisfies the user's problem. *)
Theorem C09_preprocess_sound :
  forall (pb q : problem) (fuel : nat) (y x : assignment),
  well_formed pb -> (exists x0, solution x0 pb) ->
  preprocess fuel pb = Ok (Some q) ->
  completes y q x pb -> feasible y q -> feasible x pb.
Proof. intros pb q fuel y x Hwf [x0 H0] Hq. exact (preprocess_sound pb Hwf x0 H0 fuel q Hq y x). Qed.
Print Assumptions C09_preprocess_sound.
Example C09_hyps : exists y x, well_formed ex_pb /\ (exists x0, solution x0 ex_pb) /\
  preprocess 7 ex_pb = Ok (Some ex_q) /\ completes y ex_q x ex_pb /\ feasible y ex_q.
Proof.
  exists (fun j => Nat.eqb j 1), (fun i => Nat.eqb i 0 || Nat.eqb i 2 || Nat.eqb i 5).
  split; [exact ex_wf|]. split; [exists ex_x; exact ex_sol|]. split; [exact ex_run|]. split.
  - intros i nm Hi. split.
    + intros j Hj. unfold called in *.
      do 6 (destruct i as [|i]; [inversion Hi; subst; do 2 (destruct j as [|j]; [solve [vm_compute in Hj; discriminate|reflexivity]|]); destruct j; discriminate|]).
      destruct i; discriminate.
    + intros b (k & Hk & Hb). unfold called in *.
      do 6 (destruct i as [|i]; [inversion Hi; subst; do 4 (destruct k as [|k]; [solve [vm_compute in Hk; discriminate|inversion Hb; reflexivity]|]); destruct k; discriminate|]).
      destruct i; discriminate.
  - repeat split; intros c H; in_cases; vm_compute; congruence.
Qed.

(** C09: such a completion always exists. *)
Theorem C09_completion_exists :
  forall (pb q : problem) (fuel : nat) (y : assignment),
  length (v_names (p_vars pb)) = length (v_values (p_vars pb)) -> NoDup (v_names (p_vars pb)) ->
  preprocess fuel pb = Ok (Some q) -> exists x, completes y q x pb.
Proof.
  intros pb q fuel y Hl Hnd Hq. destruct (preprocess_make fuel pb q Hq) as (mo & s & Hm).
  apply make_problem_rebuilt in Hm. destruct (rebuilt_partition _ _ _ _ _ Hm Hl) as (nms & vals & H1 & _ & _ & H4 & _).
  apply completion_exists. rewrite H1. cbn [a_names app].
  eapply Permutation_NoDup; [apply Permutation_sym; exact H4|exact Hnd].
Qed.
Print Assumptions C09_completion_exists.

(** C10. A fixed value is the value of the variable in every solution, or is one that can
    be given to the variable in any solution. *)
Theorem C10_fixed_values_are_forced_or_free :
  forall (pb q : problem) (fuel : nat) (i : nat) (nm : text) (b : bool),
  well_formed pb -> (exists x0, solution x0 pb) ->
  preprocess fuel pb = Ok (Some q) ->
  called pb i nm -> fixed_to q nm b ->
  (forall x, solution x pb -> x i = b) \/
  (forall x, solution x pb -> feasible (set_var x i b) pb).
Proof. intros pb q fuel i nm b Hwf [x0 H0] Hq. exact (preprocess_fixed pb Hwf x0 H0 fuel q Hq i nm b). Qed.
Print Assumptions C10_fixed_values_are_forced_or_free.
Example C10_hyps : called ex_pb 3 (str "d") /\ fixed_to ex_q (str "d") false /\
  called ex_pb 5 (str "f") /\ fixed_to ex_q (str "f") true.
Proof. repeat split; [exists 1%nat; split; reflexivity|exists 3%nat; split; reflexivity]. Qed.

(** C10, converse direction: every solution survives, up to variables that no remaining
    constraint mentions, with an objective at least as good. *)
Theorem C10_no_solution_is_lost :
  forall (pb q : problem) (fuel : nat) (x : assignment),
  well_formed pb -> binary_bounds pb -> preprocess fuel pb = Ok (Some q) -> solution x pb ->
  exists y x', solution y q /\ completes y q x' pb /\ solution x' pb /\
    (forall i nm j, called pb i nm -> called q j nm -> y j = x i) /\
    (linear_objective pb ->
     no_worse (p_type pb) (objective_value x' (p_objective pb)) (objective_value x (p_objective pb))).
Proof.
  intros pb q fuel x Hwf Hb Hq Hx. exact (preprocess_complete pb Hwf x Hx fuel q Hq x Hx Hb).
Qed.
Print Assumptions C10_no_solution_is_lost.

(** C11. Linear objective values are preserved (no satisfiability needed). *)
Theorem C11_linear_objective_preserved :
  forall (pb q : problem) (fuel : nat) (y x : assignment),
  length (v_names (p_vars pb)) = length (v_values (p_vars pb)) ->
  preprocess fuel pb = Ok (Some q) -> linear_objective pb -> completes y q x pb ->
  objective_value y (p_objective q) = objective_value x (p_objective pb).
Proof. exact (fun pb q fuel y x => preprocess_objective_any pb fuel q y x). Qed.
Print Assumptions C11_linear_objective_preserved.
Example C11_value : objective_value (fun j => Nat.eqb j 1) (p_objective ex_q) = 2 /\
  objective_value (fun i => Nat.eqb i 0 || Nat.eqb i 2 || Nat.eqb i 5) (p_objective ex_pb) = 2.
Proof. split; reflexivity. Qed.

(** C12. The variables are partitioned, keeping names, bounds and order. *)
Theorem C12_variables_partitioned :
  forall (pb q : problem) (fuel : nat),
  length (v_names (p_vars pb)) = length (v_values (p_vars pb)) ->
  preprocess fuel pb = Ok (Some q) ->
  Permutation (v_names (p_vars q) ++ a_names (p_affected q)) (v_names (p_vars pb)) /\
  length (a_names (p_affected q)) = length (a_values (p_affected q)) /\
  length (v_names (p_vars q)) = length (v_values (p_vars q)) /\
  sublist (combine (v_names (p_vars q)) (v_values (p_vars q)))
          (combine (v_names (p_vars pb)) (v_values (p_vars pb))).
Proof.
  intros pb q fuel Hl Hq. destruct (preprocess_make fuel pb q Hq) as (mo & s & Hm).
  apply make_problem_rebuilt in Hm. destruct (rebuilt_partition _ _ _ _ _ Hm Hl) as (nms & vals & H1 & H2 & H3 & H4 & H5 & H6).
  rewrite H1, H2. cbn [a_names a_values app]. auto.
Qed.
Print Assumptions C12_variables_partitioned.

(** C13, linear objectives: preprocessing ends, within one propagation step per variable,
    and reaches none of its failure exits. Missing: quadratic objectives (C13_refuted). *)
Theorem C13_preprocess_terminates_partial :
  forall pb : problem, well_formed pb -> (exists x0, solution x0 pb) -> linear_objective pb ->
  exists q, forall fuel, (length (v_values (p_vars pb)) < fuel)%nat -> preprocess fuel pb = Ok (Some q).
Proof. intros pb Hwf [x0 H0] Hl. exact (preprocess_terminates pb Hwf x0 H0 Hl). Qed.
Print Assumptions C13_preprocess_terminates_partial.
Example C13_hyps : well_formed ex_pb /\ (exists x0, solution x0 ex_pb) /\ linear_objective ex_pb.
Proof. split; [exact ex_wf|]. split; [exists ex_x; exact ex_sol|reflexivity]. Qed.

(** maximize 2 x y without constraint: the objective rebuild dereferences an end iterator. *)
Definition ex_quad : problem :=
  mk_problem (mk_objective [] [mk_qelem 2 0 1] 0) [] [] []
    (mk_variables [str "x"; str "y"] (repeat bin01 2)) (mk_affected [] []) maximize equalities_01.
Theorem C13_refuted :
  exists (pb : problem) (x : assignment), well_formed pb /\ binary_bounds pb /\ solution x pb /\
    forall fuel, (2 < fuel)%nat -> preprocess fuel pb = Crash.
Proof.
  exists ex_quad, (fun _ => true). split; [|split; [|split]].
  - apply wf_check_ok. vm_compute. reflexivity.
  - intros v H. left. in_cases; vm_compute; split; congruence.
  - split; [repeat split; intros c []|].
    intros i v H. do 2 (destruct i as [|i]; [inversion H; subst; vm_compute; split; congruence|]). destruct i; discriminate.
  - intros fuel Hf. do 3 (destruct fuel as [|fuel]; [lia|]). reflexivity.
Qed.
Print Assumptions C13_refuted.

(** C14. The optimal value is kept. *)
Theorem C14_optimum_kept :
  forall (pb q : problem) (fuel : nat) (z : Z),
  well_formed pb -> binary_bounds pb -> (exists x0, solution x0 pb) -> linear_objective pb ->
  preprocess fuel pb = Ok (Some q) ->
  (is_optimum q z <-> is_optimum pb z).
Proof. intros pb q fuel z Hwf Hb [x0 H0] Hl Hq. exact (preprocess_optimum pb x0 fuel q z Hwf H0 Hb Hl Hq). Qed.
Print Assumptions C14_optimum_kept.
Example C14_case : is_optimum ex_pb 1.
Proof.
  apply (C14_optimum_kept ex_pb ex_q 7 1 ex_wf ex_bin (ex_intro _ ex_x ex_sol) eq_refl ex_run).
  split.
  - exists (fun j => Nat.eqb j 0). split; [|reflexivity]. split.
    + repeat split; intros c H; in_cases; vm_compute; congruence.
    + intros i v H. do 2 (destruct i as [|i]; [inversion H; subst; vm_compute; split; congruence|]). destruct i; discriminate.
  - intros x [[_ [Hg _]] _]. specialize (Hg _ (or_introl eq_refl)). revert Hg. unfold sat_greater, objective_value. cbn.
    destruct (x 0%nat), (x 1%nat); cbn; lia.
Qed.

(** C15. Quadratic objective values are preserved when no variable of a quadratic term is
    fixed. Missing: terms with a fixed variable (C15_refuted). *)
Theorem C15_quadratic_preserved_partial :
  forall (pb q : problem) (fuel : nat) (y x : assignment),
  length (v_names (p_vars pb)) = length (v_values (p_vars pb)) -> NoDup (v_names (p_vars pb)) ->
  preprocess fuel pb = Ok (Some q) -> completes y q x pb ->
  (forall t i nm, In t (o_qelements (p_objective pb)) -> (i = q_vara t \/ i = q_varb t) -> called pb i nm ->
     exists j, called q j nm) ->
  objective_value y (p_objective q) = objective_value x (p_objective pb).
Proof. exact (fun pb q fuel y x => preprocess_quadratic_untouched pb fuel q y x). Qed.
Print Assumptions C15_quadratic_preserved_partial.

(** x = 0, y + z >= 1, min 2 x y + 3 y z: with x fixed to 0, the term 2xy becomes 2y. *)
Definition ex_quad2 : problem :=
  mk_problem (mk_objective [] [mk_qelem 2 0 1; mk_qelem 3 1 2] 0)
    [mk_constraint (str "c1") [el 1 0] 0 0] [mk_constraint (str "c2") [el 1 1; el 1 2] 1 1] []
    (mk_variables [str "x"; str "y"; str "z"] (repeat bin01 3)) (mk_affected [] []) minimize equalities_01.
Theorem C15_refuted :
  exists (pb q : problem) (y x : assignment),
    well_formed pb /\ solution x pb /\ preprocess 4 pb = Ok (Some q) /\ completes y q x pb /\
    objective_value y (p_objective q) <> objective_value x (p_objective pb).
Proof.
  eexists ex_quad2, _, (fun _ => true), (fun i => negb (Nat.eqb i 0)).
  split; [|split; [|split; [vm_compute; reflexivity|split]]].
  - apply wf_check_ok. vm_compute. reflexivity.
  - split; [repeat split; intros c H; in_cases; vm_compute; congruence|].
    intros i v H. do 3 (destruct i as [|i]; [inversion H; subst; vm_compute; split; congruence|]). destruct i; discriminate.
  - intros i nm Hi. unfold called, fixed_to in *. split.
    + intros j Hj. destruct i; [|reflexivity]. inversion Hi; subst.
      do 2 (destruct j as [|j]; [vm_compute in Hj; discriminate|]). destruct j; discriminate.
    + intros b (k & Hk & Hb). destruct k as [|k]; [|destruct k; discriminate]. inversion Hb; subst.
      destruct i as [|i]; [reflexivity|]. vm_compute in Hk. inversion Hk; subst.
      do 2 (destruct i as [|i]; [vm_compute in Hi; discriminate|]). destruct i; discriminate.
  - vm_compute. discriminate.
Qed.
Print Assumptions C15_refuted.
Definition ex_quad3 : problem :=
  mk_problem (mk_objective [mk_oelem 1 0] [mk_qelem 3 1 2] 0)
    [mk_constraint (str "c1") [el 1 0] 1 0] [mk_constraint (str "c2") [el 1 1; el 1 2] 1 1] []
    (mk_variables [str "x"; str "y"; str "z"] (repeat bin01 3)) (mk_affected [] []) minimize equalities_01.
Example C15_hyps : exists q, preprocess 4 ex_quad3 = Ok (Some q) /\
  (forall t i nm, In t (o_qelements (p_objective ex_quad3)) -> (i = q_vara t \/ i = q_varb t) -> called ex_quad3 i nm ->
     exists j, called q j nm) /\ a_names (p_affected q) = [str "x"].
Proof.
  eexists. split; [vm_compute; reflexivity|]. split; [|reflexivity].
  intros t i nm Ht Hi Hc. cbn in Ht. destruct Ht as [<-|[]]. unfold called in *. cbn in Hi.
  destruct Hi as [->| ->]; inversion Hc; subst; [exists 0%nat|exists 1%nat]; reflexivity.
Qed.

(** C16 is false: x = 1 and x = 0 together are dropped silently, leaving a problem that
    every assignment solves. *)
Definition ex_unsat : problem :=
  mk_problem (mk_objective [] [] 0)
    [mk_constraint (str "c1") [el 1 0] 1 0; mk_constraint (str "c2") [el 1 0] 0 1] [] []
    (mk_variables [str "x"; str "y"] (repeat bin01 2)) (mk_affected [] []) minimize equalities_01.
Theorem C16_refuted :
  exists pb q : problem, well_formed pb /\ binary_bounds pb /\ (forall x, ~ feasible x pb) /\
    preprocess 3 pb = Ok (Some q) /\ forall y, feasible y q.
Proof.
  eexists ex_unsat, _. split; [|split; [|split; [|split; [vm_compute; reflexivity|]]]].
  - apply wf_check_ok. vm_compute. reflexivity.
  - intros v H. left. in_cases; vm_compute; split; congruence.
  - intros x [H _]. pose proof (H _ (or_introl eq_refl)) as H1. pose proof (H _ (or_intror (or_introl eq_refl))) as H2.
    unfold sat_equal in *. cbn in H1, H2. destruct (x 0%nat); cbn in *; lia.
  - intros y. repeat split; intros c [].
Qed.
Print Assumptions C16_refuted.
(** C16, what remains: whether or not the problem has solutions, the only constraints that a
    completed solution of the preprocessed problem may violate are those whose variables have all
    been fixed. Missing: noticing that such a constraint is violated (C16_refuted). *)
Theorem C16_partial :
  forall (pb q : problem) (fuel : nat) (y x : assignment) (c : constraint),
  well_formed pb -> preprocess fuel pb = Ok (Some q) -> completes y q x pb -> feasible y q ->
  violates x pb c ->
  forall e, In e (c_elements c) -> exists nm b, called pb (f_var e) nm /\ fixed_to q nm b.
Proof.
  intros pb q fuel y x c Hwf Hq Hc Hy Hv. pose proof (preprocess_settles pb fuel q y x Hwf Hq Hc Hy) as H.
  destruct Hv as [[Hi Hn]|[[Hi Hn]|[Hi Hn]]]; [ destruct (H op_equal c Hi) as [K|K] | destruct (H op_greater c Hi) as [K|K] | destruct (H op_less c Hi) as [K|K] ]; try exact K; destruct (Hn K).
Qed.
Print Assumptions C16_partial.
(** An infeasible problem whose contradiction survives: x + y = 1, 2x + 2y + z >= 4, t = 1. *)
Definition ex_unsat2 : problem :=
  mk_problem (mk_objective [] [] 0)
    [mk_constraint (str "c1") [el 1 0; el 1 1] 1 0; mk_constraint (str "c3") [el 1 3] 1 2]
    [mk_constraint (str "c2") [el 2 0; el 2 1; el 1 2] 4 1] []
    (mk_variables [str "x"; str "y"; str "z"; str "t"] (repeat bin01 4)) (mk_affected [] []) minimize equalities_01.
Example C16_hyps : well_formed ex_unsat2 /\ exists q, preprocess 5 ex_unsat2 = Ok (Some q) /\ length (p_equal q) = 1%nat /\
  fixed_to q (str "t") true.
Proof.
  split; [ apply wf_check_ok; vm_compute; reflexivity |]. eexists. split; [ vm_compute; reflexivity |]. split; [ reflexivity |].
  exists 0%nat. split; reflexivity.
Qed.
(** and the hypotheses on y and x, with a violated constraint *)
Example C16_hyps_violated : exists q, preprocess 3 ex_unsat = Ok (Some q) /\ feasible (fun _ => true) q /\
  completes (fun _ => true) q (fun _ => true) ex_unsat /\ violates (fun _ => true) ex_unsat (mk_constraint (str "c2") [el 1 0] 0 1).
Proof.
  eexists. split; [ vm_compute; reflexivity |]. split; [ repeat split; intros c [] |]. split.
  - intros i nm Hi. split; [ reflexivity |]. intros b (k & Hk & Hb). cbn in Hb. do 3 (destruct k as [ |k ]; try (cbn in Hb; congruence)).
  - left. split; [ right; left; reflexivity |]. unfold sat_equal. cbn. lia.
Qed.

(** C53. With binary bounds the completed solution also respects the bounds. Missing:
    other bounds (C53_refuted). *)
Theorem C53_bounds_respected_partial :
  forall (pb q : problem) (fuel : nat) (y x : assignment),
  well_formed pb -> binary_bounds pb -> (exists x0, solution x0 pb) ->
  preprocess fuel pb = Ok (Some q) ->
  completes y q x pb -> feasible y q -> solution x pb.
Proof. intros pb q fuel y x Hwf Hb [x0 H0] Hq. exact (preprocess_sound_bounds pb Hwf x0 H0 fuel q Hq y x Hb). Qed.
Print Assumptions C53_bounds_respected_partial.
Example C53_hyps : binary_bounds ex_pb. Proof. exact ex_bin. Qed.
(** A variable with bounds 1..5 that no constraint mentions is fixed to 0 (min x). *)
Theorem C53_refuted :
  exists (pb q : problem) (v : variable_value), well_formed pb /\ (exists x0, solution x0 pb) /\
    preprocess 2 pb = Ok (Some q) /\ fixed_to q (str "x") false /\
    called pb 0 (str "x") /\ nth_error (v_values (p_vars pb)) 0 = Some v /\ v_min v = 1.
Proof.
  eexists (mk_problem (mk_objective [mk_oelem 1 0] [] 0) [] [] []
    (mk_variables [str "x"] [mk_variable_value 1 5 vt_general]) (mk_affected [] []) minimize equalities_01), _, _.
  split; [|split; [|split; [vm_compute; reflexivity|]]].
  - apply wf_check_ok. vm_compute. reflexivity.
  - exists (fun _ => true). split; [repeat split; intros c []|].
    intros i v H. destruct i as [|i]; [inversion H; subst; vm_compute; split; congruence|]. destruct i; discriminate.
  - split; [exists 0%nat; split; reflexivity|]. repeat split.
Qed.
Print Assumptions C53_refuted.

(** C54. Fixing one variable (one half of a split): for a problem all of whose constraints
    have at least two variables, the solutions of the result are exactly the solutions of
    that half, with the same objective values. *)
Theorem C54_affect_half_exact_partial :
  forall (pb q : problem) (fuel v : nat) (b : bool),
  well_formed pb -> reduced pb -> affected_apart pb -> (v < length (v_values (p_vars pb)))%nat ->
  (exists x0, feasible x0 pb /\ x0 v = b) ->
  affect fuel pb v b = Ok (Some q) ->
  (forall y x, completes y q x pb -> feasible y q -> feasible x pb /\ x v = b) /\
  (forall x, feasible x pb -> x v = b ->
     exists y x', feasible y q /\ completes y q x' pb /\ feasible x' pb /\ x' v = b /\
       (linear_objective pb ->
        no_worse (p_type pb) (objective_value x' (p_objective pb)) (objective_value x (p_objective pb)))) /\
  (linear_objective pb -> forall y x, completes y q x pb ->
     objective_value y (p_objective q) = objective_value x (p_objective pb)).
Proof.
  intros pb q fuel v b Hwf Hr Ha Hv (x0 & H0 & H1) Hq. split; [|split].
  - exact (affect_sound pb Hwf Hr Ha v b Hv x0 H0 H1 fuel q Hq).
  - exact (affect_complete pb Hwf Hr Ha v b Hv x0 H0 H1 fuel q Hq).
  - intros Hl y x. exact (affect_objective pb Hwf Hr Ha v b Hv x0 H0 H1 fuel q Hq y x Hl).
Qed.
Print Assumptions C54_affect_half_exact_partial.
Theorem C54_affect_terminates_partial :
  forall (pb : problem) (v : nat) (b : bool),
  well_formed pb -> reduced pb -> affected_apart pb -> (v < length (v_values (p_vars pb)))%nat ->
  (exists x0, feasible x0 pb /\ x0 v = b) -> linear_objective pb ->
  exists q, forall fuel, (length (v_values (p_vars pb)) < fuel)%nat -> affect fuel pb v b = Ok (Some q).
Proof.
  intros pb v b Hwf Hr Ha Hv (x0 & H0 & H1) Hl. exact (affect_terminates pb Hwf Hr Ha v b Hv x0 H0 H1 Hl).
Qed.
Print Assumptions C54_affect_terminates_partial.
Example C54_hyps : well_formed ex_q /\ reduced ex_q /\ affected_apart ex_q /\
  (exists x0, feasible x0 ex_q /\ x0 0%nat = false) /\ exists r, affect 3 ex_q 0 false = Ok (Some r).
Proof.
  destruct (preprocess_shape ex_pb ex_x 7 ex_q ex_wf ex_sol ex_run) as (_ & H2 & H3 & H1 & _). destruct (H1 eq_refl) as [H1' _]. clear H1. rename H1' into H1.
  split; [exact H1|]. split; [exact H2|]. split; [exact H3|]. split; [|eexists; vm_compute; reflexivity].
  exists (fun j => Nat.eqb j 1). split; [|reflexivity]. repeat split; intros c H; in_cases; vm_compute; congruence.
Qed.
(** The two halves of a split together: the first has the solutions with the variable at 1,
    the second those with the variable at 0, and no solution is in neither. *)
Theorem C54_split_exact_partial :
  forall (pb q1 q0 : problem) (fuel v : nat),
  well_formed pb -> reduced pb -> affected_apart pb -> (v < length (v_values (p_vars pb)))%nat ->
  (exists x1, feasible x1 pb /\ x1 v = true) -> (exists x0, feasible x0 pb /\ x0 v = false) ->
  split fuel pb v = Ok (Some q1, Some q0) ->
  (forall y x, completes y q1 x pb -> feasible y q1 -> feasible x pb /\ x v = true) /\
  (forall y x, completes y q0 x pb -> feasible y q0 -> feasible x pb /\ x v = false) /\
  (forall x, feasible x pb -> exists q y x', (q = q1 \/ q = q0) /\
     feasible y q /\ completes y q x' pb /\ feasible x' pb /\ x' v = x v /\
     (linear_objective pb ->
      no_worse (p_type pb) (objective_value x' (p_objective pb)) (objective_value x (p_objective pb)))) /\
  (linear_objective pb -> forall q y x, q = q1 \/ q = q0 -> completes y q x pb ->
     objective_value y (p_objective q) = objective_value x (p_objective pb)).
Proof.
  intros pb q1 q0 fuel v Hwf Hr Ha Hv (x1 & H1 & H1v) (x0 & H0 & H0v) Hq. unfold split in Hq.
  rewrite (proj2 (Nat.ltb_lt _ _) Hv) in Hq. cbn [ensures] in Hq.
  destruct (affect fuel pb v true) as [r1| |] eqn:E1; cbn [obind] in Hq; try discriminate.
  destruct (affect fuel pb v false) as [r0| |] eqn:E0; cbn [obind] in Hq; try discriminate.
  inversion Hq; subst r1 r0. split; [|split; [|split]].
  - exact (affect_sound pb Hwf Hr Ha v true Hv x1 H1 H1v fuel q1 E1).
  - exact (affect_sound pb Hwf Hr Ha v false Hv x0 H0 H0v fuel q0 E0).
  - intros x Hx. destruct (x v) eqn:Ex.
    + destruct (affect_complete pb Hwf Hr Ha v true Hv x1 H1 H1v fuel q1 E1 x Hx Ex) as (y & x' & A). exists q1, y, x'. tauto.
    + destruct (affect_complete pb Hwf Hr Ha v false Hv x0 H0 H0v fuel q0 E0 x Hx Ex) as (y & x' & A). exists q0, y, x'. tauto.
  - intros Hl q y x [->| ->].
    + exact (affect_objective pb Hwf Hr Ha v true Hv x1 H1 H1v fuel q1 E1 y x Hl).
    + exact (affect_objective pb Hwf Hr Ha v false Hv x0 H0 H0v fuel q0 E0 y x Hl).
Qed.
Print Assumptions C54_split_exact_partial.
Example C54_split_hyps : (exists x1, feasible x1 ex_q /\ x1 0%nat = true) /\ (exists x0, feasible x0 ex_q /\ x0 0%nat = false) /\
  exists q1 q0, split 3 ex_q 0 = Ok (Some q1, Some q0).
Proof.
  split; [|split; [|eexists _, _; vm_compute; reflexivity]].
  - exists (fun j => Nat.eqb j 0). split; [|reflexivity]. repeat split; intros c H; in_cases; vm_compute; congruence.
  - exists (fun j => Nat.eqb j 1). split; [|reflexivity]. repeat split; intros c H; in_cases; vm_compute; congruence.
Qed.
(** With a one-variable constraint the result forgets the constraint. *)
Theorem C54_refuted :
  exists (pb q : problem) (y : assignment), well_formed pb /\ affected_apart pb /\
    (exists x0, feasible x0 pb /\ x0 1%nat = true) /\ affect 3 pb 1 true = Ok (Some q) /\
    feasible y q /\ forall x, completes y q x pb -> ~ feasible x pb.
Proof.
  eexists (mk_problem (mk_objective [] [] 0) [mk_constraint (str "c1") [el 1 0] 1 0] [] []
    (mk_variables [str "x"; str "y"] (repeat bin01 2)) (mk_affected [] []) minimize equalities_01), _, (fun _ => false).
  split; [|split; [|split; [|split; [vm_compute; reflexivity|split]]]].
  - apply wf_check_ok. vm_compute. reflexivity.
  - split; [reflexivity|intros nm []].
  - exists (fun _ => true). split; [|reflexivity]. repeat split; intros c H; in_cases; vm_compute; congruence.
  - repeat split; intros c H; in_cases; vm_compute; congruence.
  - intros x Hc [He _]. specialize (He _ (or_introl eq_refl)). unfold sat_equal in He. cbn in He.
    rewrite (proj1 (Hc 0%nat (str "x") eq_refl) 0%nat eq_refl) in He. cbn in He. lia.
Qed.
Print Assumptions C54_refuted.

(** C55. The result of preprocessing has well-formed constraints (and, for a linear objective, a
    well-formed objective), each remaining constraint
    keeps at least two variables, and the direction of the objective is kept; the same for
    the halves of a split, so both can be repeated. *)
Theorem C55_result_is_reduced :
  forall (pb q : problem) (fuel : nat),
  well_formed pb -> (exists x0, solution x0 pb) ->
  preprocess fuel pb = Ok (Some q) ->
  well_formed_rows q /\ reduced q /\ affected_apart q /\ (linear_objective pb -> well_formed q /\ linear_objective q) /\ p_type q = p_type pb.
Proof. intros pb q fuel Hwf [x0 H0] Hq. exact (preprocess_shape pb x0 fuel q Hwf H0 Hq). Qed.
Print Assumptions C55_result_is_reduced.

(** C74. Every variable left by preprocessing is in a constraint left by preprocessing. *)
Theorem C74_no_free_variable_left :
  forall (pb q : problem) (fuel : nat),
  well_formed pb -> (exists x0, solution x0 pb) ->
  preprocess fuel pb = Ok (Some q) ->
  forall j, (j < length (v_values (p_vars q)))%nat ->
  exists c e, In c (all_constraints q) /\ In e (c_elements c) /\ f_var e = j.
Proof. intros pb q fuel Hwf [x0 H0] Hq. exact (preprocess_used pb x0 fuel q Hwf H0 Hq). Qed.
Print Assumptions C74_no_free_variable_left.
Example C74_hyps : well_formed ex_pb /\ (exists x0, solution x0 ex_pb) /\ preprocess 7 ex_pb = Ok (Some ex_q) /\
  v_names (p_vars ex_q) = [str "b"; str "c"].
Proof. split; [exact ex_wf|]. split; [exists ex_x; exact ex_sol|]. split; [exact ex_run|reflexivity]. Qed.

Theorem C55_half_is_reduced :
  forall (pb q : problem) (fuel v : nat) (b : bool),
  well_formed pb -> reduced pb -> affected_apart pb -> (v < length (v_values (p_vars pb)))%nat ->
  (exists x0, feasible x0 pb /\ x0 v = b) -> linear_objective pb ->
  affect fuel pb v b = Ok (Some q) ->
  well_formed q /\ reduced q /\ affected_apart q /\ linear_objective q /\ p_type q = p_type pb.
Proof.
  intros pb q fuel v b Hwf Hr Ha Hv (x0 & H0 & H1) Hl Hq. exact (affect_shape pb Hwf Hr Ha v b Hv x0 H0 H1 fuel q Hq Hl).
Qed.
Print Assumptions C55_half_is_reduced.
