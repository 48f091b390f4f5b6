From Verif Require Import Base Problem_model Merged_model Classify_model Preprocess_model Validate_model Params_model
  Rows_model Solver_model Pool_model EndToEnd_model Tuning_model Optimize_model Rewrite_spec Repeat_spec Repeat_proofs.
Open Scope Z_scope.

(** All that the solvers read of a problem. *)
Definition same_run (pb pb' : problem) : Prop :=
  p_objective pb' = p_objective pb /\ p_vars pb' = p_vars pb /\ p_affected pb' = p_affected pb /\ p_type pb' = p_type pb /\
  p_problem_type pb' = p_problem_type pb /\ forall std_sort ddiv po, make_merged std_sort ddiv po pb' = make_merged std_sort ddiv po pb.
Lemma same_run_sym pb pb' : same_run pb pb' -> same_run pb' pb.
Proof. intros (A & B & C & D & E & H). unfold same_run. rewrite A, B, C, D, E. do 5 (split; [reflexivity|]). intros. symmetry. apply H. Qed.
Lemma same_run_refl pb : same_run pb pb.
Proof. unfold same_run. auto 10. Qed.
Lemma related_same_run op pb pb' : related looser op pb pb' -> same_run pb pb'.
Proof.
  intros H. pose proof H as (A & B & C & D & E & _). do 5 (split; [assumption|]). intros. eapply make_merged_related; eauto.
Qed.
Lemma unpreprocess_related op pb pb' : related looser op pb pb' -> same_run (unpreprocess pb) (unpreprocess pb').
Proof.
  intros H. pose proof H as (A & B & C & D & E & K). unfold unpreprocess. rewrite A, B, D, (which_related _ _ _ H).
  apply (related_same_run op). unfold related. cbn [p_objective p_vars p_affected p_type p_problem_type p_equal p_greater p_less]. auto 10.
Qed.

Section Solve.
Context {F G : Type} (fo : fops F) (ro : rops G) (std_sort : forall A : Type, (A -> A -> bool) -> list A -> list A) (ddiv : Z -> Z -> Z).
Lemma solve_problem_same fuel po cl pb pb' c0 nc pa after (g : G) : same_run pb pb' ->
  solve_problem fo ro std_sort fuel ddiv po cl pb' c0 nc pa after g = solve_problem fo ro std_sort fuel ddiv po cl pb c0 nc pa after g.
Proof. intros (A & B & C & D & E & H). unfold solve_problem. now rewrite A, B, C, D, H. Qed.
Variable random_optimizer : problem -> run_result (outcome sresult).
Variable craw : list oelem -> list qelem -> nat -> nat -> option F.
Variable cnorm : list oelem -> list qelem -> nat -> nat -> list bool -> option F.
Lemma itm_solve_same fuel buffered po pa after g pb pb' : same_run pb pb' ->
  itm_solve fo ro std_sort ddiv random_optimizer (by_terms craw) (by_terms cnorm) fuel false buffered po pa after g pb' =
  itm_solve fo ro std_sort ddiv random_optimizer (by_terms craw) (by_terms cnorm) fuel false buffered po pa after g pb.
Proof.
  intros S. pose proof S as (A & B & C & D & E & H). unfold itm_solve. cbn [negb]. rewrite (solve_problem_same _ _ _ _ _ _ _ _ _ _ S), E. unfold by_terms. now rewrite A, B.
Qed.
Lemma user_solve_related op pfuel fuel buffered po pa after g pb pb' pp : related (addition pp) op pb pb' ->
  user_solve fo ro std_sort ddiv random_optimizer (by_terms craw) (by_terms cnorm) pfuel fuel pp false buffered po pa after g pb' =
  user_solve fo ro std_sort ddiv random_optimizer (by_terms craw) (by_terms cnorm) pfuel fuel pp false buffered po pa after g pb.
Proof.
  intros H. unfold user_solve. destruct pp.
  - apply itm_solve_same. eapply unpreprocess_related; eauto.
  - pose proof (preprocess_related op pfuel pb pb' H) as P. unfold prel in P.
    destruct (preprocess pfuel pb) as [[q|]| |]; [destruct P as (q' & -> & P)|now rewrite P|now rewrite P|now rewrite P].
    destruct P as [->|P]; [reflexivity|]. apply itm_solve_same. eapply related_same_run, related_looser; eauto.
Qed.
End Solve.

Section Optimize.
Context {F G : Type} (fo : fops F) (ro : rops G) (std_sort : forall A : Type, (A -> A -> bool) -> list A -> list A) (ddiv : Z -> Z -> Z)
  (hash : list bool -> Z) (hardware : nat) (Q : sys F G -> Prop).
Lemma optimize_problem_same c cl pb pb' r : same_run pb pb' ->
  optimize_problem fo ro std_sort ddiv hash hardware Q c cl pb r -> optimize_problem fo ro std_sort ddiv hash hardware Q c cl pb' r.
Proof.
  intros (A & B & C & D & E & M) H. destruct pb as [o e g l v a t k], pb' as [o' e' g0 l' v' a' t' k'].
  cbn [p_objective p_vars p_affected p_type p_problem_type] in *. subst o' v' a' t' k'.
  inversion H as [H1|cs H1 H2|cs size g1 g' p0 ws s r0 n H1 H2 H3 H4 H5 H6 H7 H8 H9]; subst.
  - apply op_throw. now rewrite M.
  - apply (op_empty fo ro std_sort ddiv hash hardware Q c cl (mk_problem o e' g0 l' v a t k) cs); [rewrite M; exact H1|exact H2].
  - cbn [p_objective p_vars p_affected p_type p_problem_type] in *.
    apply (op_run fo ro std_sort ddiv hash hardware Q c cl (mk_problem o e' g0 l' v a t k) cs size g1 g' p0 ws s r0); try assumption. rewrite M; exact H1.
Qed.
Lemma itm_optimize_same c pb pb' r : same_run pb pb' ->
  itm_optimize fo ro std_sort ddiv hash hardware Q c pb r -> itm_optimize fo ro std_sort ddiv hash hardware Q c pb' r.
Proof.
  intros S H. pose proof S as (_ & _ & _ & _ & E & _). destruct H as [r Hr H|Hr T|fuel c0 nc after g r Hr T H|r Hr T H].
  - apply io_bastert; [exact Hr|]. rewrite E. eapply optimize_problem_same; eauto.
  - apply io_random_Z; [exact Hr|]. now rewrite E.
  - eapply io_random_eq; [exact Hr|now rewrite E|]. rewrite (solve_problem_same fo ro std_sort ddiv _ _ _ _ _ _ _ _ _ _ S). exact H.
  - apply io_random_ineq; [exact Hr|now rewrite E|]. eapply optimize_problem_same; eauto.
Qed.
Lemma manual_same c pb pb' r : same_run pb pb' ->
  manual fo ro std_sort ddiv hash hardware Q c pb r -> manual fo ro std_sort ddiv hash hardware Q c pb' r.
Proof. intros S [p r' T H]. eapply ma_run; [exact T|]. eapply itm_optimize_same; eauto. Qed.
Lemma prepared_same {D} (lib : option (library D)) c pb pb' r : has_mode (oc_mode c) 4 = false -> same_run pb pb' ->
  optimize_prepared fo ro std_sort ddiv hash hardware Q lib c pb r -> optimize_prepared fo ro std_sort ddiv hash hardware Q lib c pb' r.
Proof.
  intros M S. unfold optimize_prepared. rewrite M. destruct (has_mode (oc_mode c) 2); [|destruct (has_mode (oc_mode c) 1)].
  - intros [r' E H|l value r' E N H|l value p r' E N T H]; [eapply nl_none|eapply nl_failed|eapply nl_found]; eauto using manual_same, itm_optimize_same.
  - now apply manual_same.
  - now apply itm_optimize_same.
Qed.
Lemma user_optimize_related {D} (lib : option (library D)) c op pb pb' r : has_mode (oc_mode c) 4 = false ->
  related (addition (oc_pp c)) op pb pb' ->
  user_optimize fo ro std_sort ddiv hash hardware Q lib c pb r <-> user_optimize fo ro std_sort ddiv hash hardware Q lib c pb' r.
Proof.
  intros M R.
  assert (P : oc_pp c = pp_all -> forall pfuel, match preprocess pfuel pb with
    | Ok (Some q) => exists q', preprocess pfuel pb' = Ok (Some q') /\ same_run q q'
    | Ok None => preprocess pfuel pb' = Ok None | Throw => preprocess pfuel pb' = Throw | Crash => preprocess pfuel pb' = Crash end).
  { intros E pfuel. rewrite E in R. pose proof (preprocess_related op pfuel pb pb' R) as P. unfold prel in P.
    destruct (preprocess pfuel pb) as [[q|]| |]; try exact P. destruct P as (q' & P1 & P2). exists q'. split; [exact P1|].
    destruct P2 as [->|P2]; [apply same_run_refl|]. eapply related_same_run, related_looser; eauto. }
  split; intros [pfuel q r' E H K|pfuel E H|r' E K].
  - specialize (P E pfuel). rewrite H in P. destruct P as (q' & P & S). eapply uo_preprocessed; [exact E|exact P|]. eapply prepared_same; eauto.
  - specialize (P E pfuel). rewrite H in P. eapply uo_throw; eauto.
  - apply uo_unpreprocessed; [exact E|]. rewrite E in R. eapply prepared_same; [exact M|eapply unpreprocess_related; eauto|exact K].
  - specialize (P E pfuel). destruct (preprocess pfuel pb) as [[q0|]| |] eqn:H0; [|congruence|congruence|congruence]. destruct P as (q' & P & S).
    rewrite P in H. injection H as ->. eapply uo_preprocessed; [exact E|exact H0|]. eapply prepared_same; [exact M|apply same_run_sym; exact S|exact K].
  - specialize (P E pfuel). destruct (preprocess pfuel pb) as [[q0|]| |] eqn:H0; [destruct P as (q' & P & _); congruence|congruence| |congruence]. eapply uo_throw; eauto.
  - apply uo_unpreprocessed; [exact E|]. rewrite E in R. eapply prepared_same; [exact M|apply same_run_sym; eapply unpreprocess_related; eauto|exact K].
Qed.
End Optimize.

(** Each constraint added is one step. *)
Lemma more_steps (P : operator_type -> constraint -> constraint -> Prop) (R : problem -> Prop) pb pb' : more_constraints P pb pb' ->
  (forall op a b, related P op a b -> R b <-> R a) -> R pb' <-> R pb.
Proof.
  intros H S. induction H as [pb|o e e' g l v a t k pb H IH M|o e g g' l v a t k pb H IH M|o e g l l' v a t k pb H IH M]; [reflexivity| | |]; rewrite <- IH.
  - apply (S op_equal). unfold related. cbn. auto 10.
  - apply (S op_greater). unfold related. cbn. auto 10.
  - apply (S op_less). unfold related. cbn. auto 10.
Qed.
