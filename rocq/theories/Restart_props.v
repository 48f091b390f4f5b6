(** Property theorem C126: how a thread of the optimizer starts a new run. *)
From Coq Require Import String Permutation Sorted.
From Verif Require Import Base Problem_model Problem_spec Merged_model Merged_spec Merged_proofs Classify_model Matrix_model
  Rows_model Rows_spec Rows_proofs Rows_props Validate_model Solver_model Solver_spec Solver_proofs Solver_proofs2 Solver_props
  Pool_model Pool_spec Pool_proofs Pool_proofs2 Pool_proofs3 Pool_props Restart_spec Restart_proofs.
Open Scope Z_scope.

(** C126. In any state that a run of the optimizer reaches, for any schedule, the thread that starts a new run either goes on from its own assignment with a larger
    kappa, or takes kappa-min and a mix of two different members of the pool (each variable has the value of one of the two); with
    the insertion enabled, a member is mixed with, or replaced by, the assignment of the costs or a random one. Then the assignment is mutated:
    without mutation nothing changes, and a variable for which no value is drawn keeps its value. Missing: the value of the variables
    that are mutated is the value drawn only for the variables 0, 64, 128, ...; the others become 0 (C126_refuted). *)
Theorem C126_restart_partial :
  forall (F G : Type) (fo : fops F) (ro : rops G) std_sort hash, permutes std_sort ->
  forall mode obj cs op cl n bastert xs p0 ws s i w p' a' kappa x',
  (forall r, In r cs -> row_ok n r) ->
  make_pool std_sort hash mode obj cs bastert xs = Some p0 -> length bastert = n -> (forall x, In x xs -> length x = n) ->
  (forall w, In w ws -> starts fo op cl cs n mode w) ->
  steps (step fo ro std_sort hash mode obj op) any (mk_sys p0 ws) s -> nth_error (sy_workers s) i = Some w ->
  let p := sy_pool s in let x := s_x (wk_s w) in let a := wk_append w in
  let kappa_min := pa_kappa_min (op_s op) in let kappa_max := pa_kappa_max (op_s op) in
  reinit fo op p a x p' a' kappa x' ->
  exists y draws, (if op_mutation op then mutated_in_place draws y x' else x' = y) /\
  ((fl_lt fo a (op_stop op) = true /\ p' = p /\ y = x /\ a' = fl_add fo a (op_increase op) /\
    kappa = fl_add fo kappa_min (fl_mul fo (fl_sub fo kappa_max kappa_min) a')) \/
   (fl_lt fo a (op_stop op) = false /\ a' = op_start op /\ kappa = kappa_min /\
    (from_two_members n p p' y \/
     (op_insertion op = true /\ exists z, (z = pl_bastert p \/ z = pl_random p') /\ with_another n p p' x z y)))).
Proof.
  intros F G fo ro std_sort hash Hperm mode obj cs op cl n bastert xs p0 ws s i w p' a' kappa x' Hrows Hp Hb Hx Hw Hst Hi p x a kmin kmax Hre.
  destruct (make_pool_ok std_sort hash mode obj cs n _ _ _ Hp Hb Hx) as [Hps _].
  assert (Hok : sys_ok fo mode obj cs n cl s).
  { apply (steps_inv _ _ (fun s => sys_ok fo mode obj cs n cl s) _ _ Hst).
    - intros a1 b1 H1 _ _ Hab. eapply step_ok; eassumption.
    - split; [assumption|]. intros w' Hw'. eapply starts_ok. apply Hw. assumption. }
  destruct Hok as [Hsz Hwk]. destruct (Hwk w (nth_error_In _ _ Hi)) as (_ & Hlx & _).
  exact (reinit_spec fo op n p a x p' a' kappa x' Hre Hsz Hlx).
Qed.
Print Assumptions C126_restart_partial.

(** A crossover of the members 0 and 1 of a pool of three, then a mutation of the three variables. *)
Definition ex_cross_op : oparams Z := mk_oparams Z (ex_params 5 0 100 co_none) 0 1 0 false true sto_one.
Definition ex_cross_xs : list (list bool) := [[true; false; false]; [false; true; true]; [false; false; false]].
Example C126_hyps :
  exists p0 w x',
  permutes insertion_sort /\ (forall r, In r ex_pool_rows -> row_ok 3 r) /\
  make_pool insertion_sort ex_hash minimize (p_objective ex_pool_pb) ex_pool_rows [false; false; false] ex_cross_xs = Some p0 /\
  (forall x, In x ex_cross_xs -> length x = 3%nat) /\ starts ex_fops ex_cross_op S_equalities_01 ex_pool_rows 3 minimize w /\
  steps (step ex_fops ex_rops insertion_sort ex_hash minimize (p_objective ex_pool_pb) ex_cross_op) any (mk_sys p0 [w]) (mk_sys p0 [w]) /\
  nth_error (sy_workers (mk_sys p0 [w])) 0 = Some w /\
  reinit ex_fops ex_cross_op p0 (wk_append w) (s_x (wk_s w)) p0 0 (pa_kappa_min (op_s ex_cross_op)) x' /\ x' = [false; false; true].
Proof.
  destruct (make_pool insertion_sort ex_hash minimize (p_objective ex_pool_pb) ex_pool_rows [false; false; false] ex_cross_xs) as [p0|] eqn:Ep; [|vm_compute in Ep; discriminate].
  destruct (ex_worker ex_cross_op S_equalities_01 (p_objective ex_pool_pb) ex_pool_rows 3 tt) as [w|] eqn:Ew; [|vm_compute in Ew; discriminate].
  assert (Hw : starts_as ex_fops ex_cross_op S_equalities_01 ex_pool_rows 3 minimize (fun v _ => original_cost ex_fops (p_objective ex_pool_pb) 3 v) w).
  { apply (ex_workers_start ex_cross_op S_equalities_01 (p_objective ex_pool_pb) ex_pool_rows 3 [tt] [w]); [cbn [ex_workers]; rewrite Ew; reflexivity|left; reflexivity]. }
  exists p0, w, [false; false; true]. split; [exact ex_sort_permutes|]. split; [apply ex_pool_pb_ok|]. split; [reflexivity|].
  split; [intros x [<-|[<-|[<-|[]]]]; reflexivity|]. split; [eexists; exact Hw|]. split; [apply steps_refl; exact I|]. split; [reflexivity|]. split; [|reflexivity].
  vm_compute in Ep. injection Ep as <-. vm_compute in Ew. injection Ew as <-.
  refine (reinit_cross ex_fops ex_cross_op _ _ _ _ [true; false; true] [Some false; Some true; None] _ _ _ _); [reflexivity| |reflexivity].
  eapply do_cross_ok with (op := ex_cross_op) (c := X_two 0 2 [false; false; true]). reflexivity.
Qed.

(** Two variables, the second one mutated to 1: it becomes, or stays, 0. Whatever is drawn, a thread that goes on from its own
    assignment never sets a variable whose index is not a multiple of 64. *)
Theorem C126_refuted :
  (exists draws x, ~ mutated draws x (mutation_from 0 draws x)) /\
  forall (F : Type) (fo : fops F) op p a x p' a' kappa x' i, reinit fo op p a x p' a' kappa x' -> fl_lt fo a (op_stop op) = true ->
    Nat.modulo i 64 <> 0%nat -> nth_error x i = Some false -> nth_error x' i = Some false.
Proof.
  split; [exists [None; Some true], [false; false]; intros [_ H]; specialize (H 1%nat false eq_refl); discriminate H|].
  intros F fo op p a x p' a' kappa x' i H Ha Hi Hx. destruct H as [p a x draws x' _ Hx' a'|]; [|congruence].
  subst x'. destruct (op_mutation op); [|exact Hx]. rewrite (proj2 (mutation_in_place draws x) i false Hx).
  destruct (drawn draws i); [|reflexivity]. destruct (Nat.eqb_spec (Nat.modulo i 64) 0); [contradiction|reflexivity].
Qed.
Print Assumptions C126_refuted.
