(** Property theorems C90-C93: optimize(). *)
From Coq Require Import String QArith Qround Lqa.
From Verif Require Import Base Problem_model Problem_spec Merged_model Merged_spec Merged_proofs Classify_model Preprocess_model
  Preprocess_spec Preprocess_proofs4 Preprocess_props Validate_model Params_model Rows_model Rows_spec Rows_proofs Rows_props
  Solver_model Solver_spec Solver_props Pool_model Pool_spec Pool_proofs Pool_proofs2 Pool_proofs3 Pool_props
  EndToEnd_model EndToEnd_spec EndToEnd_proofs EndToEnd_props Tuning_model Optimize_model Optimize_spec Optimize_proofs.
Open Scope Z_scope.

(** ** C90. optimize() with preprocessing *)
(** When optimize() reports success: its solutions and the fixed variables give one value to each variable of the user's
    problem; for each solution the value reported is the user's objective there if the objective is linear; the first solution satisfies
    every constraint of the user's problem, and the bounds if they are those of 0/1 variables. For every number of threads and every interleaving,
    any tuning mode, storage, solver, float arithmetic and order, with or without the nlopt library. Missing: what C90_refuted shows false (two threads that replace the
    same entry of the pool at once, and the insertion of given assignments in the pool by the crossover); quadratic objectives (C11) and other bounds (C53). *)
Theorem C90_optimize_answers_the_users_problem_partial :
  forall (F G D : Type) (fo : fops F) (ro : rops G) std_sort ddiv hash hardware, permutes std_sort ->
  forall (Q : sys F G -> Prop) (lib : option (library D)) c pb r,
  oc_pp c = pp_all -> op_insertion (oc_op c) = false -> threads_apart hardware c Q ->
  Preprocess_spec.well_formed pb -> (exists x0, solution x0 pb) -> (forall X, fits_int X pb) ->
  user_optimize fo ro std_sort ddiv hash hardware Q lib c pb (Ok r) -> sr_status r = st_success ->
  names_all r pb /\
  (forall x v, In (x, v) (sr_solutions r) -> (exists X, reports r x X pb) /\
     forall X, reports r x X pb -> linear_objective pb -> v = Some (objective_value X (p_objective pb))) /\
  exists x v l, sr_solutions r = (x, v) :: l /\ forall X, reports r x X pb -> feasible X pb /\ (binary_bounds pb -> in_bounds X pb).
Proof.
  intros F G D fo ro std_sort ddiv hash hardware Hperm Q lib c pb r Hpp Hins Hth Hwf Hx0 Hfit H Hs.
  destruct (user_optimize_answers fo ro std_sort ddiv hash hardware Hperm Q lib c pb r (conj Hins Hth) Hpp Hwf Hx0 Hfit H Hs) as (H1 & H2 & H3).
  split; [exact H1|]. split; [|exact H3]. intros x v Hin. exact (proj2 (H2 x v Hin)).
Qed.
Print Assumptions C90_optimize_answers_the_users_problem_partial.

(** ** C48, the random solver on inequalities *)
(** solve() with the random solver, when the preprocessed problem has inequalities, runs the optimizer: the same holds, under the same
    conditions. Missing: as C90. *)
Theorem C48_random_solver_on_inequalities_partial :
  forall (F G : Type) (fo : fops F) (ro : rops G) std_sort ddiv hash hardware, permutes std_sort ->
  forall (Q : sys F G -> Prop) c random_optimizer raw_costs norm_costs pfuel fuel buffered po pa after (g : G) pb q r,
  op_insertion (oc_op c) = false -> threads_apart hardware c Q ->
  (forall q r, random_optimizer q = Finished (Ok r) -> optimize_problem fo ro std_sort ddiv hash hardware Q c S_random q (Ok r)) ->
  Preprocess_spec.well_formed pb -> (exists x0, solution x0 pb) -> (forall X, fits_int X pb) ->
  preprocess pfuel pb = Ok (Some q) -> p_problem_type q = inequalities_01 \/ p_problem_type q = inequalities_101 ->
  user_solve fo ro std_sort ddiv random_optimizer raw_costs norm_costs pfuel fuel pp_all true buffered po pa after g pb = Finished (Ok r) ->
  sr_status r = st_success ->
  names_all r pb /\
  (forall x v, In (x, v) (sr_solutions r) -> (exists X, reports r x X pb) /\
     forall X, reports r x X pb -> linear_objective pb -> v = Some (objective_value X (p_objective pb))) /\
  exists x v l, sr_solutions r = (x, v) :: l /\ forall X, reports r x X pb -> feasible X pb /\ (binary_bounds pb -> in_bounds X pb).
Proof.
  intros F G fo ro std_sort ddiv hash hardware Hperm Q c rs rc nc pfuel fuel buf po pa after g pb q r Hins Hth Hro Hwf Hx0 Hfit Hq Hty H Hs.
  destruct (random_solve_answers fo ro std_sort ddiv hash hardware Hperm Q rs rc nc pfuel fuel buf po pa after g c pb q r (conj Hins Hth) Hro Hwf Hx0 Hfit Hq Hty H Hs) as (H1 & H2 & H3).
  split; [exact H1|]. split; [|exact H3]. intros x v Hin. exact (proj2 (H2 x v Hin)).
Qed.
Print Assumptions C48_random_solver_on_inequalities_partial.

(** ** C93. optimize() without preprocessing, one thread *)
(** Without preprocessing, with one thread and without insertion: every value reported is the objective at its
    solution, quadratic terms included, and on success the first solution satisfies every constraint. *)
Theorem C93_one_thread_without_preprocessing :
  forall (F G D : Type) (fo : fops F) (ro : rops G) std_sort ddiv hash hardware, permutes std_sort ->
  forall (lib : option (library D)) c pb r,
  oc_pp c = pp_none -> op_insertion (oc_op c) = false -> oc_thread c = 1 ->
  well_formed_rows pb -> all_constraints pb <> [] -> v_values (p_vars pb) <> [] -> (forall X, fits_int X pb) ->
  user_optimize fo ro std_sort ddiv hash hardware any lib c pb (Ok r) -> sr_status r = st_success ->
  sr_names r = v_names (p_vars pb) /\ sr_affected r = mk_affected [] [] /\
  (forall x v, In (x, v) (sr_solutions r) -> List.length x = List.length (v_values (p_vars pb)) /\ v = Some (objective_value (as_assignment x) (p_objective pb))) /\
  exists x v l, sr_solutions r = (x, v) :: l /\ feasible (as_assignment x) pb.
Proof.
  intros F G D fo ro std_sort ddiv hash hardware Hperm lib c pb r Hpp Hins Hth Hwf Hne Hv Hfit H Hs.
  refine (plain_optimize_answers fo ro std_sort ddiv hash hardware Hperm any lib c pb r (conj Hins (or_introl _)) Hpp Hwf Hne Hv Hfit H Hs).
  unfold get_thread_number. rewrite Hth. reflexivity.
Qed.
Print Assumptions C93_one_thread_without_preprocessing.

(** *** Concrete runs *)
(** A run for a given schedule of actions. *)
Definition ex_sim (c : octx Z) (cl : solver_class) (q : problem) (gs : list unit)
  (sched : list (nat * action)) : option sresult :=
  let n := List.length (v_values (p_vars q)) in
  match make_merged insertion_sort Z.div (oc_po c) q with
  | Ok cs =>
    if negb (is_nil cs || is_nil (v_values (p_vars q))) && (0 <=? oc_population c)
    then
      do (p0, _) <- make_storage ex_fops ex_rops insertion_sort ex_hash minimize (p_objective q) cs (Z.to_nat (oc_population c)) n tt;
      do ws <- ex_workers (oc_op c) cl (p_objective q) cs n gs;
      if Nat.eqb (List.length ws) (get_thread_number 1 (oc_thread c)) then
        do s <- exec ex_fops ex_rops insertion_sort ex_hash minimize (p_objective q) (oc_op c) sched (mk_sys p0 ws);
        if forallb (fun w => match wk_pc w with W_done => true | _ => false end) (sy_workers s) then
          do r <- final_result (op_storage (oc_op c)) n (List.length cs) (sy_pool s);
          Some (mk_sresult (or_status r) (map (fun y => (fst y, Some (snd y))) (or_solutions r)) (or_remaining r)
             (v_names (p_vars q)) (p_affected q) (or_variables r) (or_constraints r))
        else None
      else None
    else None
  | _ => None
  end.
Lemma ex_sim_ok c cl q gs sched r : p_type q = minimize -> ex_sim c cl q gs sched = Some r ->
  optimize_problem ex_fops ex_rops insertion_sort Z.div ex_hash 1 any c cl q (Ok r).
Proof.
  intros Ht. unfold ex_sim. destruct (make_merged _ _ _ _) as [cs| |] eqn:Em; try discriminate.
  destruct (is_nil cs || is_nil (v_values (p_vars q))) eqn:En; cbn [negb andb]; [discriminate|].
  destruct (Z.leb_spec 0 (oc_population c)) as [Epop|]; [|discriminate].
  destruct (make_storage _ _ _ _ _ _ _ _ _ _) as [[p0 g']|] eqn:Ep; cbn [bind]; [|discriminate].
  destruct (ex_workers _ _ _ _ _ _) as [ws|] eqn:Ew; cbn [bind]; [|discriminate].
  destruct (Nat.eqb_spec (List.length ws) (get_thread_number 1 (oc_thread c))) as [Et|]; [|discriminate].
  destruct (exec _ _ _ _ _ _ _ _ _) as [s|] eqn:Es; cbn [bind]; [|discriminate].
  destruct (forallb _ (sy_workers s)) eqn:Ed; [|discriminate]. rewrite forallb_forall in Ed.
  destruct (final_result _ _ _ _) as [r0|] eqn:Er; cbn [bind]; [|discriminate]. intros H. injection H as <-.
  eapply op_run; try eassumption.
  - apply Z2Nat.id. exact Epop.
  - rewrite Ht. exact Ep.
  - rewrite Ht. intros w Hw. eexists. eapply ex_workers_start; eassumption.
  - rewrite Ht. eapply exec_ok; [intros ?; exact I|exact Es|]. constructor. exact I.
  - intros w Hw. specialize (Ed w Hw). destruct (wk_pc w); try discriminate. reflexivity.
Qed.

(** min x + 2y + 3z + 4w + 7 with x + y + z = 1 and w >= 1: w is fixed. One thread, one round, the five best solutions asked for. *)
Definition ex_opt_pb : problem :=
  mk_problem (mk_objective [mk_oelem 1 0; mk_oelem 2 1; mk_oelem 3 2; mk_oelem 4 3] [] 7)
    [mk_constraint (str "a") [mk_felem 1 0; mk_felem 1 1; mk_felem 1 2] 1 0] [mk_constraint (str "b") [mk_felem 1 3] 1 1] []
    (mk_variables [str "x"; str "y"; str "z"; str "w"] (repeat (mk_variable_value 0 1 vt_binary) 4)) (mk_affected [] []) minimize equalities_01.
Definition ex_octx (mode : Z) (pp : preprocessor_opt) (insertion : bool) (st : storage_type) : octx Z :=
  mk_octx mode pp false false po_none (ex_oparams insertion st) 1 5.
Example C90_hyps : exists r, user_optimize ex_fops ex_rops insertion_sort Z.div ex_hash 1 any (None : option (library Z)) (ex_octx 0 pp_all false sto_five) ex_opt_pb (Ok r) /\
  sr_status r = st_success /\ nth_error (sr_solutions r) 0 = Some ([true; false; false], Some 12) /\ sr_names r = [str "x"; str "y"; str "z"] /\
  a_names (sr_affected r) = [str "w"] /\ Preprocess_spec.well_formed ex_opt_pb /\ (exists x0, solution x0 ex_opt_pb) /\ linear_objective ex_opt_pb /\
  (forall X, fits_int X ex_opt_pb) /\ threads_apart 1 (ex_octx 0 pp_all false sto_five) (@any Z unit).
Proof.
  destruct (preprocess 10 ex_opt_pb) as [[q|]| |] eqn:Eq; [|vm_compute in Eq; discriminate..].
  destruct (ex_sim (ex_octx 0 pp_all false sto_five) S_equalities_01 q [tt] (ex_solo_round ++ ex_solo_rest)) as [r|] eqn:Er;
    [|vm_compute in Eq; injection Eq as <-; vm_compute in Er; discriminate].
  exists r. split.
  { eapply uo_preprocessed with (pfuel := 10%nat) (q := q); [reflexivity|exact Eq|]. change (itm_optimize ex_fops ex_rops insertion_sort Z.div ex_hash 1 any (ex_octx 0 pp_all false sto_five) q (Ok r)).
    apply io_bastert; [reflexivity|]. replace (if oc_buffered (ex_octx 0 pp_all false sto_five) then S_equalities_01 else dispatch (p_problem_type q)) with S_equalities_01.
    - eapply ex_sim_ok; [|exact Er]. vm_compute in Eq. injection Eq as <-. reflexivity.
    - vm_compute in Eq. injection Eq as <-. reflexivity. }
  vm_compute in Eq. injection Eq as <-. vm_compute in Er. injection Er as <-.
  split; [reflexivity|]. split; [reflexivity|]. split; [reflexivity|]. split; [reflexivity|].
  split; [apply wf_check_ok; vm_compute; reflexivity|]. split; [|split; [reflexivity|split; [|left; reflexivity]]].
  - exists (fun i => Nat.eqb i 1 || Nat.eqb i 3). split.
    + repeat split; intros c Hc; repeat (destruct Hc as [<-|Hc]; [vm_compute; congruence|]); destruct Hc.
    + intros i v Hv. do 4 (destruct i as [|i]; [cbn in Hv; injection Hv as <-; vm_compute; split; discriminate|]). destruct i; discriminate.
  - intros X c Hc. repeat (destruct Hc as [<-|Hc]; [cbn; destruct (X 0%nat), (X 1%nat), (X 2%nat), (X 3%nat); vm_compute; split; discriminate|]). destruct Hc.
Qed.
(** min x + 2y + 3z + 4w + 7 with x + y + z <= 2, x + y >= 1 and w >= 1; the random solver. *)
Definition ex_ineq_pb : problem :=
  mk_problem (p_objective ex_opt_pb) []
    [mk_constraint (str "b") [mk_felem 1 3] 1 1; mk_constraint (str "c") [mk_felem 1 0; mk_felem 1 1] 1 2]
    [mk_constraint (str "a") [mk_felem 1 0; mk_felem 1 1; mk_felem 1 2] 2 0] (p_vars ex_opt_pb) (mk_affected [] []) minimize equalities_01.
Definition ex_ineq_opt (q : problem) : run_result (outcome sresult) :=
  match p_type q, ex_sim (ex_octx 0 pp_all false sto_one) S_random q [tt] (ex_solo_round ++ ex_solo_rest) with
  | minimize, Some r => Finished (Ok r)
  | _, _ => Aborted
  end.
Example C48_random_hyps : exists q r, preprocess 10 ex_ineq_pb = Ok (Some q) /\ p_problem_type q = inequalities_01 /\
  user_solve ex_fops ex_rops insertion_sort Z.div ex_ineq_opt (fun _ => ex_c0 [1; 2; 3]) (fun _ => ex_cost [1; 2; 3]) 10 20 pp_all true false po_none
    (ex_params 10 0 100 co_none) [] tt ex_ineq_pb = Finished (Ok r) /\ sr_status r = st_success /\
  (forall q r, ex_ineq_opt q = Finished (Ok r) ->
     optimize_problem ex_fops ex_rops insertion_sort Z.div ex_hash 1 any (ex_octx 0 pp_all false sto_one) S_random q (Ok r)).
Proof.
  eexists _, _. split; [vm_compute; reflexivity|]. split; [reflexivity|]. split; [vm_compute; reflexivity|]. split; [reflexivity|].
  intros q r H. unfold ex_ineq_opt in H. destruct (p_type q) eqn:Et; try discriminate.
  all: match type of H with context [ex_sim ?a ?b ?c ?d ?e] => destruct (ex_sim a b c d e) as [r'|] eqn:Er end; try discriminate.
  all: injection H as <-; eapply ex_sim_ok; eassumption.
Qed.
Example C93_hyps : exists r, user_optimize ex_fops ex_rops insertion_sort Z.div ex_hash 1 any (None : option (library Z)) (ex_octx 3 pp_none false sto_bound) ex_pool_pb (Ok r) /\
  sr_status r = st_success /\ nth_error (sr_solutions r) 0 = Some ([true; false; false], Some 1) /\ well_formed_rows ex_pool_pb.
Proof.
  destruct (ex_sim (with_params (ex_octx 3 pp_none false sto_bound) (ex_params 5 0 100 co_none)) S_equalities_01 (unpreprocess ex_pool_pb) [tt] (ex_solo_round ++ ex_solo_rest)) as [r|] eqn:Er;
    [|vm_compute in Er; discriminate].
  exists r. split.
  { apply uo_unpreprocessed; [reflexivity|].
    change (nlopt ex_fops ex_rops insertion_sort Z.div ex_hash 1 any (None : option (library Z)) (ex_octx 3 pp_none false sto_bound) (unpreprocess ex_pool_pb) (Ok r)).
    apply nl_none; [reflexivity|]. apply ma_run with (p := ex_params 5 0 100 co_none); [repeat split|]. apply io_bastert; [reflexivity|]. eapply ex_sim_ok; [reflexivity|exact Er]. }
  vm_compute in Er. injection Er as <-. split; [reflexivity|]. split; [reflexivity|].
  split; [reflexivity|]. split; [|split].
  - cbn. repeat constructor; cbn; intuition discriminate.
  - exact (proj1 (proj2 (proj1 ex_pool_pb_ok))).
  - exact (proj1 (proj2 ex_pool_pb_ok)).
Qed.

(** With the insertion of the crossover, one thread and no preprocessing: success is reported for an assignment
    that violates the constraint, with a value that is not its own. *)
Theorem C90_refuted :
  exists (F G D : Type) (fo : fops F) (ro : rops G) std_sort ddiv hash hardware (lib : option (library D)) c pb r x v,
  permutes std_sort /\ shuffles ro /\ oc_thread c = 1 /\ Preprocess_spec.well_formed pb /\ (forall X, fits_int X pb) /\ linear_objective pb /\
  user_optimize fo ro std_sort ddiv hash hardware (@any F G) lib c pb (Ok r) /\ sr_status r = st_success /\
  sr_names r = v_names (p_vars pb) /\ sr_solutions r = [(x, Some v)] /\
  ~ feasible (as_assignment x) pb /\ v <> objective_value (as_assignment x) (p_objective pb).
Proof.
  destruct (ex_sim (ex_octx 0 pp_none true sto_one) S_equalities_01 (unpreprocess ex_pool_pb) [tt] ex_overwrite) as [r|] eqn:Er;
    [|vm_compute in Er; discriminate].
  exists Z, unit, Z, ex_fops, ex_rops, insertion_sort, Z.div, ex_hash, 1%nat, None, (ex_octx 0 pp_none true sto_one), ex_pool_pb, r, [false; false; false], 1.
  split; [exact ex_sort_permutes|]. split; [exact ex_shuffles|]. split; [reflexivity|]. split; [apply wf_check_ok; vm_compute; reflexivity|].
  split; [exact (proj2 (proj2 (proj2 (proj2 ex_pool_pb_ok))))|]. split; [reflexivity|]. split.
  { apply uo_unpreprocessed; [reflexivity|]. change (itm_optimize ex_fops ex_rops insertion_sort Z.div ex_hash 1 any (ex_octx 0 pp_none true sto_one) (unpreprocess ex_pool_pb) (Ok r)).
    apply io_bastert; [reflexivity|]. eapply ex_sim_ok; [reflexivity|exact Er]. }
  vm_compute in Er. injection Er as <-. split; [reflexivity|]. split; [reflexivity|]. split; [reflexivity|]. split.
  - intros [Hf _]. specialize (Hf _ (or_introl eq_refl)). vm_compute in Hf. discriminate.
  - vm_compute. discriminate.
Qed.
Print Assumptions C90_refuted.

(** ** C91. The time limit *)
(** optimize() waits until the time elapsed exceeds a finite limit greater than 0, and decides at the first
    reading of the clock that shows it; with a limit that is 0, negative, infinite or not a number, it never ends. As each turn
    sleeps at least one second, a limit of q seconds ends after at most floor(q) + 1 turns. *)
Theorem C91_time_limit :
  forall (limit : dbl) (elapsed : nat -> Q),
  (forall fuel t, main_loop fuel 0 limit elapsed = Some t ->
     exists q, limit = Fin q /\ (0 < q)%Q /\ (0 < t)%nat /\ (q < elapsed (t - 1)%nat)%Q /\ forall i, (i < t - 1)%nat -> (elapsed i <= q)%Q) /\
  (dlt (Fin 0%Q) limit = false \/ limit = PosInf -> forall fuel, main_loop fuel 0 limit elapsed = None) /\
  (forall q, limit = Fin q -> (0 < q)%Q -> (forall k, inject_Z (Z.of_nat (S k)) <= elapsed k)%Q ->
     exists t, (Z.of_nat t <= Qfloor q + 1)%Z /\ forall fuel, (t <= fuel)%nat -> exists t', (t' <= t)%nat /\ main_loop fuel 0 limit elapsed = Some t').
Proof.
  intros limit elapsed. split; [|split].
  - intros fuel t H. destruct (main_loop_some _ _ _ _ _ H) as (H1 & H2 & H3). apply is_time_limit_iff in H2. destruct H2 as (q & -> & Hq & He).
    exists q. split; [reflexivity|]. split; [assumption|]. split; [assumption|]. split; [assumption|]. intros i Hi.
    apply Qnot_lt_le. intros Hlt. assert (is_time_limit (Fin q) (elapsed i) = true) by (apply is_time_limit_iff; eauto). rewrite H3 in H0; [discriminate|lia].
  - intros Hl fuel. destruct (main_loop fuel 0 limit elapsed) as [t|] eqn:E; [|reflexivity]. exfalso.
    destruct (main_loop_some _ _ _ _ _ E) as (_ & H2 & _). apply is_time_limit_iff in H2. destruct H2 as (q & -> & Hq & He).
    destruct Hl as [Hl|Hl]; [|discriminate]. cbn in Hl. apply negb_false_iff in Hl. apply Qle_bool_iff in Hl. lra.
  - intros q -> Hq Hk. pose proof (Qlt_floor q) as Hfl. pose proof (Qfloor_resp_le 0 q (Qlt_le_weak _ _ Hq)) as Hf0. change (Qfloor 0) with 0 in Hf0.
    exists (S (Z.to_nat (Qfloor q))). split; [lia|]. intros fuel Hfuel.
    assert (Ht : is_time_limit (Fin q) (elapsed (Z.to_nat (Qfloor q))) = true).
    { apply is_time_limit_iff. exists q. split; [reflexivity|]. split; [assumption|]. eapply Qlt_le_trans; [exact Hfl|]. eapply Qle_trans; [|apply Hk].
      rewrite <- Zle_Qle. lia. }
    destruct (main_loop fuel 0 (Fin q) elapsed) as [t|] eqn:E.
    + exists t. split; [|reflexivity]. destruct (main_loop_some _ _ _ _ _ E) as (H1 & H2 & H3). destruct (Nat.le_gt_cases t (S (Z.to_nat (Qfloor q)))) as [?|Hgt]; [assumption|].
      rewrite H3 in Ht; [discriminate|lia].
    + rewrite (main_loop_none _ _ _ _ E) in Ht; [discriminate|lia].
Qed.
Print Assumptions C91_time_limit.
Example C91_run : main_loop 10 0 (Fin (5#2)%Q) (fun k => inject_Z (Z.of_nat (S k))) = Some 3%nat /\
  main_loop 1000 0 (Fin 0%Q) (fun k => inject_Z (Z.of_nat (S k))) = None.
Proof. split; vm_compute; reflexivity. Qed.

(** ** C92. nlopt *)
(** Built without nlopt, or with a library that fails before its first evaluation, the answer is that
    of manual_optimize. Missing: C92_refuted. *)
Theorem C92_nlopt_is_manual_partial :
  forall (F G D : Type) (fo : fops F) (ro : rops G) std_sort ddiv hash hardware Q (lib : option (library D)) c pb r,
  (forall l, lib = Some l -> five_numbers l) ->
  nlopt fo ro std_sort ddiv hash hardware Q lib c pb r -> manual fo ro std_sort ddiv hash hardware Q c pb r.
Proof.
  intros F G D fo ro std_sort ddiv hash hardware Q lib c pb r Hl H. destruct H as [r _ H|l value r _ _ H|l value p r Hlib Hf _ _]; try assumption.
  apply nlopt_five in Hf; [destruct Hf; discriminate|apply Hl; assumption].
Qed.
Print Assumptions C92_nlopt_is_manual_partial.
(** With the library: whatever it does, as soon as it evaluates the function once or ends well, x[5] is read in a vector of five
    numbers. No result is ever returned. *)
Theorem C92_refuted :
  forall (F G D : Type) (fo : fops F) (ro : rops G) std_sort ddiv hash hardware Q (l : library D) c pb r,
  five_numbers l -> does_something l ->
  ~ nlopt fo ro std_sort ddiv hash hardware Q (Some l) c pb r.
Proof.
  intros F G D fo ro std_sort ddiv hash hardware Q l c pb r Hl Hd H.
  remember (Some l) as lib eqn:El. destruct H as [r E _|l' value r E Hf _|l' value p r E Hf _ _]; [congruence| |];
    assert (l' = l) by congruence; subst l'; destruct (nlopt_five _ _ _ Hl Hf) as [_ Hn]; exact (Hn Hd).
Qed.
Print Assumptions C92_refuted.
Example C92_library : five_numbers (L_ask [1; 2; 3; 4; 5] (fun d => L_return 1 [d; 2; 3; 4; 5])) /\ does_something (L_ask [1; 2; 3; 4; 5] (fun d => L_return 1 [d; 2; 3; 4; 5])) /\
  five_numbers (L_return (-1) [1; 2; 3; 4; 5]) /\ nlopt_search (fun _ => 0) (L_return (-1) [1; 2; 3; 4; 5]) = Some false /\
  nlopt_search (fun _ => 0) (L_ask [1; 2; 3; 4; 5; 6] (fun d => L_return 1 [d; 2; 3; 4; 5; 6])) = Some true.
Proof. repeat split. Qed.
