(** Property theorems C118-C120: the functions called by solve() and optimize(). *)
From Coq Require Import String QArith Permutation.
From Verif Require Import Base Problem_model Problem_spec Merged_model Merged_spec Merged_proofs Classify_model Preprocess_model
  Preprocess_spec Validate_model Params_model Rows_model Rows_spec Rows_proofs Rows_props
  Solver_model Solver_spec Solver_props Pool_model Pool_spec Pool_proofs Pool_proofs2 Pool_proofs3 Pool_props Writer_model
  EndToEnd_model EndToEnd_props Tuning_model Optimize_model Optimize_spec Optimize_proofs Optimize_props Callback_model Callback_spec Callback_proofs.
Open Scope Z_scope.

(** ** C118. When the functions are called *)
(** solve() and optimize() compute what they compute without the functions, and if they return a result for a problem that, once prepared, has constraints and variables:
    the function of the start is called once and first, the function of the end is called once, last, and with the result that is returned; solve() calls nothing else, optimize()
    calls the function of the updates in between. If an exception leaves solve() or optimize(), the function of the end is not called. For solve() the solver is not the random one; for optimize()
    the random solver is not used on problems with other coefficients than -1, 0, 1. Missing: C118_refuted. *)
Theorem C118_calls_partial :
  forall (F G : Type) (fo : fops F) (ro : rops G) std_sort ddiv (reg : registered),
  (forall random_optimizer raw_costs norm_costs pfuel fuel pp buffered po pa after g pb calls r,
    user_solve_calls reg fo ro std_sort ddiv random_optimizer raw_costs norm_costs pfuel fuel pp false buffered po pa after g pb = Finished (calls, r) ->
    (forall other, user_solve fo ro std_sort ddiv other raw_costs norm_costs pfuel fuel pp false buffered po pa after g pb = Finished r) /\
    match r with
    | Ok x => calls = (if reg_start reg then [C_start] else []) ++ (if reg_finish reg then [C_finish x] else [])
    | _ => Forall (fun c => c = C_start) calls
    end) /\
  (forall hash hardware (Q : sys F G -> Prop) c pb calls r,
    user_optimize_calls reg fo ro std_sort ddiv hash hardware Q false c pb calls r -> oc_mode c = 0 ->
    user_optimize fo ro std_sort ddiv hash hardware Q (None : option (library Z)) c pb r /\
    match r with
    | Ok x => (forall q, (oc_pp c = pp_all /\ (exists pfuel, preprocess pfuel pb = Ok (Some q)) \/ oc_pp c = pp_none /\ q = unpreprocess pb) ->
                 v_values (p_vars q) <> [] /\ make_merged std_sort ddiv (oc_po c) q <> Ok [] /\
                 (oc_random c = true -> p_problem_type q <> equalities_Z /\ p_problem_type q <> inequalities_Z)) -> called reg calls x
    | Throw => Forall (fun c => c = C_start) calls
    | Crash => True
    end).
Proof.
  intros F G fo ro std_sort ddiv reg. split.
  - intros random_optimizer raw_costs norm_costs pfuel fuel pp buffered po pa after g pb calls r H.
    assert (S : forall run, solver_calls reg run = Finished (calls, r) -> run = Finished r /\
      match r with Ok x => calls = (if reg_start reg then [C_start] else []) ++ (if reg_finish reg then [C_finish x] else []) | _ => Forall (fun c => c = C_start) calls end).
    { intros run E. unfold solver_calls, on in E. destruct run as [[x| |]| |]; try discriminate; injection E as <- <-; (split; [reflexivity|]); try reflexivity; destruct (reg_start reg); repeat constructor. }
    unfold user_solve_calls, itm_solve_calls in H. unfold user_solve, itm_solve. cbn [negb] in *. destruct pp.
    + apply S in H. destruct H as [H1 H2]. split; [intros _; exact H1|exact H2].
    + destruct (preprocess pfuel pb) as [[q|]| |]; try discriminate.
      * apply S in H. destruct H as [H1 H2]. split; [intros _; exact H1|exact H2].
      * injection H as <- <-. split; [reflexivity|constructor].
  - intros hash hardware Q c pb calls r H Hm.
    assert (M : forall q r, itm_optimize fo ro std_sort ddiv hash hardware Q c q r -> optimize_prepared fo ro std_sort ddiv hash hardware Q (None : option (library Z)) c q r).
    { intros q r0 X. unfold optimize_prepared. rewrite Hm. exact X. }
    destruct H as [pfuel q calls r Hp Hq H|pfuel Hp Hq|calls r Hp H].
    + split; [eapply uo_preprocessed; try eassumption; apply M; eapply ioc_erase; exact H|]. destruct r as [x| |]; [|eapply ioc_throw; exact H|exact I].
      intros K. destruct (K q) as (K1 & K2 & K3); [left; eauto|]. eapply ioc_called; [exact H|split; assumption|exact K3].
    + split; [eapply uo_throw; eassumption|constructor].
    + split; [eapply uo_unpreprocessed; try eassumption; apply M; eapply ioc_erase; exact H|]. destruct r as [x| |]; [|eapply ioc_throw; exact H|exact I].
      intros K. destruct (K (unpreprocess pb)) as (K1 & K2 & K3); [right; auto|]. eapply ioc_called; [exact H|split; assumption|exact K3].
Qed.
Print Assumptions C118_calls_partial.
(** solve() with the random solver: a problem of class Z is refused with an internal error and no call at all, an equality problem is announced like the others,
    an inequality problem goes to the optimizer. *)
Theorem C118_random_solver_partial :
  forall (F G : Type) (fo : fops F) (ro : rops G) std_sort ddiv (reg : registered) random_optimizer raw_costs norm_costs pfuel fuel pp buffered po pa after g pb q,
  (pp = pp_all /\ preprocess pfuel pb = Ok (Some q)) \/ (pp = pp_none /\ q = unpreprocess pb) ->
  let run := user_solve_calls reg fo ro std_sort ddiv random_optimizer raw_costs norm_costs pfuel fuel pp true buffered po pa after g pb in
  match p_problem_type q with
  | equalities_Z | inequalities_Z => exists r, run = Finished ([], Ok r) /\ sr_status r = st_internal_error /\ sr_solutions r = []
  | inequalities_01 | inequalities_101 => run = random_optimizer q
  | equalities_01 | equalities_101 => forall calls r, run = Finished (calls, r) ->
      (forall other, user_solve fo ro std_sort ddiv other raw_costs norm_costs pfuel fuel pp true buffered po pa after g pb = Finished r) /\
      match r with
      | Ok x => calls = (if reg_start reg then [C_start] else []) ++ (if reg_finish reg then [C_finish x] else [])
      | _ => Forall (fun c => c = C_start) calls
      end
  end.
Proof.
  intros F G fo ro std_sort ddiv reg random_optimizer raw_costs norm_costs pfuel fuel pp buffered po pa after g pb q Hq. cbv zeta.
  assert (E : user_solve_calls reg fo ro std_sort ddiv random_optimizer raw_costs norm_costs pfuel fuel pp true buffered po pa after g pb =
    itm_solve_calls reg fo ro std_sort ddiv random_optimizer raw_costs norm_costs fuel true buffered po pa after g q).
  { unfold user_solve_calls. destruct Hq as [[-> ->]|[-> ->]]; reflexivity. }
  assert (E' : forall other, user_solve fo ro std_sort ddiv other raw_costs norm_costs pfuel fuel pp true buffered po pa after g pb =
    itm_solve fo ro std_sort ddiv other raw_costs norm_costs fuel true buffered po pa after g q).
  { intros other. unfold user_solve. destruct Hq as [[-> ->]|[-> ->]]; reflexivity. }
  rewrite E. clear E Hq. unfold itm_solve_calls. cbn [negb].
  destruct (p_problem_type q) eqn:T; try reflexivity; try (eexists; split; [reflexivity|split; reflexivity]).
  all: intros calls r H; assert (R : solve_problem fo ro std_sort fuel ddiv po S_random q (raw_costs q) (norm_costs q) pa after g = Finished r /\
      match r with Ok x => calls = (if reg_start reg then [C_start] else []) ++ (if reg_finish reg then [C_finish x] else []) | _ => Forall (fun c => c = C_start) calls end)
    by (unfold solver_calls, on in H; destruct (solve_problem _ _ _ _ _ _ _ _ _ _ _ _ _) as [[x| |]| |]; try discriminate; injection H as <- <-; (split; [reflexivity|]); try reflexivity; destruct (reg_start reg); repeat constructor);
    destruct R as [R1 R2]; (split; [intros other; rewrite E'; unfold itm_solve; cbn [negb]; rewrite T; exact R1|exact R2]).
Qed.
Print Assumptions C118_random_solver_partial.

(** *** Concrete runs *)
Definition all_registered : registered := mk_registered true true true.
Definition ex_call (p : pool) : option call := do e <- get_best p 0; Some (C_update (e_remaining e) (e_value e) (e_loop e)).
(** A run with an update before the first actions, an update after them, and the last actions. *)
Definition ex_traced {G} (ro : rops G) (c : octx Z) (cl : solver_class) (q : problem) (g : G) (gs : list G) (first last : list (nat * action)) : option (list call * sresult) :=
  let n := List.length (v_values (p_vars q)) in
  match make_merged insertion_sort Z.div (oc_po c) q with
  | Ok cs =>
    if negb (is_nil cs || is_nil (v_values (p_vars q))) && (0 <=? oc_population c)
    then
      do (p0, _) <- make_storage ex_fops ro insertion_sort ex_hash minimize (p_objective q) cs (Z.to_nat (oc_population c)) n g;
      do ws <- ex_workers (oc_op c) cl (p_objective q) cs n gs;
      if Nat.eqb (List.length ws) (get_thread_number 1 (oc_thread c)) then
        do u0 <- ex_call p0;
        do s1 <- exec ex_fops ro insertion_sort ex_hash minimize (p_objective q) (oc_op c) first (mk_sys p0 ws);
        do u1 <- ex_call (sy_pool s1);
        do s <- exec ex_fops ro insertion_sort ex_hash minimize (p_objective q) (oc_op c) last s1;
        if forallb (fun w => match wk_pc w with W_done => true | _ => false end) (sy_workers s) then
          do r <- final_result (op_storage (oc_op c)) n (List.length cs) (sy_pool s);
          let result := mk_sresult (or_status r) (map (fun y => (fst y, Some (snd y))) (or_solutions r)) (or_remaining r)
             (v_names (p_vars q)) (p_affected q) (or_variables r) (or_constraints r) in
          Some ([C_start; u0; u1; C_finish result], result)
        else None
      else None
    else None
  | _ => None
  end.
Lemma ex_traced_ok {G} (ro : rops G) c cl q g gs first last calls r : p_type q = minimize -> ex_traced ro c cl q g gs first last = Some (calls, r) ->
  optimize_problem_calls all_registered ex_fops ro insertion_sort Z.div ex_hash 1 any c cl q calls (Ok r).
Proof.
  intros Ht. unfold ex_traced. destruct (make_merged _ _ _ _) as [cs| |] eqn:Em; try discriminate.
  destruct (is_nil cs || is_nil (v_values (p_vars q))) eqn:En; cbn [negb andb]; [discriminate|].
  destruct (Z.leb_spec 0 (oc_population c)) as [Epop|]; [|discriminate].
  destruct (make_storage _ _ _ _ _ _ _ _ _ _) as [[p0 g']|] eqn:Ep; cbn [bind]; [|discriminate].
  destruct (ex_workers _ _ _ _ _ _) as [ws|] eqn:Ew; cbn [bind]; [|discriminate].
  destruct (Nat.eqb_spec (List.length ws) (get_thread_number 1 (oc_thread c))) as [Et|]; [|discriminate].
  unfold ex_call. destruct (get_best p0 0) as [e0|] eqn:E0; cbn [bind]; [|discriminate].
  destruct (exec _ _ _ _ _ _ _ first _) as [s1|] eqn:Es1; cbn [bind]; [|discriminate].
  destruct (get_best (sy_pool s1) 0) as [e1|] eqn:E1; cbn [bind]; [|discriminate].
  destruct (exec _ _ _ _ _ _ _ last _) as [s|] eqn:Es; cbn [bind]; [|discriminate].
  destruct (forallb _ (sy_workers s)) eqn:Ed; [|discriminate]. rewrite forallb_forall in Ed.
  destruct (final_result _ _ _ _) as [r0|] eqn:Er; cbn [bind]; [|discriminate]. cbn zeta. intros H. injection H as <- <-.
  match goal with |- optimize_problem_calls _ _ _ _ _ _ _ _ _ _ _ ?l (Ok ?x) =>
    change l with (on (reg_start all_registered) C_start ++ [C_update (e_remaining e0) (e_value e0) (e_loop e0); C_update (e_remaining e1) (e_value e1) (e_loop e1)] ++
      on (reg_finish all_registered) (C_finish x)) end.
  eapply oc_run with (s := s) (p0 := p0) (ws := ws) (g := g) (g' := g') (size := Z.to_nat (oc_population c)); try eassumption.
  - apply Z2Nat.id. exact Epop.
  - rewrite Ht. exact Ep.
  - rewrite Ht. intros w Hw. eexists. eapply ex_workers_start; eassumption.
  - rewrite Ht. apply (up_call all_registered any _ _ (mk_sys p0 ws) e0 [C_update (e_remaining e1) (e_value e1) (e_loop e1)]); [constructor; exact I|exact E0|].
    apply (up_call all_registered any _ _ s1 e1 []); [|exact E1|].
    + eapply exec_ok; [intros ?; exact I|exact Es1|]. constructor. exact I.
    + constructor. eapply exec_ok; [intros ?; exact I|exact Es|]. constructor. exact I.
  - intros w Hw. specialize (Ed w Hw). destruct (wk_pc w); try discriminate. reflexivity.
Qed.
(** One thread: the first update reports the initial pool, the second the solution found. *)
Example C118_C119_hyps : exists u0 u1 r, let c := ex_octx 0 pp_none false sto_five in
  user_optimize_calls all_registered ex_fops ex_rops insertion_sort Z.div ex_hash 1 any false c ex_pool_pb [C_start; u0; u1; C_finish r] (Ok r) /\
  (exists v0 l0, u0 = C_update 1 v0 l0) /\ (exists l1, u1 = C_update 0 1 l1) /\ sr_status r = st_success /\ insert_in_turn 1 c (@any Z unit) /\ 5 <= oc_population c /\
  v_values (p_vars (unpreprocess ex_pool_pb)) <> [] /\ make_merged insertion_sort Z.div (oc_po c) (unpreprocess ex_pool_pb) <> Ok [].
Proof.
  destruct (ex_traced ex_rops (ex_octx 0 pp_none false sto_five) S_equalities_01 (unpreprocess ex_pool_pb) tt [tt] (ex_solo_round ++ firstn 9 ex_solo_rest) (skipn 9 ex_solo_rest)) as [[calls r]|] eqn:Er;
    [|vm_compute in Er; discriminate].
  assert (H := ex_traced_ok _ _ _ _ _ _ _ _ _ _ (eq_refl : p_type (unpreprocess ex_pool_pb) = minimize) Er).
  assert (E : exists u0 u1, calls = [C_start; u0; u1; C_finish r] /\ (exists v0 l0, u0 = C_update 1 v0 l0) /\ (exists l1, u1 = C_update 0 1 l1) /\ sr_status r = st_success).
  { clear H. vm_compute in Er. injection Er as <- <-. eexists _, _. split; [reflexivity|]. split; [eexists _, _; reflexivity|]. split; [eexists; reflexivity|reflexivity]. }
  destruct E as (u0 & u1 & -> & U0 & U1 & Us). exists u0, u1, r. cbn zeta. split.
  { apply uc_unpreprocessed; [reflexivity|]. cbn iota. apply ic_bastert; [reflexivity|]. exact H. }
  split; [exact U0|]. split; [exact U1|]. split; [exact Us|]. split; [left; reflexivity|]. split; [cbn; lia|]. split; [discriminate|vm_compute; discriminate].
Qed.
(** A problem without constraints. *)
Definition ex_free_pb : problem := mk_problem (p_objective ex_pool_pb) [] [] [] (p_vars ex_pool_pb) (mk_affected [] []) minimize equalities_01.
(** x = 1 and x = 0 *)
Definition ex_absurd_pb : problem :=
  mk_problem (mk_objective [] [] 0) [mk_constraint [] [mk_felem 1 0] 1 0; mk_constraint [] [mk_felem 1 0] 0 1] [] []
    (mk_variables [str "x"] [mk_variable_value 0 1 vt_binary]) (mk_affected [] []) minimize equalities_01.
Definition with_random (c : octx Z) : octx Z := mk_octx (oc_mode c) (oc_pp c) true (oc_buffered c) (oc_po c) (oc_op c) (oc_thread c) (oc_population c).
(** 2 x + y + z = 2 *)
Definition ex_Z_pb : problem :=
  mk_problem (p_objective ex_pool_pb) [mk_constraint (str "a") [mk_felem 2 0; mk_felem 1 1; mk_felem 1 2] 2 0] [] [] (p_vars ex_pool_pb) (mk_affected [] []) minimize equalities_01.
(** With the three functions: optimize() of a problem without constraints returns a solution and never calls the function of the end; solve() and optimize() call the function of the start, then an
    exception leaves them without a call of the function of the end; the random solver returns an error without any call; with the tuning of the parameters the function
    of the start is called 3126 times in each run that ends, and there are such runs. *)
Theorem C118_refuted :
  let c := ex_octx 0 pp_none false sto_one in
  let opt := user_optimize_calls all_registered ex_fops ex_rops insertion_sort Z.div ex_hash 1 (@any Z unit) in
  (exists r, opt false c ex_free_pb [C_start] (Ok r) /\ sr_status r = st_success /\ exists s, sr_solutions r = [s]) /\
  (opt false c ex_absurd_pb [C_start] Throw /\
   forall other raw_costs norm_costs fuel pa after, user_solve_calls all_registered ex_fops ex_rops insertion_sort Z.div other raw_costs norm_costs 0 fuel pp_none false false po_none pa after tt ex_absurd_pb
     = Finished ([C_start], Throw)) /\
  (exists r, opt false (with_random c) ex_Z_pb [] (Ok r) /\ sr_status r = st_internal_error) /\
  ((forall calls r, opt true c ex_pool_pb calls (Ok r) -> List.length (filter is_start calls) = 3126%nat) /\ exists calls r, opt true c ex_pool_pb calls (Ok r)).
Proof.
  cbn zeta. split; [|split; [split|split; [|split]]].
  - eexists. split; [|split].
    + apply uc_unpreprocessed; [reflexivity|]. cbn iota. apply ic_bastert; [reflexivity|].
      change [C_start] with (on (reg_start all_registered) C_start). eapply oc_empty; vm_compute; reflexivity.
    + reflexivity.
    + eexists. reflexivity.
  - apply uc_unpreprocessed; [reflexivity|]. cbn iota. apply ic_bastert; [reflexivity|].
    change [C_start] with (on (reg_start all_registered) C_start). apply oc_throw. vm_compute. reflexivity.
  - intros. unfold user_solve_calls, itm_solve_calls. cbn [negb]. unfold solve_problem.
    replace (make_merged insertion_sort Z.div po_none (unpreprocess ex_absurd_pb)) with (@Throw (list merged)) by (vm_compute; reflexivity). reflexivity.
  - exists (failed_result st_internal_error). split; [|reflexivity]. apply uc_unpreprocessed; [reflexivity|]. cbn iota. apply ic_random_Z; [reflexivity|]. left. vm_compute. reflexivity.
  - intros calls r H. remember (Ok r) as o eqn:Eo. destruct H as [pfuel q calls r0 Hp Hq H|pfuel Hp Hq|calls r0 Hp H]; try discriminate. subst r0.
    remember (Ok r) as o eqn:Eo. destruct H as [before p calls r0 Hr Hp' H|k before p calls Hk Hr Hp' H]; [|discriminate].
    assert (R : runs all_registered ex_fops ex_rops insertion_sort Z.div ex_hash 1 any (ex_octx 0 pp_none false sto_one) (unpreprocess ex_pool_pb) (S (5 * 5 * 5 * 5 * 5)) (before ++ calls)).
    { subst r0. eapply ru_next; eassumption. }
    apply runs_starts in R; [|reflexivity|intros X; discriminate]. rewrite R. reflexivity.
  - destruct (ex_traced ex_rops (with_params (ex_octx 0 pp_none false sto_one) (ex_params 5 0 100 co_none)) S_equalities_01 (unpreprocess ex_pool_pb) tt [tt] (ex_solo_round ++ firstn 9 ex_solo_rest) (skipn 9 ex_solo_rest))
      as [[calls r]|] eqn:Er; [|vm_compute in Er; discriminate].
    assert (H := ex_traced_ok _ _ _ _ _ _ _ _ _ _ (eq_refl : p_type (unpreprocess ex_pool_pb) = minimize) Er). clear Er.
    assert (I1 : itm_optimize_calls all_registered ex_fops ex_rops insertion_sort Z.div ex_hash 1 any (with_params (ex_octx 0 pp_none false sto_one) (ex_params 5 0 100 co_none)) (unpreprocess ex_pool_pb) calls (Ok r)).
    { apply ic_bastert; [reflexivity|]. exact H. }
    assert (Rt : retuned (op_s (oc_op (ex_octx 0 pp_none false sto_one))) (ex_params 5 0 100 co_none)) by (repeat split).
    assert (R : forall k, exists l, runs all_registered ex_fops ex_rops insertion_sort Z.div ex_hash 1 any (ex_octx 0 pp_none false sto_one) (unpreprocess ex_pool_pb) k l).
    { induction k as [|k [l IH]]; [exists []; constructor|]. eexists. eapply ru_next; [exact IH|exact Rt|exact I1]. }
    destruct (R (5 * 5 * 5 * 5 * 5)%nat) as [l Hl]. eexists _, r. apply uc_unpreprocessed; [reflexivity|]. cbn iota. eapply mc_run; [exact Hl|exact Rt|exact I1].
Qed.
Print Assumptions C118_refuted.

(** ** C119. The updates *)
(** During optimize(), with at least five entries in the pool and threads that insert in the pool one after the other (one thread, for example): an update never reports more constraints remaining than an
    earlier update, nor, for as many constraints, a worse value; and the result that is returned is not worse than any update. Missing: C119_refuted. *)
Theorem C119_updates_never_get_worse_partial :
  forall (F G : Type) (fo : fops F) (ro : rops G) std_sort ddiv hash hardware (Q : sys F G -> Prop) reg c cl pb calls r, permutes std_sort -> sorts std_sort ->
  optimize_problem_calls reg fo ro std_sort ddiv hash hardware Q c cl pb calls (Ok r) ->
  insert_in_turn hardware c Q -> 5 <= oc_population c ->
  (forall a r1 v1 l1 b r2 v2 l2 d, calls = a ++ C_update r1 v1 l1 :: b ++ C_update r2 v2 l2 :: d -> ~ better_report (p_type pb) (r1, v1) (r2, v2)) /\
  (forall a r1 v1 l1 b, calls = a ++ C_update r1 v1 l1 :: b -> exists x v l, sr_solutions r = (x, Some v) :: l /\ ~ better_report (p_type pb) (r1, v1) (sr_remaining r, v)).
Proof. intros. eapply opc_updates; eassumption. Qed.
Print Assumptions C119_updates_never_get_worse_partial.
(** With two threads that replace the same entry: an update reports a solution of value 1, and the result has the value 2 (the problem is minimized). *)
Theorem C119_refuted : exists calls r x l0 l1 u0,
  let c := mk_octx 0 pp_none false false po_none (ex_oparams false sto_one) 2 5 in
  optimize_problem_calls all_registered ex_fops ex_flip_rops insertion_sort Z.div ex_hash 1 any c S_equalities_01 ex_race_pb calls (Ok r) /\
  calls = [C_start; u0; C_update 0 l0 l1; C_finish r] /\ sr_solutions r = [(x, Some 2)] /\ l0 = 1 /\ sr_remaining r = 0 /\ better_report (p_type ex_race_pb) (0, 1) (sr_remaining r, 2).
Proof.
  destruct (ex_traced ex_flip_rops (mk_octx 0 pp_none false false po_none (ex_oparams false sto_one) 2 5) S_equalities_01 ex_race_pb (false, false) [(true, false); (false, true)] ex_race_1 ex_race_2) as [[calls r]|] eqn:Er;
    [|vm_compute in Er; discriminate].
  assert (H := ex_traced_ok _ _ _ _ _ _ _ _ _ _ (eq_refl : p_type ex_race_pb = minimize) Er). vm_compute in Er. injection Er as <- <-.
  eexists _, _, _, _, _, _. cbn zeta. split; [exact H|]. split; [reflexivity|]. split; [reflexivity|]. split; [reflexivity|]. split; [reflexivity|]. right. split; [reflexivity|]. cbn. lia.
Qed.
Print Assumptions C119_refuted.

(** ** C120. What the tool prints at the end *)
(** On success the tool prints two lines; the second one says "Best solution found" with the value of the solution of the result: for solve(), always; for optimize() if only
    one solution is stored, and then no update printed before has a better value (with at least five entries and threads that insert one after the other).
    Missing: C120_refuted, and the values of the numbers of constraints that remain after solve(), C120_refuted too. *)
Definition says_best (show_g : Z -> text) (duration : text) (loop : Z) (x : list bool) (v : option Z) (lines : list text) : Prop :=
  let value := match v with Some v => show_g v | None => [] end in
  exists line how, lines = [str "Solver finished"; line] /\
    line = str "Best solution found" ++ how ++ str ": " ++ value ++ str " in " ++ (if is_nil x then [] else show_int (Z.abs loop) ++ str " loop and ") ++ duration ++ str "s" /\
    how = (if is_nil x then str " via preprocessor" else if loop <? 0 then str " via push" else []).
Lemma says_best_one show_g duration loop r x v : sr_status r = st_success -> sr_solutions r = [(x, v)] -> says_best show_g duration loop x v (finished_lines show_g duration loop r).
Proof.
  intros Hs Hv. unfold says_best, finished_lines, last_value. rewrite Hs, Hv. cbn [rev app]. eexists _, _. split; [|split; reflexivity].
  destruct x as [|b x]; cbn [is_nil]; [reflexivity|].
  destruct (Z.leb_spec 0 loop) as [L|L].
  - rewrite (proj2 (Z.ltb_ge loop 0)) by lia. rewrite Z.abs_eq by lia. rewrite <- !app_assoc. reflexivity.
  - rewrite (proj2 (Z.ltb_lt loop 0)) by lia. rewrite Z.abs_neq by lia. rewrite <- !app_assoc. reflexivity.
Qed.
Theorem C120_best_solution_printed_partial :
  forall (F G : Type) (fo : fops F) (ro : rops G) std_sort ddiv (reg : registered) (show_g : Z -> text) duration loop,
  (forall random_optimizer raw_costs norm_costs pfuel fuel pp buffered po pa after g pb calls r,
    user_solve_calls reg fo ro std_sort ddiv random_optimizer raw_costs norm_costs pfuel fuel pp false buffered po pa after g pb = Finished (calls, Ok r) ->
    sr_status r = st_success -> forall s, In s (sr_solutions r) ->
    sr_solutions r = [s] /\ says_best show_g duration loop (fst s) (snd s) (finished_lines show_g duration loop r)) /\
  (forall hash hardware (Q : sys F G -> Prop) c cl pb calls r, permutes std_sort -> sorts std_sort ->
    optimize_problem_calls reg fo ro std_sort ddiv hash hardware Q c cl pb calls (Ok r) -> op_storage (oc_op c) = sto_one -> sr_status r = st_success ->
    exists x v, sr_solutions r = [(x, Some v)] /\ says_best show_g duration loop x (Some v) (finished_lines show_g duration loop r) /\
      (insert_in_turn hardware c Q -> 5 <= oc_population c ->
       forall r1 v1 l1, In (C_update r1 v1 l1) calls -> ~ better_report (p_type pb) (r1, v1) (sr_remaining r, v))).
Proof.
  intros F G fo ro std_sort ddiv reg show_g duration loop. split.
  - intros random_optimizer raw_costs norm_costs pfuel fuel pp buffered po pa after g pb calls r H Hs s Hin.
    assert (K : forall cl q, solver_calls reg (solve_problem fo ro std_sort fuel ddiv po cl q (raw_costs q) (norm_costs q) pa after g) = Finished (calls, Ok r) -> sr_solutions r = [s]).
    { intros cl q E. apply solver_calls_some in E. apply proj1 in E. unfold solve_problem in E. destruct (make_merged _ _ _ _) as [cs| |]; try discriminate. cbn zeta in E.
      destruct (negb (is_nil cs) && negb (is_nil (v_values (p_vars q)))).
      - destruct (functor _ _ _ _ _ _ _ _ _ _ _ _ _ _) as [[l st]| |]; try discriminate.
        assert (Er : sr_solutions r = if is_nil (be_x (lp_best l)) then [] else [(be_x (lp_best l), be_value (lp_best l))]) by (injection E as <-; reflexivity).
        rewrite Er in Hin |- *. destruct (is_nil _); [destruct Hin|]. destruct Hin as [<-|[]]. reflexivity.
      - assert (Er : sr_solutions r = [([], Some (o_value (p_objective q)))]) by (injection E as <-; reflexivity). rewrite Er in Hin |- *. destruct Hin as [<-|[]]. reflexivity. }
    assert (E1 : sr_solutions r = [s]).
    { unfold user_solve_calls, itm_solve_calls in H. cbn [negb] in H. destruct pp.
      - eapply K. exact H.
      - destruct (preprocess pfuel pb) as [[q|]| |]; try discriminate. eapply K. exact H. }
    split; [exact E1|]. apply says_best_one; [exact Hs|]. rewrite E1. destruct s. reflexivity.
  - intros hash hardware Q c cl pb calls r Hp Hso H Hst Hs.
    assert (E : exists x v, sr_solutions r = [(x, Some v)]).
    { remember (Ok r) as o eqn:Eo. destruct H; try discriminate.
      - injection Eo as <-. eexists _, _. reflexivity.
      - assert (Er : r = result) by congruence. rewrite Er. unfold result. cbn [sr_solutions].
        match goal with X : final_result _ _ _ _ = Some _ |- _ => rename X into Hfr end. rewrite Hst in Hfr. unfold final_result in Hfr.
        destruct (get_best _ 0) as [f|] eqn:Ef; cbn [bind] in Hfr; [|discriminate]. cbn [best_solutions] in Hfr. rewrite Ef in Hfr. cbn [bind] in Hfr.
        destruct (convert _ f) as [[x v]|]; cbn [bind] in Hfr; [|discriminate]. injection Hfr as <-. cbn. eexists _, _. reflexivity. }
    destruct E as (x & v & E). exists x, v. split; [exact E|]. split; [apply says_best_one; assumption|].
    intros Ht H5 r1 v1 l1 Hin. apply in_split in Hin. destruct Hin as (a & b & ->).
    destruct (C119_updates_never_get_worse_partial _ _ _ _ _ _ _ _ _ _ _ _ _ _ _ Hp Hso H Ht H5) as [_ U]. destruct (U a r1 v1 l1 b eq_refl) as (x' & v' & l & E' & N).
    rewrite E in E'. injection E' as <- <- <-. exact N.
Qed.
Print Assumptions C120_best_solution_printed_partial.
(** Without success the last line never speaks of a solution that was found, it names the cause, and for the three limits it gives the number of constraints that remain. *)
Theorem C120_last_line_without_success :
  forall (show_g : Z -> text) duration loop (r : sresult), sr_status r <> st_success ->
  let limit why := finished_lines show_g duration loop r =
    [str "Solver finished"; str "No solution. Constraint remaining: " ++ show_int (sr_remaining r) ++ why ++ duration ++ str "s."] in
  (forall l t, In l (finished_lines show_g duration loop r) -> l <> str "Best solution found" ++ t) /\
  (sr_status r = st_kappa_max_reached -> limit (str ". Kappa reached in ")) /\
  (sr_status r = st_time_limit_reached -> limit (str ". Time limit reached at ")) /\
  (sr_status r = st_limit_reached -> limit (str ". Loop limit reached in ")) /\
  (sr_status r = st_internal_error -> finished_lines show_g duration loop r = [str "Solver finished"; str "No solution. Internal error"]) /\
  (sr_status r = st_uninitialized -> finished_lines show_g duration loop r = [str "Solver finished"; str "No solution. Uninitialized error"]) /\
  (sr_status r = st_empty_context -> finished_lines show_g duration loop r = [str "Solver finished"; str "Context uninitialized"]).
Proof.
  intros show_g duration loop r Hs. cbv zeta. unfold finished_lines. destruct (sr_status r); try contradiction;
    (split; [intros l t [<-|[<-|[]]]; discriminate|]); repeat split; intros K; try discriminate K; reflexivity.
Qed.
Print Assumptions C120_last_line_without_success.
Example C120_last_line_ex : exists r, sr_status r = st_limit_reached /\
  finished_lines show_int (str "3.5") 7 r = [str "Solver finished"; str "No solution. Constraint remaining: 2. Loop limit reached in 3.5s."].
Proof. exists (mk_sresult st_limit_reached [] 2 [] (mk_affected [] []) 3 2). split; vm_compute; reflexivity. Qed.
(** Each line printed for an update: the number of constraints that remain, not 0, or the value of a solution, and then the run succeeds with a first solution that
    is not worse. The number of the loop is printed without the sign that marks the pushes. *)
Theorem C120_lines_of_the_updates_partial :
  forall (F G : Type) (fo : fops F) (ro : rops G) std_sort ddiv hash hardware (Q : sys F G -> Prop) reg (show_f : Z -> text) duration c cl pb calls r, permutes std_sort -> sorts std_sort ->
  row_indices_ok pb -> distinct_vars pb ->
  optimize_problem_calls reg fo ro std_sort ddiv hash hardware Q c cl pb calls (Ok r) -> insert_in_turn hardware c Q -> 5 <= oc_population c ->
  forall remaining value loop reinit, In (C_update remaining value loop) calls ->
  let line := updated_line show_f duration remaining value loop reinit in
  let tail l := str " (loop: " ++ show_int l ++ str " t: " ++ duration ++ str "s reinit: " ++ show_int reinit ++ str ")" in
  (0 < remaining /\ line = str "  - Constraints remaining: " ++ show_int remaining ++ tail loop) \/
  (remaining = 0 /\ sr_status r = st_success /\
   line = str "  - Solution found" ++ (if loop <? 0 then str " via push" else []) ++ str ": " ++ show_f value ++ tail (Z.abs loop) /\
   exists x v l, sr_solutions r = (x, Some v) :: l /\ match p_type pb with minimize => v <= value | maximize => value <= v end).
Proof.
  intros F G fo ro std_sort ddiv hash hardware Q reg show_f duration c cl pb calls r Hperm Hsort Hi Hd H Hq Hpop remaining value loop reinit Hin. cbv zeta.
  destruct (opc_counts fo ro std_sort ddiv hash hardware reg Q Hperm c cl pb calls r Hi Hd H) as [K1 K2]. pose proof (K1 _ _ _ Hin) as Hr.
  assert (Hex : exists r1 v1 l1, In (C_update r1 v1 l1) calls) by (exists remaining, value, loop; exact Hin).
  destruct (K2 Hex) as [K3 K4].
  destruct (opc_updates fo ro std_sort ddiv hash hardware reg Q Hperm Hsort c cl pb calls r H Hq Hpop) as [_ U].
  pose proof Hin as Hsp. apply in_split in Hsp. destruct Hsp as (a & b & E). destruct (U _ _ _ _ _ E) as (x & v & l & Es & Nb). unfold better_report in Nb. cbn [fst snd] in Nb.
  unfold updated_line. destruct (Z.ltb_spec 0 remaining) as [L|L]; [left; split; [exact L|reflexivity]|]. right. assert (R : remaining = 0) by lia.
  assert (S0 : sr_remaining r = 0) by lia. split; [exact R|]. split; [apply K4; exact S0|]. split.
  - destruct (Z.leb_spec 0 loop) as [L1|L1].
    + rewrite (proj2 (Z.ltb_ge loop 0)) by lia. rewrite Z.abs_eq by lia. reflexivity.
    + rewrite (proj2 (Z.ltb_lt loop 0)) by lia. rewrite Z.abs_neq by lia. reflexivity.
  - exists x, v, l. split; [exact Es|]. rewrite S0, R in Nb. destruct (p_type pb); lia.
Qed.
Print Assumptions C120_lines_of_the_updates_partial.

Example C120_hyps : exists u0 u1 r, let c := ex_octx 0 pp_none false sto_one in
  optimize_problem_calls all_registered ex_fops ex_rops insertion_sort Z.div ex_hash 1 any c S_equalities_01 (unpreprocess ex_pool_pb) [C_start; u0; u1; C_finish r] (Ok r) /\
  op_storage (oc_op c) = sto_one /\ sr_status r = st_success /\ insert_in_turn 1 c (@any Z unit) /\ sr_solutions r = [([true; false; false], Some 1)] /\
  finished_lines show_int (str "3.5") 7 r = [str "Solver finished"; str "Best solution found: 1 in 7 loop and 3.5s"].
Proof.
  destruct (ex_traced ex_rops (ex_octx 0 pp_none false sto_one) S_equalities_01 (unpreprocess ex_pool_pb) tt [tt] (ex_solo_round ++ firstn 9 ex_solo_rest) (skipn 9 ex_solo_rest)) as [[calls r]|] eqn:Er;
    [|vm_compute in Er; discriminate].
  assert (H := ex_traced_ok _ _ _ _ _ _ _ _ _ _ (eq_refl : p_type (unpreprocess ex_pool_pb) = minimize) Er). vm_compute in Er. injection Er as <- <-.
  eexists _, _, _. cbn zeta. split; [exact H|]. split; [reflexivity|]. split; [reflexivity|]. split; [left; reflexivity|]. split; vm_compute; reflexivity.
Qed.
(** x + y = 1, x = 1 and y = 1 *)
Definition ex_unsat_pb : problem :=
  mk_problem (mk_objective [mk_oelem 1 0; mk_oelem 1 1] [] 0) [mk_constraint [] [mk_felem 1 0; mk_felem 1 1] 1 0; mk_constraint [] [mk_felem 1 0] 1 1; mk_constraint [] [mk_felem 1 1] 1 2] [] []
    (mk_variables [str "x"; str "y"] (repeat (mk_variable_value 0 1 vt_binary) 2)) (mk_affected [] []) minimize equalities_01.
(** With two or five solutions stored, one thread: the tool prints an update with the solution found, of value 1, and at the end that the best solution has the value 0: it is the value of an assignment that violates the
    constraint, and no solution has a value below 1. And solve() without a solution says that 2147483647 constraints remain, for a problem with three constraints. *)
Theorem C120_refuted :
  (forall st, st <> sto_one -> exists u0 l1 r, let c := ex_octx 0 pp_none false st in
    user_optimize_calls all_registered ex_fops ex_rops insertion_sort Z.div ex_hash 1 any false c ex_pool_pb [C_start; u0; C_update 0 1 l1; C_finish r] (Ok r) /\
    (exists v l, sr_solutions r = ([true; false; false], Some 1) :: l ++ [v] /\ ~ feasible (as_assignment (fst v)) ex_pool_pb) /\
    finished_lines show_int (str "3.5") 7 r = [str "Solver finished"; str "Best solution found: 0 in 7 loop and 3.5s"] /\
    (forall x, feasible (as_assignment x) ex_pool_pb -> 1 <= objective_value (as_assignment x) (p_objective ex_pool_pb))) /\
  (exists r, solver_calls all_registered (solve_problem ex_fops ex_rops insertion_sort 20 Z.div po_none S_equalities_01 ex_unsat_pb (ex_c0 [1; 1]) (ex_cost [1; 1]) (ex_params 3 0 100 co_none) [] tt)
      = Finished ([C_start; C_finish r], Ok r) /\ sr_constraints r = 3%nat /\
    finished_lines show_int (str "3.5") 7 r = [str "Solver finished"; str "No solution. Constraint remaining: 2147483647. Loop limit reached in 3.5s."]).
Proof.
  split.
  - intros st Hst. destruct (ex_traced ex_rops (ex_octx 0 pp_none false st) S_equalities_01 (unpreprocess ex_pool_pb) tt [tt] (ex_solo_round ++ firstn 9 ex_solo_rest) (skipn 9 ex_solo_rest)) as [[calls r]|] eqn:Er;
      [|destruct st; vm_compute in Er; discriminate].
    assert (H := ex_traced_ok _ _ _ _ _ _ _ _ _ _ (eq_refl : p_type (unpreprocess ex_pool_pb) = minimize) Er).
    assert (E : exists u0 l1, calls = [C_start; u0; C_update 0 1 l1; C_finish r] /\
      (exists l, sr_solutions r = ([true; false; false], Some 1) :: l ++ [([false; false; false], Some 0)]) /\
      finished_lines show_int (str "3.5") 7 r = [str "Solver finished"; str "Best solution found: 0 in 7 loop and 3.5s"]).
    { clear H. destruct st; [contradiction| |]; vm_compute in Er; injection Er as <- <-; eexists _, _; (split; [reflexivity|]).
      - split; [exists []; reflexivity|vm_compute; reflexivity].
      - split; [eexists [_; _; _]; reflexivity|vm_compute; reflexivity]. }
    destruct E as (u0 & l1 & -> & (l & E2) & E3). exists u0, l1, r. cbn zeta. split.
    { apply uc_unpreprocessed; [reflexivity|]. cbn iota. apply ic_bastert; [reflexivity|]. exact H. }
    split; [exists ([false; false; false], Some 0), l; split; [exact E2|]|split; [exact E3|]].
    + intros [Hf _]. specialize (Hf _ (or_introl eq_refl)). vm_compute in Hf. discriminate.
    + intros x [Hf _]. specialize (Hf _ (or_introl eq_refl)). revert Hf. clear. generalize (as_assignment x). intros X. unfold sat_equal, objective_value. cbn [c_elements c_value lhs f_factor f_var o_elements o_qelements o_value lin_value quad_value o_factor o_var ex_pool_pb p_objective p_equal]. destruct (X 0%nat), (X 1%nat), (X 2%nat); cbn [bz]; lia.
  - match goal with |- exists r, ?t = _ /\ _ => destruct t as [[calls o]| |] eqn:Er; [|vm_compute in Er; discriminate|vm_compute in Er; discriminate] end.
    vm_compute in Er. injection Er as <- <-. eexists. split; [reflexivity|]. split; [reflexivity|]. vm_compute. reflexivity.
Qed.
Print Assumptions C120_refuted.
(** The random solver refuses a problem of class Z. *)
Example C118_random_ex : p_problem_type (unpreprocess ex_Z_pb) = equalities_Z /\
  forall pa, exists r, user_solve_calls all_registered ex_fops ex_rops insertion_sort Z.div (fun _ => Aborted) (fun _ _ => Some 0) (fun _ _ _ => Some 0) 0 5 pp_none true false po_none
    pa [] tt ex_Z_pb = Finished ([], Ok r) /\ sr_status r = st_internal_error.
Proof. split; [vm_compute; reflexivity|]. intros pa. eexists. split; reflexivity. Qed.
