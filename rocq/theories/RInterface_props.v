(** Property theorems C103-C107: the R package. *)
From Coq Require Import Ascii String QArith.
From Verif Require Import Base Problem_model Problem_spec Merged_model Merged_spec Merged_proofs Classify_model Preprocess_model Preprocess_spec Preprocess_props
  Validate_model Validate_spec Params_model Params_spec ResultIO_model ResultIO_spec
  Lexer_model Lexer_spec Parser_model Parser_spec Parser_concrete Lexer_props Parser_props
  Writer_model Rows_model Rows_spec Rows_props Solver_model Solver_spec Solver_props Pool_model Pool_spec Pool_proofs Pool_proofs2 Pool_proofs3 Pool_props
  EndToEnd_model EndToEnd_spec EndToEnd_props
  Main_model Main_spec Main_proofs Main_props Optimize_model Optimize_spec Optimize_props RInterface_model RInterface_spec RInterface_proofs.
Open Scope Z_scope.
Open Scope list_scope.

(** ** C103. The codes *)
(** Each code of the documentation selects the option the documentation gives for it, each option has exactly one
    code. *)
Definition one_code_each {A} (doc : list (Z * A)) (get : Z -> A) : Prop :=
  (forall k o, In (k, o) doc -> get k = o) /\ (forall o, exists k, In (k, o) doc) /\
  (forall k k' o, In (k, o) doc -> In (k', o) doc -> k = k').
Theorem C103_codes :
  one_code_each doc_pre_constraint_order get_pre_constraint_order /\ one_code_each doc_constraint_order get_constrait_order /\
  one_code_each doc_norm get_cost_norm /\ one_code_each doc_init_policy get_init_policy /\
  one_code_each doc_float_type get_floating_point_type /\ one_code_each doc_storage_type get_storage_type.
Proof.
  split; [|split; [|split; [|split; [|split]]]]; (split; [|split]);
  lazymatch goal with
  | |- forall k o, In (k, o) _ -> _ => intros k o H; cbn in H; repeat (destruct H as [H|H]; [injection H as <- <-; reflexivity|]); destruct H
  | |- forall o, exists k, _ => intros o; destruct o; cbn; eexists; repeat first [left; reflexivity|right]
  | |- _ => intros k k' o H H'; cbn in H, H'; destruct o;
      repeat (destruct H as [H|H]; [try discriminate H; injection H as <-|]); try contradiction;
      repeat (destruct H' as [H'|H']; [try discriminate H'; injection H' as <-|]); try contradiction; reflexivity
  end.
Qed.
Print Assumptions C103_codes.
Example C103_run : get_pre_constraint_order 5 = po_greater_equal_less /\ get_constrait_order 8 = co_cycle /\ get_storage_type 2 = sg_five.
Proof. repeat split. Qed.

(** ** C104. The arguments *)
(** Arguments in their ranges are those used by the solver, with the options that the documentation gives for the
    codes; without arguments the order of the rows in each sweep is that of the file, the norm is the infinity norm and the numbers are doubles. Missing: the default storage
    (C104_refuted) and negative seeds (taken modulo 2 ^ 32). *)
Theorem C104_arguments_partial :
  (forall a, args_ok a -> uses a (in_force (solve_params a)) /\
     In (ra_init_policy a, pm_init_policy (in_force (solve_params a))) doc_init_policy /\ pm_init_policy_random (in_force (solve_params a)) = ra_init_policy_random a) /\
  (forall a o, args_ok a -> opt_args_ok o -> uses a (in_force (optimize_params a o)) /\ uses_opt o (in_force (optimize_params a o))) /\
  (forall f, f = in_force (solve_params default_args) \/ f = in_force (optimize_params default_args default_opt_args) ->
     pm_order f = co_none /\ pm_cost_norm f = cn_loo /\ pm_float_type f = ft_double).
Proof.
  split; [exact solve_arguments|]. split; [exact optimize_arguments|]. intros f [->| ->]; repeat split; reflexivity.
Qed.
Print Assumptions C104_arguments_partial.
Example C104_hyps : args_ok default_args /\ opt_args_ok default_opt_args.
Proof.
  split.
  - constructor; cbn; unfold within, nonneg, dofZ.
    + eexists. split; [reflexivity|reflexivity].
    + eexists. split; [reflexivity|]. split; vm_compute; discriminate.
    + left. eexists. split; reflexivity.
    + eexists _, _, _. split; [reflexivity|]. split; [reflexivity|]. split; [reflexivity|]. repeat split; vm_compute; discriminate.
    + right. eexists. split; [reflexivity|]. vm_compute. discriminate.
    + split; eexists; reflexivity.
    + lia.
    + eexists. split; [reflexivity|]. split; vm_compute; discriminate.
    + lia.
    + lia.
    + eexists. split; [reflexivity|]. split; vm_compute; discriminate.
    + lia.
  - unfold opt_args_ok, within, dofZ. cbn. do 7 (split; [eexists; split; [reflexivity|split; vm_compute; discriminate]|]).
    eexists _, _. split; [reflexivity|]. split; [reflexivity|]. do 3 (split; [vm_compute; discriminate|]). eexists. split; [reflexivity|]. split; vm_compute; discriminate.
Qed.
(** The documentation says that the default is to store the best solution: the default is to store the best and the worst. *)
Theorem C104_refuted : pm_storage (in_force (solve_params default_args)) = sg_bound /\
  pm_storage (in_force (optimize_params default_args default_opt_args)) = sg_bound /\ In (0, sg_one) doc_storage_type.
Proof. repeat split. left. reflexivity. Qed.
Print Assumptions C104_refuted.

(** ** C105. The value *)
(** When solve_01lp_problem says that a solution is found, value is the value of the objective of the file for some values
    of the variables that satisfy every constraint as it is written, and it is the only value listed. For all arguments. Missing:
    optimize_01lp_problem (C105_refuted). *)
Theorem C105_value_of_a_solution_partial :
  forall (F G : Type) (fo : fops F) (ro : rops G) std_sort ddiv, permutes std_sort ->
  forall (D : Type) (dn : dops D) (cost : D -> Z) fs (a : r_args) fuel file t d ty l,
  dops_ok dn -> fs file = Some t -> readable t -> ends_plain t -> file_tokens t = document_tokens d -> document_ok dn ty d ->
  (List.length (file_tokens t) <= fuel)%nat -> small_csts dn d -> (exists V, satisfies dn V d /\ within_bounds dn V d) ->
  r_call dn cost fs (solve_with fo ro std_sort ddiv (in_force (solve_params a))) fuel file l -> rl_solution_found l = true ->
  exists V : valuation, satisfies dn V d /\ (zero_one_bounds dn d -> within_bounds dn V d) /\
    rl_value l = Some (objective_at dn cost V d) /\ rl_solutions l = [rl_value l].
Proof.
  intros F G fo ro std_sort ddiv Hp D dn cost fs a fuel file t d ty l.
  exact (solve_document fo ro std_sort ddiv Hp dn cost fs (in_force (solve_params a)) fuel file t d ty l eq_refl eq_refl).
Qed.
Print Assumptions C105_value_of_a_solution_partial.
(** The file of C78 (whose hypotheses are C78_ex). *)
Example C105_run : exists l, r_call xdops (int_of xdops) ex_files (solve_with ex_fops ex_rops insertion_sort Z.div (in_force (solve_params default_args))) 100 (str "a.lp") l /\
  rl_solution_found l = true /\ rl_value l = Some 9 /\ rl_solutions l = [Some 9] /\ rl_minimize l = true /\ rl_error_found l = false.
Proof.
  destruct (problem_read xdops (int_of xdops) ex_files 100 (str "a.lp")) as [pb| | |] eqn:Ep; [|vm_compute in Ep; discriminate..].
  destruct (user_solve ex_fops ex_rops insertion_sort Z.div (fun _ => Aborted) (fun _ => ex_c0 [1; -2; 3]) (fun _ => ex_cost [1; -2; 3]) 10 20 pp_all false false
    po_memory (ex_params 10 0 100 co_none) [mk_rc 0 0 0%nat] tt pb) as [[r| |]| |] eqn:Er; [|vm_compute in Ep; injection Ep as <-; vm_compute in Er; discriminate..].
  destruct (convert_result r (is_minimize (p_type pb))) as [l|] eqn:El;
    [|vm_compute in Ep; injection Ep as <-; vm_compute in Er; injection Er as <-; vm_compute in El; discriminate].
  exists l. split; [eapply rc_return; [exact Ep|econstructor; exact Er|exact El]|].
  vm_compute in Ep; injection Ep as <-; vm_compute in Er; injection Er as <-; vm_compute in El; injection El as <-. repeat split.
Qed.

(** optimize_01lp_problem without arguments, one thread, min x + 2y + 3z with x + y + z = 1: value is 0, which is not the value
    of any assignment that satisfies the constraint. It is the value of the worst member of the pool, which is listed last. *)
Definition ex_r_lp : text := text_of ["Minimize"; "obj: x + 2 y + 3 z"; "Subject To"; "a: x + y + z = 1"; "Binary"; "x"; "y"; "z"; "End"].
Definition ex_r_files (nm : text) : option text := if text_eqb nm (str "p.lp") then Some ex_r_lp else None.
Definition ex_r_octx : octx Z :=
  let p := in_force (optimize_params default_args default_opt_args) in
  mk_octx (mode_bits (pm_mode p)) (pm_preprocessor p) (is_random (pm_solver p)) false (pm_pre_order p) (ex_oparams false sto_bound) (pm_thread p) (pm_population_size p).
Definition ex_r_schedule : list (nat * action) :=
  ([(0, A_round None [] 20); (0, A_event 0); (0, A_pick 99)] ++ writes 0 ++ (0, A_sort) :: repeat (0, A_event 0) 4 ++ [(0, A_end); (0, A_stop)])%nat.
Lemma ex_r_run : exists l, r_call xdops (int_of xdops) ex_r_files
    (optimize_with ex_fops ex_rops insertion_sort Z.div ex_hash 1 (None : option (library Z)) (in_force (optimize_params default_args default_opt_args))) 100 (str "p.lp") l /\
  l = mk_list true false (Some 0) 3 1 0 true [Some 1; Some 0].
Proof.
  destruct (problem_read xdops (int_of xdops) ex_r_files 100 (str "p.lp")) as [pb| | |] eqn:Ep; [|vm_compute in Ep; discriminate..].
  destruct (preprocess 10 pb) as [[q|]| |] eqn:Eq; [|vm_compute in Ep; injection Ep as <-; vm_compute in Eq; discriminate..].
  destruct (ex_sim ex_r_octx S_equalities_01 q [tt] ex_r_schedule) as [r|] eqn:Er;
    [|vm_compute in Ep; injection Ep as <-; vm_compute in Eq; injection Eq as <-; vm_compute in Er; discriminate].
  destruct (convert_result r (is_minimize (p_type pb))) as [l|] eqn:El;
    [|vm_compute in Ep; injection Ep as <-; vm_compute in Eq; injection Eq as <-; vm_compute in Er; injection Er as <-; vm_compute in El; discriminate].
  exists l. split.
  - eapply rc_return; [exact Ep| |exact El]. apply ow_run with (op := ex_oparams false sto_bound); [reflexivity|].
    eapply uo_preprocessed with (pfuel := 10%nat) (q := q); [reflexivity|exact Eq|].
    change (itm_optimize ex_fops ex_rops insertion_sort Z.div ex_hash 1 any ex_r_octx q (Ok r)).
    apply io_bastert; [reflexivity|]. replace (if oc_buffered ex_r_octx then S_equalities_01 else dispatch (p_problem_type q)) with S_equalities_01.
    + eapply ex_sim_ok; [|exact Er]. vm_compute in Ep; injection Ep as <-; vm_compute in Eq; injection Eq as <-. reflexivity.
    + vm_compute in Ep; injection Ep as <-; vm_compute in Eq; injection Eq as <-. reflexivity.
  - vm_compute in Ep; injection Ep as <-; vm_compute in Eq; injection Eq as <-; vm_compute in Er; injection Er as <-; vm_compute in El; injection El as <-. reflexivity.
Qed.
Theorem C105_refuted :
  exists (F G D L : Type) (fo : fops F) (ro : rops G) std_sort ddiv hash hardware (lib : option (library L)) (dn : dops D) cost fs fuel file pb l,
  permutes std_sort /\ shuffles ro /\ dops_ok dn /\ problem_read dn cost fs fuel file = P_ok pb /\ Preprocess_spec.well_formed pb /\
  r_call dn cost fs (optimize_with fo ro std_sort ddiv hash hardware lib (in_force (optimize_params default_args default_opt_args))) fuel file l /\
  rl_solution_found l = true /\ forall X, feasible X pb -> rl_value l <> Some (objective_value X (p_objective pb)).
Proof.
  destruct ex_r_run as (l & H & ->).
  eexists Z, unit, _, Z, ex_fops, ex_rops, insertion_sort, Z.div, ex_hash, 1%nat, None, xdops, (int_of xdops), ex_r_files, 100%nat, (str "p.lp"), _, _.
  split; [exact ex_sort_permutes|]. split; [exact ex_shuffles|]. split; [repeat split|]. split; [vm_compute; reflexivity|].
  split; [apply wf_check_ok; vm_compute; reflexivity|]. split; [exact H|]. split; [reflexivity|].
  intros X [Hf _]. specialize (Hf _ (or_introl eq_refl)). vm_compute in Hf. vm_compute.
  destruct (X 0%nat), (X 1%nat), (X 2%nat); first [discriminate Hf|discriminate].
Qed.
Print Assumptions C105_refuted.

(** ** C106. Errors *)
(** Never both a solution and an error; an error is announced exactly for an exception or a result that is an internal
    error; a solution exactly for a result that is a success. Missing: files that cannot be read (C106_refuted). *)
Theorem C106_errors_partial :
  forall (D : Type) (dn : dops D) cost fs run fuel file l, r_call dn cost fs run fuel file l ->
  (rl_error_found l = true -> rl_solution_found l = false) /\
  exists pb, problem_read dn cost fs fuel file = P_ok pb /\
    ((run pb Throw /\ rl_error_found l = true) \/
     exists r, run pb (Ok r) /\ (rl_error_found l = true <-> sr_status r = st_internal_error) /\ (rl_solution_found l = true <-> sr_status r = st_success)).
Proof.
  intros D dn cost fs run fuel file l H. destruct H as [pb r l H1 H2 H3|pb l H1 H2 H3].
  - apply convert_cases in H3. destruct H3 as (C1 & C2 & _). split.
    + intros E. apply C2 in E. destruct (rl_solution_found l); [|reflexivity]. assert (sr_status r = st_success) by (apply C1; reflexivity). congruence.
    + exists pb. split; [assumption|]. right. exists r. auto.
  - apply convert_cases in H3. destruct H3 as (C1 & C2 & _). split.
    + intros _. destruct (rl_solution_found l); [|reflexivity]. assert (st_internal_error = st_success) by (apply C1; reflexivity). discriminate.
    + exists pb. split; [assumption|]. left. split; [assumption|]. apply C2. reflexivity.
Qed.
Print Assumptions C106_errors_partial.
(** A run that throws. *)
Example C106_throw : exists l, r_call xdops (int_of xdops) ex_r_files (fun _ o => o = Throw) 100 (str "p.lp") l /\ rl_error_found l = true.
Proof. eexists. split; [eapply rc_catch; [vm_compute; reflexivity|reflexivity|reflexivity]|reflexivity]. Qed.
(** For every file that does not exist or has errors, both functions, whatever the arguments: a solution is found, of value 0, the
    problem being a maximization. *)
Theorem C106_refuted :
  forall (F G L : Type) (fo : fops F) (ro : rops G) std_sort ddiv hash hardware (lib : option (library L)), permutes std_sort ->
  forall (D : Type) (dn : dops D) cost fs fuel file a o l,
  cost (d_zero dn) = 0 ->
  fs file = None \/ (exists t e, fs file = Some t /\ make_problem dn fuel t = P_error e) ->
  r_call dn cost fs (solve_with fo ro std_sort ddiv (in_force (solve_params a))) fuel file l \/
  r_call dn cost fs (optimize_with fo ro std_sort ddiv hash hardware lib (in_force (optimize_params a o))) fuel file l ->
  rl_solution_found l = true /\ rl_error_found l = false /\ rl_value l = Some 0 /\ rl_minimize l = false.
Proof.
  intros F G L fo ro std_sort ddiv hash hardware lib Hp D dn cost fs fuel file a o l H0 Hf H.
  assert (Hr : forall pb, problem_read dn cost fs fuel file = P_ok pb -> pb = no_problem dn cost).
  { intros pb Hr. unfold problem_read, read_file in Hr. destruct Hf as [Hf|(t & e & Hf & He)]; rewrite Hf in Hr; [|rewrite He in Hr]; injection Hr as <-; reflexivity. }
  assert (Hl : forall r, convert_result (no_result dn cost 0) (is_minimize (p_type (no_problem dn cost))) = Some r ->
    rl_solution_found r = true /\ rl_error_found r = false /\ rl_value r = Some 0 /\ rl_minimize r = false).
  { intros r Hc. cbn in Hc. injection Hc as <-. cbn. rewrite H0. repeat split. }
  destruct H as [H|H]; (destruct H as [pb r l H1 H2 H3|pb l H1 H2 H3]; apply Hr in H1; subst pb;
    [first [apply solve_no_problem in H2; [|assumption|reflexivity|reflexivity]
           |apply optimize_no_problem in H2; [|assumption|reflexivity|reflexivity|reflexivity]]; injection H2 as ->; apply Hl; exact H3
    |first [apply solve_no_problem in H2; [discriminate|assumption|reflexivity|reflexivity]
           |apply optimize_no_problem in H2; [discriminate|assumption|reflexivity|reflexivity|reflexivity]]]).
Qed.
Print Assumptions C106_refuted.
Example C106_refuted_run : exists l, ex_r_files (str "absent.lp") = None /\
  r_call xdops (int_of xdops) ex_r_files (solve_with ex_fops ex_rops insertion_sort Z.div (in_force (solve_params default_args))) 100 (str "absent.lp") l /\
  int_of xdops (d_zero xdops) = 0.
Proof.
  eexists. split; [reflexivity|]. split; [|reflexivity]. eapply rc_return; [vm_compute; reflexivity| |].
  - apply sw_run with (random_optimizer := fun _ => Aborted) (raw_costs := fun _ => ex_c0 []) (norm_costs := fun _ => ex_cost []) (pfuel := 10%nat) (fuel := 20%nat)
      (pa := ex_params 10 0 100 co_none) (after := []) (g := tt). vm_compute. reflexivity.
  - vm_compute. reflexivity.
Qed.

(** ** C107. The other fields *)
(** minimize says what the objective of the problem read is. For optimize_01lp_problem, when constraints and
    variables are left by the preprocessing, remaining_constraints is 0 exactly when a solution is found. Missing: solve_01lp_problem, the numbers of variables
    and constraints (C107_refuted). *)
Theorem C107_fields_partial :
  (forall (D : Type) (dn : dops D) cost fs run fuel file l, r_call dn cost fs run fuel file l ->
     forall pb, problem_read dn cost fs fuel file = P_ok pb -> (rl_minimize l = true <-> p_type pb = minimize)) /\
  (forall (F G L : Type) (fo : fops F) (ro : rops G) std_sort ddiv hash hardware (lib : option (library L)), permutes std_sort ->
   forall (D : Type) (dn : dops D) cost fs fuel file a o l pb,
   problem_read dn cost fs fuel file = P_ok pb ->
   (forall k q, preprocess k pb = Ok (Some q) -> all_constraints q <> [] /\ v_values (p_vars q) <> []) ->
   r_call dn cost fs (optimize_with fo ro std_sort ddiv hash hardware lib (in_force (optimize_params a o))) fuel file l -> rl_error_found l = false ->
   (rl_solution_found l = true <-> rl_remaining l = 0)).
Proof.
  split.
  - intros D dn cost fs run fuel file l H pb Hpb. destruct H as [pb' r l H1 _ H3|pb' l H1 _ H3]; assert (pb' = pb) by congruence; subst pb';
      apply convert_cases in H3; destruct H3 as (_ & _ & -> & _); destruct (p_type pb); split; (reflexivity || discriminate).
  - intros F G L fo ro std_sort ddiv hash hardware lib Hp D dn cost fs fuel file a o l pb Hpb Hq H He.
    destruct H as [pb' r l H1 H2 H3|pb' l H1 _ H3]; assert (pb' = pb) by congruence; subst pb'; apply convert_cases in H3; destruct H3 as (C1 & C2 & _ & _ & _ & _ & -> & _).
    + rewrite C1. eapply optimize_remaining; try eassumption; reflexivity.
    + assert (rl_error_found l = true) by (apply C2; reflexivity). congruence.
Qed.
Print Assumptions C107_fields_partial.
Example C107_hyps : exists pb l, problem_read xdops (int_of xdops) ex_r_files 100 (str "p.lp") = P_ok pb /\ p_type pb = minimize /\
  (forall k q, preprocess k pb = Ok (Some q) -> all_constraints q <> [] /\ v_values (p_vars q) <> []) /\
  r_call xdops (int_of xdops) ex_r_files
    (optimize_with ex_fops ex_rops insertion_sort Z.div ex_hash 1 (None : option (library Z)) (in_force (optimize_params default_args default_opt_args))) 100 (str "p.lp") l /\
  rl_solution_found l = true /\ rl_error_found l = false.
Proof.
  destruct ex_r_run as (l & H & ->). eexists _, _. split; [vm_compute; reflexivity|]. split; [reflexivity|]. split; [|split; [exact H|split; reflexivity]].
  intros k q Hq. destruct k as [|k]; vm_compute in Hq; [discriminate|]. injection Hq as <-. split; discriminate.
Qed.
(** solve_01lp_problem on the file of C78: a solution is found, 2147483647 constraints remain; 3 variables and 2 constraints are said
    to be in the problem, which has 4 and 3. *)
Theorem C107_refuted :
  exists (F G D : Type) (fo : fops F) (ro : rops G) std_sort ddiv (dn : dops D) cost fs fuel file pb l,
  permutes std_sort /\ shuffles ro /\ problem_read dn cost fs fuel file = P_ok pb /\
  r_call dn cost fs (solve_with fo ro std_sort ddiv (in_force (solve_params default_args))) fuel file l /\
  rl_solution_found l = true /\ rl_remaining l = 2147483647 /\ rl_variables l = 3%nat /\ List.length (v_values (p_vars pb)) = 4%nat /\
  rl_constraints l = 2%nat /\ List.length (all_constraints pb) = 3%nat.
Proof.
  destruct (problem_read xdops (int_of xdops) ex_files 100 (str "a.lp")) as [pb| | |] eqn:Ep; [|vm_compute in Ep; discriminate..].
  destruct (user_solve ex_fops ex_rops insertion_sort Z.div (fun _ => Aborted) (fun _ => ex_c0 [1; -2; 3]) (fun _ => ex_cost [1; -2; 3]) 10 20 pp_all false false
    po_memory (ex_params 10 0 100 co_none) [mk_rc 0 0 0%nat] tt pb) as [[r| |]| |] eqn:Er; [|vm_compute in Ep; injection Ep as <-; vm_compute in Er; discriminate..].
  destruct (convert_result r (is_minimize (p_type pb))) as [l|] eqn:El;
    [|vm_compute in Ep; injection Ep as <-; vm_compute in Er; injection Er as <-; vm_compute in El; discriminate].
  eexists Z, unit, _, ex_fops, ex_rops, insertion_sort, Z.div, xdops, (int_of xdops), ex_files, 100%nat, (str "a.lp"), pb, l.
  split; [exact ex_sort_permutes|]. split; [exact ex_shuffles|]. split; [exact Ep|]. split; [eapply rc_return; [exact Ep|econstructor; exact Er|exact El]|].
  vm_compute in Ep; injection Ep as <-; vm_compute in Er; injection Er as <-; vm_compute in El; injection El as <-. repeat split.
Qed.
Print Assumptions C107_refuted.
