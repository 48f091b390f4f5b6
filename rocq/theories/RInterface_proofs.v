(** Proofs about the R package. *)
From Coq Require Import Ascii String QArith Qround Lqa.
From Verif Require Import Base Problem_model Problem_spec Merged_model Merged_spec Merged_proofs Params_model Params_spec Params_proofs Validate_model
  Classify_model Preprocess_model Preprocess_spec Lexer_model Lexer_spec Parser_model Parser_spec Parser_proofs2 Parser_proofs5 Parser_proofs7 Parser_props
  Rows_model Rows_spec Solver_model Solver_spec Pool_model Pool_spec
  EndToEnd_model EndToEnd_spec EndToEnd_proofs Main_model Main_spec Main_proofs Optimize_model RInterface_model RInterface_spec.
Open Scope Z_scope.
Open Scope list_scope.

(** ** Parameters *)
Lemma dclamp_id lo hi v : within lo hi v -> dclamp v (Fin lo) (Fin hi) = v.
Proof.
  intros (q & -> & H). unfold dclamp. rewrite (proj2 (dlt_fin_f q lo)) by lra. rewrite (proj2 (dlt_fin_f hi q)) by lra. reflexivity.
Qed.
Lemma clamp01_id v o : within 0 1 v -> (if is_finite v then dclamp v (dofZ 0) (dofZ 1) else o) = v.
Proof.
  intros H. assert (E : is_finite v = true) by (destruct H as (q & -> & _); reflexivity). rewrite E. apply (dclamp_id 0 1). exact H.
Qed.
Lemma shared_in_force p a : args_ok a -> pm_limit p = ra_limit a -> pm_w p = ra_w a ->
  pm_time_limit p = ra_time_limit a -> pm_theta p = ra_theta a -> pm_delta p = ra_delta a -> pm_kappa_min p = ra_kappa_min a ->
  pm_kappa_step p = ra_kappa_step a -> pm_kappa_max p = ra_kappa_max a -> pm_alpha p = ra_alpha a ->
  pm_pushing_k_factor p = ra_pushing_k_factor a -> pm_pushing_objective_amplifier p = ra_pushing_objective_amplifier a ->
  pm_seed p = to_unsigned (ra_seed a) -> pm_thread p = ra_thread a ->
  pm_pushes_limit p = ra_pushes_limit a -> pm_pushing_iteration_limit p = ra_pushing_iteration_limit a ->
  pm_pre_order p = get_pre_constraint_order (ra_pre_constraint_order a) -> pm_order p = get_constrait_order (ra_constraint_order a) ->
  pm_cost_norm p = get_cost_norm (ra_norm a) -> pm_float_type p = get_floating_point_type (ra_float_type a) ->
  pm_storage p = get_storage_type (ra_storage_type a) ->
  uses a (in_force p).
Proof.
  intros [A1 A2 A3 A4 A5 A6 A7 A8 A9 A10 A11 A12] Hl Hw Ht Hth Hd Hk1 Hk2 Hk3 Ha Hp1 Hp2 Hs Hthr Hpl Hpi Ho1 Ho2 Ho3 Ho4 Ho5.
  assert (Hkap : (dlt (pm_kappa_min p) (pm_kappa_max p) && dle (dofZ 0) (pm_kappa_min p) &&
                  dlt (pm_kappa_min p) (dofZ 1) && dle (pm_kappa_max p) (dofZ 1) &&
                  dle (dofZ 0) (pm_kappa_step p) && dlt (pm_kappa_step p) (dofZ 1))%bool = true).
  { rewrite Hk1, Hk2, Hk3. destruct A4 as (k & s & m & -> & -> & -> & B1 & B2 & B3 & B4 & B5). unfold dofZ.
    change (inject_Z 0) with 0%Q. change (inject_Z 1) with 1%Q.
    rewrite !Bool.andb_true_iff, !dlt_fin, !dle_fin. repeat split; lra. }
  unfold in_force. constructor; cbn [set_params pm_time_limit pm_theta pm_delta pm_kappa_min pm_kappa_step pm_kappa_max pm_alpha pm_pushing_k_factor
    pm_pushing_objective_amplifier pm_w pm_seed pm_thread pm_limit pm_pushes_limit pm_pushing_iteration_limit pm_pre_order pm_order
    pm_float_type pm_cost_norm pm_storage]; cbv zeta; rewrite ?Hkap; try assumption.
  - rewrite Ht. destruct A1 as (q & -> & Hq). destruct (dle (Fin q) (dofZ 0)) eqn:E; [|reflexivity]. apply dle_fin in E. change (inject_Z 0) with 0%Q in E. lra.
  - rewrite Hth, (proj2 (within_01 _) A2). reflexivity.
  - rewrite Hd. replace (deq (ra_delta a) (dofZ (-1)) || dle (dofZ 0) (ra_delta a))%bool with true; [reflexivity|]. symmetry. apply Bool.orb_true_iff.
    destruct A3 as [(q & -> & Hq)|Hn]; [left; apply Qeq_bool_iff; exact Hq|right; apply dle_0; exact Hn].
  - rewrite Ha, (proj2 (dle_0 _) A5). reflexivity.
  - rewrite Hp1. destruct A6 as [(q & ->) _]. reflexivity.
  - rewrite Hp2. destruct A6 as [_ (q & ->)]. reflexivity.
  - rewrite Hw, Hl. destruct A8 as (q & -> & Hq0 & Hq1). change (dofZ 0) with (Fin (inject_Z 0)). rewrite (proj2 (dlt_fin_f q (inject_Z 0))) by exact Hq0. rewrite (proj2 (Z.ltb_lt 0 (ra_limit a))) by lia.
    change (dofZ 1) with (Fin 1%Q). destruct (dlt (Fin q) (Fin 1%Q)) eqn:E.
    + apply dlt_fin in E. exists q, (inject_Z (ra_limit a) * q)%Q. split; [reflexivity|]. split; [reflexivity|]. split; intros; [reflexivity|lra].
    + apply dlt_fin_f in E. unfold dmin, dofZ. destruct (dlt (Fin q) (Fin (inject_Z (ra_limit a)))) eqn:E2.
      * exists q, q. split; [reflexivity|]. split; [reflexivity|]. split; intros; [lra|reflexivity].
      * apply dlt_fin_f in E2. exists q, (inject_Z (ra_limit a)). split; [reflexivity|]. split; [reflexivity|]. split; intros; lra.
  - intros Hs0. rewrite Hs. unfold to_unsigned. rewrite Z.mod_small; [reflexivity|lia].
  - rewrite Hl. destruct (Z.leb_spec (ra_limit a) 0); [lia|reflexivity].
  - rewrite Hpl. destruct (Z.leb_spec (ra_pushes_limit a) 0); [lia|reflexivity].
  - rewrite Hpi. destruct (Z.leb_spec (ra_pushing_iteration_limit a) 0); [lia|reflexivity].
  - rewrite Ho1. destruct A12 as (B & _). assert (C : forall k, 0 <= k <= 11 -> In (k, get_pre_constraint_order k) doc_pre_constraint_order); [|apply C; exact B].
    intros k Hk. assert (D : k = 0 \/ k = 1 \/ k = 2 \/ k = 3 \/ k = 4 \/ k = 5 \/ k = 6 \/ k = 7 \/ k = 8 \/ k = 9 \/ k = 10 \/ k = 11) by lia.
    repeat (destruct D as [->|D]; [vm_compute; tauto|]). subst k. vm_compute. tauto.
  - rewrite Ho2. destruct A12 as (_ & B & _). assert (C : forall k, 0 <= k <= 8 -> In (k, get_constrait_order k) doc_constraint_order); [|apply C; exact B].
    intros k Hk. assert (D : k = 0 \/ k = 1 \/ k = 2 \/ k = 3 \/ k = 4 \/ k = 5 \/ k = 6 \/ k = 7 \/ k = 8) by lia.
    repeat (destruct D as [->|D]; [vm_compute; tauto|]). subst k. vm_compute. tauto.
  - rewrite Ho3. destruct A12 as (_ & _ & B & _). assert (C : forall k, 0 <= k <= 4 -> In (k, get_cost_norm k) doc_norm); [|apply C; exact B].
    intros k Hk. assert (D : k = 0 \/ k = 1 \/ k = 2 \/ k = 3 \/ k = 4) by lia.
    repeat (destruct D as [->|D]; [vm_compute; tauto|]). subst k. vm_compute. tauto.
  - rewrite Ho4. destruct A12 as (_ & _ & _ & _ & B & _). assert (C : forall k, 0 <= k <= 2 -> In (k, get_floating_point_type k) doc_float_type); [|apply C; exact B].
    intros k Hk. assert (D : k = 0 \/ k = 1 \/ k = 2) by lia. repeat (destruct D as [->|D]; [vm_compute; tauto|]). subst k. vm_compute. tauto.
  - rewrite Ho5. destruct A12 as (_ & _ & _ & _ & _ & B). assert (C : forall k, 0 <= k <= 2 -> In (k, get_storage_type k) doc_storage_type); [|apply C; exact B].
    intros k Hk. assert (D : k = 0 \/ k = 1 \/ k = 2) by lia. repeat (destruct D as [->|D]; [vm_compute; tauto|]). subst k. vm_compute. tauto.
Qed.
Lemma solve_arguments a : args_ok a -> uses a (in_force (solve_params a)) /\
  In (ra_init_policy a, pm_init_policy (in_force (solve_params a))) doc_init_policy /\
  pm_init_policy_random (in_force (solve_params a)) = ra_init_policy_random a.
Proof.
  intros H. split; [apply shared_in_force; auto|]. destruct H as [_ _ _ _ _ _ _ _ _ _ A11 (_ & _ & _ & B & _)]. split.
  - cbn [in_force set_params solve_params pm_init_policy]. assert (D : ra_init_policy a = 0 \/ ra_init_policy a = 1 \/ ra_init_policy a = 2) by lia.
    destruct D as [->|[->| ->]]; vm_compute; tauto.
  - cbn [in_force set_params solve_params pm_init_policy_random]. rewrite (proj2 (within_01 _) A11). reflexivity.
Qed.
Lemma optimize_arguments a o : args_ok a -> opt_args_ok o -> uses a (in_force (optimize_params a o)) /\ uses_opt o (in_force (optimize_params a o)).
Proof.
  intros H (H1 & H2 & H3 & H4 & H5 & H6 & H7 & s & e & Hs & He & B1 & B2 & B3 & B4). split; [apply shared_in_force; auto|].
  unfold uses_opt, in_force. cbn [set_params optimize_params pm_crossover_bastert pm_crossover_mean pm_crossover_stddev pm_mutation_variable_mean
    pm_mutation_variable_stddev pm_mutation_value_mean pm_mutation_value_stddev pm_improve_start pm_improve_increase pm_improve_stop].
  cbv zeta. rewrite !clamp01_id by assumption. do 7 (split; [reflexivity|]).
  assert (E : dclamp (ro_improve_start o) (dofZ 0) (dofZ 1) = ro_improve_start o) by (apply (dclamp_id 0 1); exists s; split; [assumption|lra]).
  rewrite E. split; [reflexivity|]. split; [apply (dclamp_id 0 1); assumption|]. rewrite Hs. apply (dclamp_id s 1). exists e. split; [assumption|lra].
Qed.

(** ** A file that cannot be read *)
Section Empty.
Context {D : Type} (dn : dops D) (cost : D -> Z).
Definition no_problem : problem := to_problem cost (empty_problem dn).
Definition no_problem_ready : problem :=
  mk_problem (mk_objective [] [] (cost (d_zero dn) + 0)) [] [] [] (mk_variables [] []) (mk_affected [] []) maximize equalities_01.
Lemma preprocess_no_problem fuel q : preprocess fuel no_problem = Ok (Some q) -> q = no_problem_ready.
Proof. intros H. destruct fuel as [|fuel]; vm_compute in H; [discriminate|]. injection H as <-. reflexivity. Qed.
Lemma preprocess_no_throw fuel : preprocess fuel no_problem <> Throw.
Proof. destruct fuel as [|fuel]; vm_compute; discriminate. Qed.
Lemma no_rows std_sort ddiv po pb : permutes std_sort -> all_constraints pb = [] -> o_elements (p_objective pb) = [] -> make_merged std_sort ddiv po pb = Ok [].
Proof.
  intros Hp Ha Ho. unfold all_constraints in Ha. apply app_eq_nil in Ha. destruct Ha as [H1 Ha]. apply app_eq_nil in Ha. destruct Ha as [H2 H3].
  assert (S0 : forall A lt, std_sort A lt [] = []) by (intros A lt; apply Permutation_nil; symmetry; apply Hp).
  assert (Hu : make_unsorted std_sort pb = Ok []).
  { unfold make_unsorted, fill3, fill_merged. rewrite H1, H2, H3. cbn. rewrite S0. reflexivity. }
  destruct po; cbn [make_merged]; unfold make_special, make_ordered, fill3, fill_merged; rewrite ?Hu, ?H1, ?H2, ?H3; cbn; rewrite ?Ho; cbn; rewrite ?S0; reflexivity.
Qed.
Definition no_result (v : nat) : sresult := mk_sresult st_success [([], Some (cost (d_zero dn) + 0))] int_max [] (mk_affected [] []) v 0.

Context {F G : Type} (fo : fops F) (ro : rops G) (std_sort : forall A : Type, (A -> A -> bool) -> list A -> list A) (ddiv : Z -> Z -> Z)
        (hash : list bool -> Z) (hardware : nat).
Hypothesis Hperm : permutes std_sort.
Lemma solve_no_problem p o : pm_preprocessor p = pp_all -> pm_solver p = so_bastert -> solve_with fo ro std_sort ddiv p no_problem o -> o = Ok (no_result 0).
Proof.
  intros Hpp Hso H. destruct H as [ropt rc nc pfuel fuel pa after g H]. rewrite Hpp, Hso in H. unfold user_solve in H.
  pose proof (preprocess_no_problem pfuel) as K1. pose proof (preprocess_no_throw pfuel) as K2.
  destruct (preprocess pfuel no_problem) as [[q|]| |]; try discriminate; [|contradiction]. specialize (K1 q eq_refl). subst q.
  unfold itm_solve in H. cbn [is_random negb] in H. unfold solve_problem in H. rewrite no_rows in H; [|assumption|reflexivity|reflexivity].
  cbn in H. injection H as <-. reflexivity.
Qed.
Lemma optimize_no_problem {L} (lib : option (library L)) p o : pm_preprocessor p = pp_all -> pm_solver p = so_bastert -> pm_mode p = om_none ->
  optimize_with fo ro std_sort ddiv hash hardware lib p no_problem o -> o = Ok (no_result 0).
Proof.
  intros Hpp Hso Hm H. destruct H as [op _ H]. rewrite Hpp, Hso, Hm in H.
  assert (K : forall c cl r, optimize_problem fo ro std_sort ddiv hash hardware (fun _ => True) c cl no_problem_ready r -> r = Ok (no_result 0)).
  { intros c cl r K. assert (Hn : make_merged std_sort ddiv (oc_po c) no_problem_ready = Ok []) by (apply no_rows; auto).
    destruct K as [K|cs K _|cs size g g' p0 ws s r n K K2]; [congruence| |]; rewrite Hn in K; injection K as <-; [reflexivity|discriminate]. }
  remember no_problem as pb eqn:Epb. destruct H as [pfuel q r _ Hq H|pfuel _ Hq|r Hc _]; subst pb; [| |discriminate].
  - apply preprocess_no_problem in Hq. subst q. unfold optimize_prepared in H. cbn [oc_mode mode_bits] in H.
    change (itm_optimize fo ro std_sort ddiv hash hardware (fun _ => True) (mk_octx 0 pp_all (is_random so_bastert) false (pm_pre_order p) op (pm_thread p) (pm_population_size p)) no_problem_ready r) in H.
    destruct H as [r _ H|Hr _|fuel c0 nc after g r Hr _ _|r Hr _ _]; [eapply K; exact H|discriminate..].
  - exfalso. eapply preprocess_no_throw. exact Hq.
Qed.
End Empty.

(** ** The list returned *)
Lemma convert_cases r m l : convert_result r m = Some l ->
  (rl_solution_found l = true <-> sr_status r = st_success) /\ (rl_error_found l = true <-> sr_status r = st_internal_error) /\
  rl_minimize l = m /\ rl_solutions l = map snd (sr_solutions r) /\ rl_variables l = sr_variables r /\ rl_constraints l = sr_constraints r /\
  rl_remaining l = sr_remaining r /\ (sr_status r = st_success -> exists x, last_solution r = Some (x, rl_value l)).
Proof.
  unfold convert_result. destruct (sr_status r) eqn:E; [destruct (last_solution r) as [[x v]|] eqn:El; cbn [bind]; [|discriminate]|..]; intros H; injection H as <-; cbn;
    repeat split; try discriminate; intros; try discriminate; eauto.
Qed.

(** ** From a file to the list, solve_01lp_problem *)
Section Document.
Context {F G : Type} (fo : fops F) (ro : rops G) (std_sort : forall A : Type, (A -> A -> bool) -> list A -> list A) (ddiv : Z -> Z -> Z).
Hypothesis Hperm : permutes std_sort.
Context {D : Type} (dn : dops D) (cost : D -> Z) (fs : text -> option text).
Lemma solve_document p fuel file t d ty l :
  pm_preprocessor p = pp_all -> pm_solver p = so_bastert ->
  dops_ok dn -> fs file = Some t -> readable t -> ends_plain t -> file_tokens t = document_tokens d -> document_ok dn ty d ->
  (List.length (file_tokens t) <= fuel)%nat -> small_csts dn d -> (exists V, satisfies dn V d /\ within_bounds dn V d) ->
  r_call dn cost fs (solve_with fo ro std_sort ddiv p) fuel file l -> rl_solution_found l = true ->
  exists V : valuation, satisfies dn V d /\ (zero_one_bounds dn d -> within_bounds dn V d) /\
    rl_value l = Some (objective_at dn cost V d) /\ rl_solutions l = [rl_value l].
Proof.
  intros Hpp Hso Hdn Hfs R1 R2 R3 Hok Hfuel Hsm HV0 H Hfound. set (pb := to_problem cost (meaning dn ty d)).
  assert (Hmk : make_problem dn fuel t = P_ok (meaning dn ty d)) by (apply make_problem_document; assumption).
  assert (Hrd : problem_read dn cost fs fuel file = P_ok pb) by (unfold problem_read, read_file; rewrite Hfs, Hmk; reflexivity).
  destruct H as [pb' r l Hp' Hrun Hc|pb' l _ _ Hc]; [|cbn in Hc; injection Hc as <-; discriminate].
  assert (pb' = pb) by congruence. subst pb'. apply convert_cases in Hc. destruct Hc as (C1 & _ & _ & C2 & _ & _ & _ & C3). apply C1 in Hfound. specialize (C3 Hfound).
  destruct Hrun as [ropt rc nc pfuel sfuel pa after g Hrun]. rewrite Hpp, Hso in Hrun.
  assert (Hwf : Preprocess_spec.well_formed pb) by (apply to_problem_wf; eapply make_problem_well_formed; eassumption).
  set (val := fun (V : valuation) (i : nat) => match nth_error (document_names d) i with Some nm => V nm | None => false end).
  assert (Hval : forall V, by_name (document_names d) (val V) V).
  { intros V nm Hnm. unfold val. rewrite position_nth by assumption. reflexivity. }
  assert (Hx0 : exists x0, solution x0 pb).
  { destruct HV0 as (V & V1 & V2). exists (val V). split; [apply (feasible_satisfies dn cost ty d (val V) V (Hval V)); assumption|apply (bounds_within dn cost ty d (val V) V (Hval V)); assumption]. }
  assert (Hnr : is_random so_bastert = true -> forall q, preprocess pfuel pb = Ok (Some q) -> p_problem_type q <> inequalities_01 /\ p_problem_type q <> inequalities_101) by discriminate.
  destruct (user_solve_answers fo ro std_sort ddiv Hperm _ _ _ _ _ _ _ _ _ _ _ _ _ Hwf Hx0 (small_fits pb (small_sums_document dn cost ty d Hsm)) Hnr Hrun Hfound)
    as (x & v & H1 & Hl & Hna & [X HX] & Hall).
  destruct (Hall X HX) as (Hf & Hb & Hv). destruct C3 as [x' Hlast]. unfold last_solution in Hlast. rewrite H1 in Hlast, C2. cbn in Hlast, C2. injection Hlast as <- Ev.
  exists (fun nm => X (position nm (document_names d))).
  assert (HXV : by_name (document_names d) X (fun nm => X (position nm (document_names d)))) by (intros nm Hnm; reflexivity).
  split; [apply (feasible_satisfies dn cost ty d X _ HXV); assumption|].
  split; [intros Hz; apply (bounds_within dn cost ty d X _ HXV); apply Hb; apply zero_one_binary; assumption|].
  rewrite C2, <- Ev. split; [|reflexivity]. rewrite Hv by reflexivity. f_equal. apply (lin_document dn cost ty d X _ HXV).
Qed.
End Document.

(** ** remaining_constraints of optimize() *)
Section Remaining.
Context {F G : Type} (fo : fops F) (ro : rops G) (std_sort : forall A : Type, (A -> A -> bool) -> list A -> list A) (ddiv : Z -> Z -> Z)
        (hash : list bool -> Z) (hardware : nat).
Lemma optimize_remaining {L} (lib : option (library L)) p pb r : permutes std_sort -> pm_preprocessor p = pp_all -> pm_solver p = so_bastert -> pm_mode p = om_none ->
  (forall fuel q, preprocess fuel pb = Ok (Some q) -> all_constraints q <> [] /\ v_values (p_vars q) <> []) ->
  optimize_with fo ro std_sort ddiv hash hardware lib p pb (Ok r) ->
  sr_status r = st_success <-> sr_remaining r = 0.
Proof.
  intros Hperm Hpp Hso Hm Hq H. destruct H as [op _ H]. rewrite Hpp, Hso, Hm in H.
  remember (Ok r) as o eqn:Eo. destruct H as [pfuel q o _ Hq' H|pfuel _ _|o Hc _]; [|discriminate..]. subst o. apply Hq in Hq'. destruct Hq' as [Hac Hvv].
  change (itm_optimize fo ro std_sort ddiv hash hardware (fun _ => True) (mk_octx 0 pp_all (is_random so_bastert) false (pm_pre_order p) op (pm_thread p) (pm_population_size p)) q (Ok r)) in H.
  remember (Ok r) as o eqn:Eo. destruct H as [o _ H|Hr _|fuel c0 nc after g o Hr _ _|o Hr _ _]; [|discriminate..]. subst o.
  remember (Ok r) as o eqn:Eo. destruct H as [H|cs H He|cs size g g' p0 ws s r' n H He _ _ _ _ _ _ Hf]; [discriminate| |].
  - exfalso. destruct (all_constraints q) as [|c l] eqn:E; [contradiction|].
    destruct (proj1 (merged_rows _ _ _ _ _ Hperm H) c) as (m & Hin & _); [rewrite E; left; reflexivity|].
    destruct cs; [destruct Hin|]. destruct (v_values (p_vars q)); [contradiction|]. discriminate.
  - injection Eo as <-. cbn. unfold final_result in Hf. destruct (get_best (sy_pool s) 0) as [e|]; cbn [bind] in Hf; [|discriminate].
    match type of Hf with bind ?x _ = _ => destruct x as [sols|] end; cbn [bind] in Hf; [|discriminate]. injection Hf as <-. cbn.
    destruct (Z.eqb_spec (e_remaining e) 0); split; try congruence; discriminate.
Qed.
End Remaining.
