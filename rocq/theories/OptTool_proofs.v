(** The tool called with --optimize. *)
From Coq Require Import Ascii String Lia.
From Verif Require Import Base Problem_model Problem_spec Merged_model Merged_spec Preprocess_model Preprocess_spec Preprocess_proofs4 Classify_model
  Validate_model Validate_spec Params_model ResultIO_model ResultIO_spec
  Lexer_model Lexer_spec Parser_model Parser_spec Parser_proofs2 Parser_proofs5 Parser_proofs6 Parser_proofs7 Parser_props Writer_model Rows_model Rows_spec Rows_proofs Solver_model Solver_spec Solver_proofs Solver_proofs2 Pool_model Pool_spec
  EndToEnd_model EndToEnd_spec EndToEnd_proofs Main_model Main_spec Main_proofs Tuning_model Tuning_props Optimize_model Optimize_spec Optimize_proofs.
Open Scope Z_scope.
Open Scope list_scope.

Section Single.
Context {F G : Type} (fo : fops F) (ro : rops G)
        (std_sort : forall A : Type, (A -> A -> bool) -> list A -> list A) (ddiv : Z -> Z -> Z)
        (hash : list bool -> Z) (hardware : nat) (Q : sys F G -> Prop).
Hypothesis Hperm : permutes std_sort.

(** With the storage [sto_one] the answer is one solution. *)
Lemma best_one p n i l : best_solutions p n i 1 = Some l -> List.length l = 1%nat.
Proof.
  cbn [best_solutions]. destruct (get_best p i) as [e|]; cbn [bind]; [|discriminate].
  destruct (convert n e) as [y|]; cbn [bind]; [|discriminate]. intros H. injection H as <-. reflexivity.
Qed.
Lemma problem_single c cl q r : op_storage (oc_op c) = sto_one ->
  optimize_problem fo ro std_sort ddiv hash hardware Q c cl q (Ok r) -> List.length (sr_solutions r) = 1%nat.
Proof.
  intros Ho H. remember (Ok r) as o eqn:Eo. destruct H as [Hm|cs Hm Hn|cs size g g' p0 ws s r0 n Hm Hn Hpop Hms Hth Hw Hst Hret Hfr]; [discriminate|injection Eo as <-; reflexivity|].
  injection Eo as <-. cbn [sr_solutions]. rewrite map_length. unfold final_result in Hfr. rewrite Ho in Hfr.
  destruct (get_best (sy_pool s) 0) as [f|]; cbn [bind] in Hfr; [|discriminate].
  destruct (best_solutions (sy_pool s) n 0 1) as [l|] eqn:E; cbn [bind] in Hfr; [|discriminate].
  injection Hfr as <-. cbn [or_solutions]. eapply best_one. exact E.
Qed.
Lemma itm_single c q r : row_indices_ok q -> distinct_vars q -> op_storage (oc_op c) = sto_one -> sr_status r = st_success ->
  itm_optimize fo ro std_sort ddiv hash hardware Q c q (Ok r) -> List.length (sr_solutions r) = 1%nat.
Proof.
  intros Hi Hd Ho Hs H. remember (Ok r) as o eqn:Eo. destruct H as [o _ H|_ _|fuel c0 nc after g o _ _ H|o _ _ H]; subst.
  - eapply problem_single; eassumption.
  - injection Eo as <-. discriminate.
  - destruct (solve_names fo ro std_sort ddiv _ _ _ _ _ _ _ _ _ _ H) as (Hn & Ha & _ & cs & Hm & Hcs & Hemp).
    destruct cs as [|m0 cs]; [assert (E : sr_solutions r = [([], Some (o_value (p_objective q)))]) by (apply Hemp; auto); rewrite E; reflexivity|].
    destruct (v_values (p_vars q)) as [|v0 vs] eqn:Ev; [assert (E : sr_solutions r = [([], Some (o_value (p_objective q)))]) by (apply Hemp; auto); rewrite E; reflexivity|].
    assert (Hne : sr_constraints r <> 0%nat) by (rewrite Hcs; discriminate).
    assert (Hv : v_values (p_vars q) <> []) by congruence.
    destruct (solve_has_solution fo ro std_sort ddiv Hperm fuel (oc_po c) S_random q c0 nc _ after g r Hi Hd H Hne Hv Hs) as (x & v & Hsol & _).
    rewrite Hsol. reflexivity.
  - eapply problem_single; eassumption.
Qed.
Lemma prepared_single {L} (lib : option (library L)) c q r : row_indices_ok q -> distinct_vars q -> op_storage (oc_op c) = sto_one -> sr_status r = st_success ->
  optimize_prepared fo ro std_sort ddiv hash hardware Q lib c q (Ok r) -> List.length (sr_solutions r) = 1%nat.
Proof.
  intros Hi Hd Ho Hs H. unfold optimize_prepared in H.
  assert (Hma : forall o, manual fo ro std_sort ddiv hash hardware Q c q o -> o = Ok r -> List.length (sr_solutions r) = 1%nat).
  { intros o [p o' _ Ho'] ->. eapply (itm_single (with_params c p)); eassumption. }
  destruct (has_mode (oc_mode c) 4).
  - exfalso. remember (Ok r) as o eqn:Eo. destruct H as [run fuel b r' a _ Hb _|run fuel _ _]; [|discriminate].
    eapply C46_returns_a_result_refuted; exact Hb.
  - destruct (has_mode (oc_mode c) 2).
    + remember (Ok r) as o eqn:Eo. destruct H as [o _ H|l value o _ _ H|l value p o _ _ _ H]; subst.
      * eapply Hma; [exact H|reflexivity].
      * eapply Hma; [exact H|reflexivity].
      * eapply (itm_single (with_params c p)); eassumption.
    + destruct (has_mode (oc_mode c) 1); [eapply Hma; [exact H|reflexivity]|]. eapply itm_single; eassumption.
Qed.
Lemma user_single {L} (lib : option (library L)) c pb r : oc_pp c = pp_all -> op_storage (oc_op c) = sto_one ->
  Preprocess_spec.well_formed pb -> (exists x0, solution x0 pb) ->
  user_optimize fo ro std_sort ddiv hash hardware Q lib c pb (Ok r) -> sr_status r = st_success -> List.length (sr_solutions r) = 1%nat.
Proof.
  intros Hpp Ho Hwf [x0 Hx0] H Hs. remember (Ok r) as o eqn:Eo. destruct H as [pfuel q o _ Hq H|pfuel _ Hq|o Hno H]; subst; [|discriminate|congruence].
  destruct (preprocess_shape pb x0 pfuel q Hwf Hx0 Hq) as (Wq & _).
  eapply prepared_single; try eassumption; [exact (proj1 (proj2 (proj2 Wq)))|exact (proj2 (proj2 (proj2 Wq)))].
Qed.
End Single.

(** From the LP file to the solution file. *)
Section Tool.
Context {F G : Type} (fo : fops F) (ro : rops G)
        (std_sort : forall A : Type, (A -> A -> bool) -> list A -> list A) (ddiv : Z -> Z -> Z)
        (hash : list bool -> Z) (hardware : nat) (Q : sys F G -> Prop).
Hypothesis Hperm : permutes std_sort.
Context {D : Type} (dn : dops D) (cost : D -> Z).
Lemma optimize_document {L} (lib : option (library L)) c (run : problem -> run_result (outcome sresult))
  fs pid end_time method duration loops show_f show_value fuel file t d ty e name out :
  ~ In newline end_time -> one_line method -> one_line duration -> one_line loops -> one_line show_f -> one_line show_value ->
  oc_pp c = pp_all -> op_storage (oc_op c) = sto_one -> op_insertion (oc_op c) = false -> threads_apart hardware c Q ->
  (forall pb r, run pb = Finished (Ok r) -> user_optimize fo ro std_sort ddiv hash hardware Q lib c pb (Ok r)) ->
  dops_ok dn -> fs file = Some t -> readable t -> ends_plain t -> file_tokens t = document_tokens d -> document_ok dn ty d ->
  (List.length (file_tokens t) <= fuel)%nat -> small_csts dn d -> (exists V, satisfies dn V d /\ within_bounds dn V d) ->
  main_ dn cost run fs pid end_time method duration loops show_f show_value fuel true [file] = Finished e ->
  In (name, out) (en_files e) -> has_line out status_line ->
  exists V, satisfies dn V d /\ (zero_one_bounds dn d -> within_bounds dn V d) /\
    (forall nm b, In nm (document_names d) -> (has_line out (value_is nm b) <-> V nm = b)) /\
    (forall l, has_line out l -> comment_line l \/ exists nm, In nm (document_names d) /\ l = value_is nm (V nm)) /\
    has_line out (str "\ Solution found: " ++ show_f (Some (objective_at dn cost V d))).
Proof.
  intros E1 E2 E3 E4 E5 E6 Hpp Hone Hins Hth Hrun Hdn Hfs R1 R2 R3 Hok Hfuel Hsm HV0.
  refine (document_answered end_time method duration loops show_f show_value E1 E2 E3 E4 E5 E6 dn cost fs pid run fuel file t d ty e name out (zero_one_bounds dn d) Hdn Hfs R1 R2 R3 Hok Hfuel _).
  set (pb := to_problem cost (meaning dn ty d)) in *. intros r Hr Hs.
  assert (Hmk : make_problem dn fuel t = P_ok (meaning dn ty d)) by (apply make_problem_document; assumption).
  assert (Hwf : Preprocess_spec.well_formed pb) by (apply to_problem_wf; eapply make_problem_well_formed; eassumption).
  set (val := fun (V : valuation) (i : nat) => match nth_error (document_names d) i with Some nm => V nm | None => false end).
  assert (Hval : forall V, by_name (document_names d) (val V) V).
  { intros V nm Hnm. unfold val. rewrite position_nth by assumption. reflexivity. }
  assert (Hx0 : exists x0, solution x0 pb).
  { destruct HV0 as (V & V1 & V2). exists (val V). split; [apply (feasible_satisfies dn cost ty d (val V) V (Hval V)); assumption|apply (bounds_within dn cost ty d (val V) V (Hval V)); assumption]. }
  apply Hrun in Hr.
  pose proof (user_single fo ro std_sort ddiv hash hardware Q Hperm lib c pb r Hpp Hone Hwf Hx0 Hr Hs) as Hlen.
  destruct (user_optimize_answers fo ro std_sort ddiv hash hardware Hperm Q lib c pb r (conj Hins Hth) Hpp Hwf Hx0 (small_fits pb (small_sums_document dn cost ty d Hsm)) Hr Hs) as (H1 & H2 & x & v & l & H3 & H4).
  rewrite H3 in Hlen. destruct l; [|discriminate].
  destruct (H2 x v) as (G1 & [X HX] & G3); [rewrite H3; left; reflexivity|].
  destruct (H4 X HX) as [Hf Hb]. exists x, v, X. split; [assumption|]. split; [assumption|]. split; [assumption|]. split; [assumption|]. split; [assumption|].
  split; [intros Hz; apply Hb; apply zero_one_binary; assumption|]. apply (G3 X HX). reflexivity.
Qed.
End Tool.
