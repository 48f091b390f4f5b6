(** Proofs for the end-to-end property. *)
From Verif Require Import Base Problem_model Problem_spec Merged_model Merged_spec Merged_proofs Classify_model Preprocess_model
  Preprocess_spec Preprocess_proofs Preprocess_proofs2 Preprocess_proofs3 Preprocess_proofs4 Preprocess_props Validate_model Params_model
  Rows_model Rows_spec Solver_model Solver_spec Solver_proofs2 EndToEnd_model EndToEnd_spec.
Open Scope Z_scope.

(** ** Left-hand sides of the preprocessed problem *)
(** With the fixed variables at 0, the left-hand side is that of the copy. *)
Lemma copy_elements_zero vars n y l : forall v l' v',
  copy_elements (make_mapping vars (seq 0 n) 0) l v = Some (l', v') ->
  forall x, (forall i j, nth_error (kept vars n) j = Some i -> x i = y j) -> (forall i, (i < n)%nat -> vfind vars i <> None -> x i = false) ->
  lhs y l' = lhs x l.
Proof.
  induction l as [|e l IH]; intros v l' v' H x Hk Hz; cbn [copy_elements] in H.
  - inversion H; subst. reflexivity.
  - destruct (nth_error (make_mapping vars (seq 0 n) 0) (f_var e)) as [mi|] eqn:E; cbn [bind] in H; [|discriminate].
    pose proof (mapping_defined _ _ _ _ E) as Hlt. pose proof (mapping_nth vars n (f_var e) Hlt) as Hm.
    destruct (vfind vars (f_var e)) as [b|] eqn:Ev.
    + rewrite Hm in E. inversion E; subst mi. cbn [fst snd] in H. cbn [lhs]. rewrite (Hz _ Hlt ltac:(congruence)).
      rewrite (IH _ _ _ H x Hk Hz). unfold bz. lia.
    + destruct Hm as (j & Hj & Hkj). rewrite Hj in E. inversion E; subst mi. cbn [fst snd] in H.
      destruct (copy_elements _ l v) as [[l1 v1]|] eqn:E1; cbn [bind] in H; [|discriminate]. inversion H; subst l' v'. cbn [lhs fst f_var f_factor].
      rewrite (IH _ _ _ E1 x Hk Hz), (Hk _ _ Hkj). reflexivity.
Qed.

Lemma preprocess_fits pb x0 fuel q : well_formed pb -> solution x0 pb -> preprocess fuel pb = Ok (Some q) ->
  (forall X, fits_int X pb) -> forall y, fits_int y q.
Proof.
  intros Hwf Hx0 Hq Hfit y c' Hc'. destruct (preprocess_run pb Hwf x0 Hx0 fuel q Hq) as (ch & s & s1 & U & mo & Hch & Hb & F).
  apply all_constraints_ops in Hc'. destruct Hc' as [op H].
  pose proof (rb_csts _ _ _ _ _ (fi_rebuilt _ _ _ _ _ _ _ _ _ F) op) as Hcc. cbn [s_vars final_state] in Hcc.
  destruct (constraints_copy_spec _ _ _ _ _ Hcc) as [_ G].
  destruct (G c' H) as (i & c & k & H1 & H2 & H3 & ([l v] & Hr & ->)). cbn [c_elements fst].
  set (vars := s_vars s1 ++ U) in *. set (n := length (v_values (p_vars pb))) in *.
  set (x := fun i => match vfind vars i with
                     | Some b => false
                     | None => match find (fun j => match nth_error (kept vars n) j with Some i' => Nat.eqb i' i | None => false end)
                                     (seq 0 (length (kept vars n))) with Some j => y j | None => false end end).
  rewrite (copy_elements_zero vars n y (c_elements c) _ _ _ Hr x).
  - apply Hfit. apply all_constraints_ops. exists op. eapply nth_error_In; eassumption.
  - intros i' j Hj. unfold x.
    assert (Hin : In i' (kept vars n)) by (eapply nth_error_In; eassumption). apply kept_in in Hin. rewrite (proj2 Hin).
    destruct (find _ _) as [j'|] eqn:E.
    + apply find_some in E. destruct E as [_ E]. destruct (nth_error (kept vars n) j') as [i2|] eqn:Ej'; [|discriminate].
      apply Nat.eqb_eq in E. subst i2. f_equal.
      apply (proj1 (NoDup_nth_error (kept vars n)) (kept_nodup vars n)); [|congruence]. apply nth_error_Some. congruence.
    + exfalso. pose proof (find_none _ _ E j) as Hn. cbv beta in Hn. rewrite Hj, Nat.eqb_refl in Hn.
      assert (In j (seq 0 (length (kept vars n)))).
      { apply in_seq. split; [lia|]. apply nth_error_Some. congruence. }
      specialize (Hn H0). discriminate.
  - intros i' _ Hv. unfold x. destruct (vfind vars i'); congruence.
Qed.

Section Solve.
Context {F G : Type} (fo : fops F) (ro : rops G)
        (std_sort : forall A : Type, (A -> A -> bool) -> list A -> list A) (ddiv : Z -> Z -> Z).
Hypothesis Hperm : permutes std_sort.

(** What solve_problem says of the variables. *)
Lemma solve_names fuel po cl pb c0 nc pa after (g : G) r :
  solve_problem fo ro std_sort fuel ddiv po cl pb c0 nc pa after g = Finished (Ok r) ->
  sr_names r = v_names (p_vars pb) /\ sr_affected r = p_affected pb /\ sr_variables r = length (v_values (p_vars pb)) /\
  exists cs, make_merged std_sort ddiv po pb = Ok cs /\ sr_constraints r = length cs /\
    (cs = [] \/ v_values (p_vars pb) = [] -> sr_status r = st_success /\ sr_solutions r = [([], Some (o_value (p_objective pb)))]).
Proof.
  unfold solve_problem. destruct (make_merged std_sort ddiv po pb) as [cs| |]; try discriminate.
  destruct (negb (is_nil cs) && negb (is_nil (v_values (p_vars pb)))) eqn:E.
  - destruct (functor _ _ _ _ _ _ _ _ _ _ _ _ _ _) as [[l st]| |]; try discriminate. intros H. inversion H; subst r. cbn.
    split; [reflexivity|]. split; [reflexivity|]. split; [reflexivity|]. exists cs. split; [reflexivity|]. split; [reflexivity|].
    intros [->|E']; [discriminate|]. rewrite E', andb_false_r in E. discriminate.
  - intros H. inversion H; subst r. cbn. split; [reflexivity|]. split; [reflexivity|]. split; [reflexivity|].
    exists cs. split; [reflexivity|]. split; [reflexivity|]. intros _. split; reflexivity.
Qed.

Lemma solve_reduced fuel po cl q c0 nc pa after (g : G) r :
  well_formed_rows q -> reduced q -> (forall y, fits_int y q) ->
  (forall j, (j < length (v_values (p_vars q)))%nat -> exists c e, In c (all_constraints q) /\ In e (c_elements c) /\ f_var e = j) ->
  solve_problem fo ro std_sort fuel ddiv po cl q c0 nc pa after g = Finished (Ok r) -> sr_status r = st_success ->
  exists x v, sr_solutions r = [(x, v)] /\ length x = length (v_values (p_vars q)) /\
    feasible (as_assignment x) q /\ (well_formed q -> linear_objective q -> v = Some (objective_value (as_assignment x) (p_objective q))).
Proof.
  intros Hwf Hred Hfit Hused H Hs. assert (Hi : row_indices_ok q) by (exact (proj1 (proj2 (proj2 Hwf)))).
  assert (Hd : distinct_vars q) by (exact (proj2 (proj2 (proj2 Hwf)))).
  destruct (solve_names _ _ _ _ _ _ _ _ _ _ H) as (_ & _ & _ & cs & Hm & Hcs & Hempty).
  destruct (v_values (p_vars q)) as [|v0 vs] eqn:Ev.
  - destruct (Hempty (or_intror eq_refl)) as [_ Hsol]. exists [], (Some (o_value (p_objective q))). split; [assumption|]. split; [reflexivity|].
    assert (Hn : all_constraints q = []).
    { destruct (all_constraints q) as [|c l] eqn:E; [reflexivity|]. exfalso.
      unfold reduced in Hred. unfold row_indices_ok in Hi. rewrite E, Ev in *. specialize (Hred c (or_introl eq_refl)). destruct (c_elements c) as [|e es] eqn:Ec; [cbn in Hred; lia|].
      specialize (Hi c e (or_introl eq_refl)). rewrite Ec in Hi. specialize (Hi (or_introl eq_refl)). cbn in Hi. lia. }
    split.
    + apply feasible_ops. intros op c Hc. apply op_constraints_in in Hc. rewrite Hn in Hc. destruct Hc.
    + intros Hwq Hlin. f_equal. unfold objective_value. rewrite Hlin. destruct Hwq as (_ & _ & _ & _ & H3 & _). rewrite Ev in H3.
      destruct (o_elements (p_objective q)) as [|e es]; [cbn; lia|]. specialize (H3 e (or_introl eq_refl)). cbn in H3. lia.
  - assert (Hne : sr_constraints r <> 0%nat).
    { rewrite Hcs. destruct (Hused 0%nat ltac:(cbn; lia)) as (c & e & Hc & _).
      destruct (proj1 (merged_rows _ _ _ _ _ Hperm Hm) c Hc) as (m & Hin & _). destruct cs; [destruct Hin|discriminate]. }
    assert (Hv : v_values (p_vars q) <> []) by congruence.
    destruct (solve_has_solution fo ro std_sort ddiv Hperm fuel po cl q c0 nc pa after g r Hi Hd H Hne Hv Hs) as (x & v & Hsol & Hx).
    exists x, v. split; [assumption|].
    destruct (solve_ok fo ro std_sort ddiv Hperm fuel po cl q c0 nc pa after g r Hi Hd H x v) as (H1 & H2 & _); [rewrite Hsol; left; reflexivity|assumption|].
    destruct (H2 Hs) as [H3 H4]. rewrite <- Ev. split; [assumption|]. split; [apply H3, Hfit|intros _ _; assumption].
Qed.

(** From the result by name to the completed assignment, and back. *)
Lemma reports_completes q r x X pb : well_formed_rows q -> affected_apart q -> sr_names r = v_names (p_vars q) -> sr_affected r = p_affected q ->
  length x = length (v_values (p_vars q)) -> (reports r x X pb <-> completes (as_assignment x) q X pb).
Proof.
  intros Hwf Hap Hn Ha Hx. unfold reports, completes. rewrite Hn, Ha. split; intros H i nm Hi; destruct (H i nm Hi) as [H1 H2]; split.
  - intros j Hj. specialize (H1 j Hj). unfold as_assignment. symmetry. apply nth_error_nth. assumption.
  - intros b (k & Hk & Hb). eauto.
  - intros j Hj. specialize (H1 j Hj). rewrite H1. unfold as_assignment. apply nth_error_nth'. rewrite Hx, <- (proj1 Hwf).
    apply nth_error_Some. unfold called in *. congruence.
  - intros k b Hk Hb. apply H2. exists k. auto.
Qed.

(** solve() with preprocessing, any objective. *)
Lemma user_solve_answers random_optimizer raw_costs norm_costs pfuel fuel random buffered po pa after (g : G) pb r :
  well_formed pb -> (exists x0, solution x0 pb) -> (forall X, fits_int X pb) ->
  (random = true -> forall q, preprocess pfuel pb = Ok (Some q) -> p_problem_type q <> inequalities_01 /\ p_problem_type q <> inequalities_101) ->
  user_solve fo ro std_sort ddiv random_optimizer raw_costs norm_costs pfuel fuel pp_all random buffered po pa after g pb = Finished (Ok r) ->
  sr_status r = st_success ->
  exists x v, sr_solutions r = [(x, v)] /\ length x = length (sr_names r) /\ names_all r pb /\ (exists X, reports r x X pb) /\
    forall X, reports r x X pb -> feasible X pb /\ (binary_bounds pb -> in_bounds X pb) /\
      (linear_objective pb -> v = Some (objective_value X (p_objective pb))).
Proof.
  intros Hwf [x0 Hx0] Hfit Hrnd H Hs.
  unfold user_solve in H. destruct (preprocess pfuel pb) as [[q|]| |] eqn:Hq; try discriminate.
  assert (Hcl : exists cl, solve_problem fo ro std_sort fuel ddiv po cl q (raw_costs q) (norm_costs q) pa after g = Finished (Ok r)).
  { unfold itm_solve in H. destruct random; cbn [negb] in H; [|eauto]. destruct (Hrnd eq_refl q eq_refl) as [N1 N2].
    destruct (p_problem_type q); try contradiction; eauto; inversion H; subst r; discriminate. }
  clear H. destruct Hcl as [cl H].
  destruct (preprocess_shape pb x0 pfuel q Hwf Hx0 Hq) as (Wq & Rq & Aq & Lq & Tq).
  destruct (solve_names _ _ _ _ _ _ _ _ _ _ H) as (Hn & Ha & _ & _).
  destruct (solve_reduced _ _ _ _ _ _ _ _ _ _ Wq Rq (preprocess_fits pb x0 pfuel q Hwf Hx0 Hq Hfit)
              (preprocess_used pb x0 pfuel q Hwf Hx0 Hq) H Hs) as (x & v & Hsol & Hlen & Hfe & Hv).
  pose proof (fun X => reports_completes q r x X pb Wq Aq Hn Ha Hlen) as Hrep.
  exists x, v. split; [assumption|]. split; [rewrite Hn, Hlen; symmetry; apply Wq|]. split; [|split].
  - unfold names_all. rewrite Hn, Ha. destruct (C12_variables_partitioned pb q pfuel (proj1 Hwf) Hq) as (P & L & _). auto.
  - destruct (C09_completion_exists pb q pfuel (as_assignment x) (proj1 Hwf) (proj1 (proj2 Hwf)) Hq) as [X HX]. exists X. apply Hrep. assumption.
  - intros X HX. apply Hrep in HX. split; [|split].
    + eapply C09_preprocess_sound; eauto.
    + intros Hb. eapply C53_bounds_respected_partial; eauto.
    + intros Hl. rewrite (Hv (proj1 (Lq Hl)) (proj2 (Lq Hl))). f_equal. eapply C11_linear_objective_preserved; eauto. apply (proj1 Hwf).
Qed.
(** solve() without preprocessing. *)
Lemma plain_solve_answers random_optimizer raw_costs norm_costs pfuel fuel random buffered po pa after (g : G) pb r :
  well_formed_rows pb -> all_constraints pb <> [] -> v_values (p_vars pb) <> [] -> (forall X, fits_int X pb) ->
  (random = true -> which_problem_type pb <> inequalities_01 /\ which_problem_type pb <> inequalities_101) ->
  user_solve fo ro std_sort ddiv random_optimizer raw_costs norm_costs pfuel fuel pp_none random buffered po pa after g pb = Finished (Ok r) ->
  sr_status r = st_success ->
  exists x, sr_names r = v_names (p_vars pb) /\ sr_affected r = mk_affected [] [] /\ length x = length (v_values (p_vars pb)) /\
    sr_solutions r = [(x, Some (objective_value (as_assignment x) (p_objective pb)))] /\ feasible (as_assignment x) pb.
Proof.
  intros Hwf Hne Hv Hfit Hrnd H Hs. unfold user_solve in H.
  assert (Hcl : exists cl, solve_problem fo ro std_sort fuel ddiv po cl (unpreprocess pb) (raw_costs (unpreprocess pb)) (norm_costs (unpreprocess pb)) pa after g = Finished (Ok r)).
  { unfold itm_solve in H. destruct random; cbn [negb] in H; [|eauto]. destruct (Hrnd eq_refl) as [N1 N2].
    change (p_problem_type (unpreprocess pb)) with (which_problem_type pb) in H.
    destruct (which_problem_type pb); try contradiction; eauto; inversion H; subst r; discriminate. }
  clear H. destruct Hcl as [cl H].
  assert (Hi : row_indices_ok (unpreprocess pb)) by (exact (proj1 (proj2 (proj2 Hwf)))).
  assert (Hd : distinct_vars (unpreprocess pb)) by (exact (proj2 (proj2 (proj2 Hwf)))).
  destruct (solve_names _ _ _ _ _ _ _ _ _ _ H) as (Hn & Ha & _ & cs & Hm & Hcs & _).
  assert (Hc0 : sr_constraints r <> 0%nat).
  { rewrite Hcs. destruct (all_constraints pb) as [|c l] eqn:E; [contradiction|].
    destruct (proj1 (merged_rows _ _ _ _ _ Hperm Hm) c) as (m & Hin & _); [change (all_constraints (unpreprocess pb)) with (all_constraints pb); rewrite E; left; reflexivity|].
    destruct cs; [destruct Hin|discriminate]. }
  destruct (solve_has_solution fo ro std_sort ddiv Hperm fuel po cl _ _ _ pa after g r Hi Hd H Hc0 Hv Hs) as (x & v & Hsol & Hx).
  destruct (solve_ok fo ro std_sort ddiv Hperm fuel po cl _ _ _ pa after g r Hi Hd H x v) as (H1 & H2 & _); [rewrite Hsol; left; reflexivity|assumption|].
  destruct (H2 Hs) as [H3 H4]. exists x. split; [exact Hn|]. split; [exact Ha|]. split; [exact H1|]. split; [rewrite Hsol, H4; reflexivity|]. exact (H3 (Hfit _)).
Qed.
End Solve.
