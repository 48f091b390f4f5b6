(** The order pi-sign-change with more variables than constraints. *)
From Coq Require Import Permutation Lia.
From Verif Require Import Base Problem_model Problem_spec Merged_model Merged_spec Merged_proofs Classify_model Classify_spec Classify_proofs Preprocess_model
  Preprocess_spec Matrix_model Matrix_proofs Matrix_props Rows_model Rows_spec Rows_proofs ZRow_model RandomRow_model
  Validate_model Params_model Solver_model Solver_spec Solver_proofs Solver_proofs2 EndToEnd_model EndToEnd_spec Returns_proofs.
Open Scope Z_scope.

(** ** The number of rows *)
Lemma fill3_number o1 o2 o3 pb ret : fill3 o1 o2 o3 pb = Ok ret -> (length ret <= length (all_constraints pb))%nat.
Proof.
  intros H. pose proof (fill3_distinct _ _ _ _ _ H) as Hd. rewrite <- (map_length m_elements ret), <- (map_length c_elements (all_constraints pb)).
  apply NoDup_incl_length; [exact Hd|]. intros l Hl. apply in_map_iff in Hl. destruct Hl as (m & <- & Hm).
  destruct (fill3_from _ _ _ _ _ H m Hm) as (c & Hc & ->). apply in_map. exact Hc.
Qed.
Lemma forall2_len {A B} (R : A -> B -> Prop) a b : Forall2 R a b -> length a = length b.
Proof. intros H. induction H; cbn; congruence. Qed.
Lemma merged_number std_sort ddiv po pb cs : permutes std_sort -> make_merged std_sort ddiv po pb = Ok cs -> (length cs <= length (all_constraints pb))%nat.
Proof.
  intros Hperm H.
  assert (Hu : forall r, make_unsorted std_sort pb = Ok r -> (length r <= length (all_constraints pb))%nat).
  { intros r Hr. unfold make_unsorted in Hr. destruct (fill3 _ _ _ pb) as [r0| |] eqn:E; cbn [obind] in Hr; try discriminate.
    inversion Hr; subst r. rewrite (Permutation_length (Hperm _ _ _)). eapply fill3_number; exact E. }
  assert (Hi : forall (o : outcome (list merged)), (forall r, o = Ok r -> (length r <= length (all_constraints pb))%nat) ->
            forall r, (let! r := o in Ok (improve_memory_usage std_sort r)) = Ok r -> (length r <= length (all_constraints pb))%nat).
  { intros [r0| |] Ho r Hr; cbn [obind] in Hr; try discriminate. inversion Hr; subst r. unfold improve_memory_usage. rewrite map_length. apply Ho. reflexivity. }
  assert (Ho : forall r, make_ordered po pb = Ok r -> po <> po_none -> po <> po_memory -> (forall p, In p [po_p1; po_p2; po_p3; po_p4] -> po <> p) ->
            (length r <= length (all_constraints pb))%nat).
  { intros r Hr N1 N2 N3. unfold make_ordered in Hr. destruct po; try congruence;
      try (exfalso; eapply N3; [|reflexivity]; cbn; tauto); (eapply fill3_number; exact Hr). }
  assert (Hs : make_special std_sort ddiv po pb = Ok cs -> (length cs <= length (all_constraints pb))%nat).
  { unfold make_special. intros Hm. destruct (make_unsorted std_sort pb) as [r0| |] eqn:E; cbn [obind] in Hm; try discriminate.
    destruct (count_degrees _ _); cbn [of_opt obind] in Hm; try discriminate.
    destruct (fill_costs _ _ _ _); cbn [of_opt obind] in Hm; try discriminate.
    destruct (ratios _ _ _); cbn [of_opt obind] in Hm; try discriminate.
    match type of Hm with context [set_ids ?a ?b] => destruct (set_ids a b) eqn:Es end; cbn [of_opt obind] in Hm; try discriminate.
    inversion Hm; subst cs. rewrite map_length, (Permutation_length (Hperm _ _ _)), (forall2_len _ _ _ (set_ids_spec _ _ _ Es)). apply Hu. reflexivity. }
  unfold make_merged in H. destruct po; try (apply Hs; exact H); try (apply Hu; exact H);
    (eapply Hi; [|exact H]; first [exact Hu | intros r Hr; apply Ho; [exact Hr|discriminate|discriminate|intros p Hp E; subst p; cbn in Hp; intuition discriminate]]).
Qed.

Section Order.
Context {F G : Type} (fo : fops F) (ro : rops G)
        (std_sort : forall A : Type, (A -> A -> bool) -> list A -> list A) (ddiv : Z -> Z -> Z).
Hypothesis Hperm : permutes std_sort.
Hypothesis Hshuf : shuffles ro.

Lemma update_missing (sv : solver F) push kappa delta theta k (s : state F G) : mx_row (sv_ap sv) k = None ->
  any_update_row fo ro std_sort sv push kappa delta theta k s = None.
Proof.
  intros H. unfold any_update_row, update_row, random_update_row. destruct (sv_class sv); rewrite ?H; try reflexivity.
  destruct (zsolver_of sv) as [zs|] eqn:E; [|reflexivity]. cbn [bind].
  unfold zsolver_of in E. destruct (build_tables _ _ _ _); cbn [bind] in E; [|discriminate]. injection E as <-. unfold zupdate_row. cbn [zs_sv]. rewrite H. reflexivity.
Qed.
Lemma rows_missing (sv : solver F) push kappa delta theta ks : forall (s : state F G) ch, (exists k, In k ks /\ mx_row (sv_ap sv) k = None) ->
  update_rows fo ro std_sort sv push kappa delta theta ks s ch = None.
Proof.
  induction ks as [|k ks IH]; intros s ch (k0 & Hk & Hn); [destruct Hk|]. cbn [update_rows].
  destruct Hk as [->|Hk]; [rewrite update_missing by exact Hn; reflexivity|].
  destruct (any_update_row _ _ _ _ _ _ _ _ _ _) as [[s' c]|]; cbn [bind]; [|reflexivity]. apply IH. eauto.
Qed.

Lemma pi_sign_aborts fuel cl cs n c0 nc pa mode obj after (g : G) :
  (forall r, In r cs -> row_ok n r) -> (exists r, In r cs /\ m_elements r <> []) -> (length cs < n)%nat ->
  pa_order pa = co_pi_sign_change -> pa_limit pa <> 0 -> (0 < fuel)%nat ->
  functor fo ro std_sort fuel cl cs n c0 nc pa mode obj after g = Aborted.
Proof.
  intros Hrows (r0 & Hr0 & Hr1) Hlt Hpi Hlim Hfu. unfold functor.
  destruct (make_any_solver fo cl cs n nc mode after [] g) as [[sv s]| |] eqn:Em; try reflexivity.
  destruct (initial_x _ _ _ _ _ _ _ _ _) as [[x g1]|]; [|reflexivity].
  apply make_any_make in Em. destruct Em as [Em _].
  assert (Hap : mx_row (sv_ap sv) (length cs) = None).
  { unfold make_solver in Em. destruct (make_matrix (map m_elements cs) n) as [ap|] eqn:E; cbn [of_opt obind] in Em; [|discriminate].
    destruct (solver_ctor cl cs) as [b| |]; cbn [obind] in Em; try discriminate. injection Em as <- _. cbn [sv_ap].
    destruct (C29_matrix_rows_and_columns (map m_elements cs) n) as (m & Hm & _ & _ & Hno & _).
    - intros c e Hc He. apply in_map_iff in Hc. destruct Hc as (r & <- & Hr). exact (proj2 (Hrows r Hr) e He).
    - exists (m_elements r0). split; [apply in_map; exact Hr0|exact Hr1].
    - rewrite E in Hm. injection Hm as <-. apply Hno. rewrite map_length. lia. }
  unfold functor_loop. rewrite Hpi. unfold order_init, make_order. cbn [od_order od_R od_m od_cycle]. rewrite repeat_length.
  destruct fuel as [|fuel]; [lia|]. cbn [main_loop lp_kappa lp_od lp_s]. destruct (Z.eqb_spec 0 (pa_limit pa)) as [E|_]; [congruence|].
  assert (Hrun : run fo ro std_sort sv None (pa_kappa_min pa) (pa_delta pa) (pa_theta pa)
            (mk_order (seq 0 n) (repeat (0%nat, 0) n) co_pi_sign_change false) (mk_state x (s_P s) (s_pi s) (s_R s) g1) = None).
  { unfold run, sweep. cbn [od_order od_R s_g s_pi]. pose proof (Hshuf nat g1 (seq 0 n)) as Hp.
    destruct (rg_shuffle ro nat g1 (seq 0 n)) as [R g']. cbn [fst] in Hp. cbn [bind]. rewrite rows_missing; [reflexivity|].
    exists (length cs). split; [|exact Hap]. eapply Permutation_in; [symmetry; exact Hp|]. apply in_seq. lia. }
  rewrite Hrun. reflexivity.
Qed.

Lemma solve_pi_sign fuel po cl pb c0 nc pa after (g : G) :
  well_formed pb -> (forall c, In c (all_constraints pb) -> c_elements c <> []) -> (exists y, feasible y pb /\ fits_int y pb) ->
  all_constraints pb <> [] -> (length (all_constraints pb) < length (v_values (p_vars pb)))%nat ->
  pa_order pa = co_pi_sign_change -> pa_limit pa <> 0 -> (0 < fuel)%nat ->
  solve_problem fo ro std_sort fuel ddiv po cl pb c0 nc pa after g = Aborted.
Proof.
  intros (_ & _ & Hi & Hd & Ho & _ & _) Hne [y0 [Hy0 Hf0]] Hnil Hlt Hpi Hlim Hfu. unfold solve_problem.
  assert (Hix : indices_ok pb) by (split; [exact Hne|split; [exact Hi|exact Ho]]).
  destruct (make_merged std_sort ddiv po pb) as [cs| |] eqn:Em.
  2:{ exfalso. exact (merged_throw std_sort ddiv Hperm po pb y0 Em Hf0 Hy0). }
  2:{ reflexivity. }
  pose proof (merged_rows_ok std_sort ddiv Hperm po pb cs Hi Hd Em) as Hrows. pose proof (merged_number _ _ _ _ _ Hperm Em) as Hnum.
  destruct (all_constraints pb) as [|c l] eqn:Ec; [contradiction|].
  destruct (proj1 (merged_rows _ _ _ _ _ Hperm Em) c) as (m & Hm & Hp); [rewrite Ec; left; reflexivity|].
  destruct cs as [|c1 cs1] eqn:Ecs; [destruct Hm|]. rewrite <- Ecs in *.
  destruct (v_values (p_vars pb)) as [|v1 vs] eqn:Ev; [cbn in Hlt; lia|]. rewrite <- Ev in *.
  replace (is_nil cs) with false by (rewrite Ecs; reflexivity). replace (is_nil (v_values (p_vars pb))) with false by (rewrite Ev; reflexivity). cbn [negb andb].
  rewrite pi_sign_aborts; auto; [|lia].
  exists m. split; [exact Hm|]. intros E. rewrite E in Hp. apply Permutation_nil in Hp. exact (Hne c (or_introl eq_refl) Hp).
Qed.
Lemma plain_pi_sign random_optimizer raw_costs norm_costs pfuel fuel buffered po pa after (g : G) pb :
  well_formed pb -> (forall c, In c (all_constraints pb) -> c_elements c <> []) -> (exists y, feasible y pb /\ fits_int y pb) ->
  all_constraints pb <> [] -> (length (all_constraints pb) < length (v_values (p_vars pb)))%nat ->
  pa_order pa = co_pi_sign_change -> pa_limit pa <> 0 -> (0 < fuel)%nat ->
  user_solve fo ro std_sort ddiv random_optimizer raw_costs norm_costs pfuel fuel pp_none false buffered po pa after g pb = Aborted.
Proof.
  intros Hwf Hne Hy Hnil Hlt Hpi Hlim Hfu. unfold user_solve, itm_solve. cbn [negb].
  apply (solve_pi_sign fuel po _ (unpreprocess pb)); assumption.
Qed.
End Order.
