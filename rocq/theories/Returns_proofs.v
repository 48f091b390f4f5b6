(** solve() returns: the pieces of C07, C13, C51 and C61 put together. *)
From Coq Require Import Permutation Lia.
From Verif Require Import Base Problem_model Problem_spec Merged_model Merged_spec Merged_proofs Classify_model Classify_spec Classify_proofs Preprocess_model
  Preprocess_spec Preprocess_proofs Preprocess_proofs2 Preprocess_proofs3 Preprocess_proofs4 Preprocess_props Matrix_model Matrix_proofs Rows_model Rows_spec Rows_proofs
  Validate_model Params_model Solver_model Solver_spec Solver_proofs Solver_proofs2 Solver_props EndToEnd_model EndToEnd_spec
  EndToEnd_proofs Separable_spec Separable_proofs4.
Open Scope Z_scope.

Section Returns.
Context {F G : Type} (fo : fops F) (ro : rops G)
        (std_sort : forall A : Type, (A -> A -> bool) -> list A -> list A) (ddiv : Z -> Z -> Z).
Hypothesis Hperm : permutes std_sort.
Hypothesis Hshuf : shuffles ro.

Lemma unit_nonzero pb : unit_coefficients pb -> all_factors factor_nonzero pb.
Proof. intros H c e Hc He. unfold factor_nonzero. destruct (H c e Hc He); lia. Qed.

(** What stops the loop. *)
Lemma functor_status fuel cl cs n c0 nc pa mode obj after (g : G) l st :
  (forall r, In r cs -> row_ok n r) ->
  functor fo ro std_sort fuel cl cs n c0 nc pa mode obj after g = Finished (l, st) -> st = st_success \/ st = st_limit_reached.
Proof.
  intros Hr H. destruct (C34_status_partial F G fo ro std_sort _ _ _ _ _ _ _ _ _ _ _ _ _ Hr H) as [H1 H2].
  destruct st; auto; right; apply H2; discriminate.
Qed.

Lemma solve_returns fuel po pb c0 nc pa after (g : G) :
  well_formed pb -> unit_coefficients pb -> p_problem_type pb = which_problem_type pb ->
  (forall c, In c (all_constraints pb) -> c_elements c <> []) ->
  (exists y, feasible y pb /\ fits_int y pb) ->
  (forall v, (v < length (v_values (p_vars pb)))%nat -> exists f, c0 v = Some f) -> cost_defined (length (v_values (p_vars pb))) nc ->
  after <> [] -> pa_order pa <> co_pi_sign_change -> 0 <= pa_limit pa < Z.of_nat fuel ->
  exists r, solve_problem fo ro std_sort fuel ddiv po (dispatch (p_problem_type pb)) pb c0 nc pa after g = Finished (Ok r) /\
    (sr_status r = st_success \/ sr_status r = st_limit_reached) /\ sr_remaining r = int_max.
Proof.
  intros (Hn & Hnd & Hi & Hd & Ho & Hod & Hq) Hu Hcls Hne [y0 [Hy0 Hf0]] Hc0 Hnc Haft Hpi Hlim. unfold solve_problem.
  assert (Hix : indices_ok pb) by (split; [exact Hne|split; [exact Hi|exact Ho]]).
  destruct (make_merged std_sort ddiv po pb) as [cs| |] eqn:Em.
  2:{ exfalso. exact (merged_throw std_sort ddiv Hperm po pb y0 Em Hf0 Hy0). }
  2:{ exfalso. exact (merged_no_crash std_sort ddiv Hperm po pb Hix Em). }
  pose proof (merged_rows_ok std_sort ddiv Hperm po pb cs Hi Hd Em) as Hrows.
  destruct (negb (is_nil cs) && negb (is_nil (v_values (p_vars pb)))) eqn:Eb; [|eexists; split; [reflexivity|split; [left; reflexivity|reflexivity]]].
  assert (Hcs : cs <> []) by (intros ->; discriminate).
  destruct (constructor_accepts std_sort ddiv Hperm po pb cs y0 (unit_nonzero pb Hu) Hy0 Hf0 Em) as (bs & Hb & _).
  rewrite <- Hcls in Hb.
  assert (Hcl : shares_affect (dispatch (p_problem_type pb))) by (rewrite Hcls; apply unit_class; exact Hu).
  destruct (make_matrix_ok (map m_elements cs) (length (v_values (p_vars pb)))) as (m & Hm & _).
  { intros c e Hc He. apply in_map_iff in Hc. destruct Hc as (r & <- & Hr). exact (proj2 (Hrows r Hr) e He). }
  { destruct cs as [|c1 cs1]; [contradiction|]. exists (m_elements c1). split; [left; reflexivity|].
    destruct (proj2 (merged_rows _ _ _ _ _ Hperm Em) c1 (or_introl eq_refl)) as (c & Hc & Hp). intros E. rewrite E in Hp. apply Permutation_nil in Hp. exact (Hne c Hc Hp). }
  assert (Hmk : exists sv s, make_any_solver fo (dispatch (p_problem_type pb)) cs (length (v_values (p_vars pb))) nc (p_type pb) after [] g = Ok (sv, s)).
  { unfold make_any_solver, make_solver. rewrite Hm. cbn [of_opt obind]. rewrite Hb. cbn [obind].
    destruct (dispatch (p_problem_type pb)); try contradiction; eauto. }
  destruct Hmk as (sv & s & Hmk).
  destruct (C61_run_ends_partial F G fo ro std_sort Hperm Hshuf fuel _ cs _ c0 nc pa (p_type pb) (p_objective pb) after g sv s Hcl Hrows Hmk Hc0 Hnc) as (l & st & Hf & _).
  - intros r Hr. split; [|left; exact Haft]. exists y0. exact (proj2 (merged_meaning std_sort ddiv Hperm po pb cs y0 Em Hf0) Hy0 r Hr).
  - split; [exact Ho|exact Hq].
  - exact Hcs.
  - intros E. contradiction.
  - exact Hlim.
  - rewrite Hf. eexists. split; [reflexivity|]. cbn [sr_status sr_remaining]. split; [eapply functor_status; [exact Hrows|exact Hf]|reflexivity].
Qed.

Lemma plain_returns random_optimizer raw_costs norm_costs pfuel fuel po pa after (g : G) pb :
  well_formed pb -> unit_coefficients pb -> (forall c, In c (all_constraints pb) -> c_elements c <> []) ->
  (exists y, feasible y pb /\ fits_int y pb) ->
  (forall v, (v < length (v_values (p_vars pb)))%nat -> exists f, raw_costs (unpreprocess pb) v = Some f) ->
  cost_defined (length (v_values (p_vars pb))) (norm_costs (unpreprocess pb)) ->
  after <> [] -> pa_order pa <> co_pi_sign_change -> 0 <= pa_limit pa < Z.of_nat fuel ->
  exists r, user_solve fo ro std_sort ddiv random_optimizer raw_costs norm_costs pfuel fuel pp_none false false po pa after g pb = Finished (Ok r) /\
    (sr_status r = st_success \/ sr_status r = st_limit_reached) /\ sr_remaining r = int_max.
Proof.
  intros Hwf Hu Hne Hy Hc0 Hnc Ha Hpi Hlim. unfold user_solve, itm_solve. cbn [negb].
  exact (solve_returns fuel po (unpreprocess pb) _ _ pa after g Hwf Hu eq_refl Hne Hy Hc0 Hnc Ha Hpi Hlim).
Qed.
Lemma user_returns random_optimizer raw_costs norm_costs pfuel fuel po pa after (g : G) pb :
  well_formed pb -> binary_bounds pb -> unit_coefficients pb -> linear_objective pb -> (forall y, fits_int y pb) -> (exists y, solution y pb) ->
  (length (v_values (p_vars pb)) < pfuel)%nat ->
  (forall q v, preprocess pfuel pb = Ok (Some q) -> (v < length (v_values (p_vars q)))%nat -> exists f, raw_costs q v = Some f) ->
  (forall q, preprocess pfuel pb = Ok (Some q) -> cost_defined (length (v_values (p_vars q))) (norm_costs q)) ->
  after <> [] -> pa_order pa <> co_pi_sign_change -> 0 <= pa_limit pa < Z.of_nat fuel ->
  exists r, user_solve fo ro std_sort ddiv random_optimizer raw_costs norm_costs pfuel fuel pp_all false false po pa after g pb = Finished (Ok r) /\
    (sr_status r = st_success \/ sr_status r = st_limit_reached) /\ sr_remaining r = int_max.
Proof.
  intros Hwf Hbin Hu Hlin Hfit [x0 Hx0] Hpf Hc0 Hnc Ha Hpi Hlim.
  destruct (preprocess_terminates pb Hwf x0 Hx0 Hlin) as [q Hq]. specialize (Hq pfuel Hpf).
  destruct (preprocess_shape pb x0 pfuel q Hwf Hx0 Hq) as (Wq & Rq & Aq & Lq & Tq). destruct (Lq Hlin) as [Wfq Hlq].
  destruct (preprocess_separate pb x0 pfuel q Hwf Hx0 Hq) as (_ & Uq & Cq).
  unfold user_solve, itm_solve. rewrite Hq. cbn [negb]. apply solve_returns; auto.
  - intros c Hc E. specialize (Rq c Hc). rewrite E in Rq. cbn in Rq. lia.
  - destruct (preprocess_complete pb Hwf x0 Hx0 pfuel q Hq x0 Hx0 Hbin) as (y & _ & Hy & _). exists y. split; [apply Hy|].
    exact (preprocess_fits pb x0 pfuel q Hwf Hx0 Hq Hfit y).
Qed.
End Returns.
