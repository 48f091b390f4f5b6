(** C134: solve() returns. C61 for the order pi-sign-change. *)
From Coq Require Import String.
From Verif Require Import Base Problem_model Problem_spec Merged_model Merged_spec Classify_model Preprocess_model Preprocess_spec Preprocess_props
  Validate_model Params_model Rows_model Rows_spec Rows_props Merged_proofs Greedy_spec Greedy_props Cost_spec Solver_model Solver_spec Solver_props
  EndToEnd_model EndToEnd_spec Push_spec Push_props Separable_spec Separable_props Returns_proofs Returns_proofs2.
Open Scope Z_scope.
Open Scope list_scope.

(** C134. A problem that has a solution, with coefficients 1 and -1 and a linear objective function: solve() with preprocessing returns a result
    (no abort, no exception, no endless loop), whose status is success or limit-reached. The limit of the iterations is not negative (a negative
    one is no limit, C102); any order of the constraints but pi-sign-change; any initial assignment, numbers of pushes, kappa, theta, delta,
    float arithmetic and random draws. What follows the buffer of the reduced costs in memory can be read ([after], C30), the costs of the
    variables are defined. *)
Theorem C134_solve_returns :
  forall (F G : Type) (fo : fops F) (ro : rops G) std_sort ddiv, permutes std_sort -> shuffles ro ->
  forall random_optimizer raw_costs norm_costs pfuel fuel po pa after (g : G) pb,
  well_formed pb -> binary_bounds pb -> unit_coefficients pb -> linear_objective pb -> (forall y, fits_int y pb) -> (exists y, solution y pb) ->
  (List.length (v_values (p_vars pb)) < pfuel)%nat ->
  (forall q v, preprocess pfuel pb = Ok (Some q) -> (v < List.length (v_values (p_vars q)))%nat -> exists f, raw_costs q v = Some f) ->
  (forall q, preprocess pfuel pb = Ok (Some q) -> cost_defined (List.length (v_values (p_vars q))) (norm_costs q)) ->
  after <> [] -> pa_order pa <> co_pi_sign_change -> 0 <= pa_limit pa < Z.of_nat fuel ->
  exists r, user_solve fo ro std_sort ddiv random_optimizer raw_costs norm_costs pfuel fuel pp_all false false po pa after g pb = Finished (Ok r) /\
    (sr_status r = st_success \/ sr_status r = st_limit_reached).
Proof.
  intros F G fo ro std_sort ddiv H1 H2. intros ropt rc nc pfuel fuel po pa after g pb K1 K2 K3 K4 K5 K6 K7 K8 K9 K10 K11 K12.
  destruct (user_returns fo ro std_sort ddiv H1 H2 ropt rc nc pfuel fuel po pa after g pb K1 K2 K3 K4 K5 K6 K7 K8 K9 K10 K11 K12) as (r & A & B & _). eauto.
Qed.
Print Assumptions C134_solve_returns.

(** The same without preprocessing, where the objective function may be quadratic; each constraint has a variable. *)
Theorem C134_solve_returns_plain :
  forall (F G : Type) (fo : fops F) (ro : rops G) std_sort ddiv, permutes std_sort -> shuffles ro ->
  forall random_optimizer raw_costs norm_costs pfuel fuel po pa after (g : G) pb,
  well_formed pb -> unit_coefficients pb -> (forall c, In c (all_constraints pb) -> c_elements c <> []) ->
  (exists y, feasible y pb /\ fits_int y pb) ->
  (forall v, (v < List.length (v_values (p_vars pb)))%nat -> exists f, raw_costs (unpreprocess pb) v = Some f) ->
  cost_defined (List.length (v_values (p_vars pb))) (norm_costs (unpreprocess pb)) ->
  after <> [] -> pa_order pa <> co_pi_sign_change -> 0 <= pa_limit pa < Z.of_nat fuel ->
  exists r, user_solve fo ro std_sort ddiv random_optimizer raw_costs norm_costs pfuel fuel pp_none false false po pa after g pb = Finished (Ok r) /\
    (sr_status r = st_success \/ sr_status r = st_limit_reached).
Proof.
  intros F G fo ro std_sort ddiv H1 H2. intros ropt rc nc pfuel fuel po pa after g pb K1 K2 K3 K4 K5 K6 K7 K8 K9.
  destruct (plain_returns fo ro std_sort ddiv H1 H2 ropt rc nc pfuel fuel po pa after g pb K1 K2 K3 K4 K5 K6 K7 K8 K9) as (r & A & B & _). eauto.
Qed.
Print Assumptions C134_solve_returns_plain.

(** With C131: on independent constraints solve() returns, succeeds, and gives an optimal solution. Nothing is assumed of the run. *)
Theorem C134_separate_optimum_returned :
  forall (F G : Type) (fo : fops F) (ro : rops G) std_sort ddiv, permutes std_sort -> sorts std_sort -> shuffles ro -> ordered_floats fo -> never_mutates ro ->
  forall random_optimizer raw_costs norm_costs pfuel fuel po pa after (g : G) pb zero,
  well_formed pb -> binary_bounds pb -> separate pb -> unit_coefficients pb -> linear_objective pb -> (forall y, fits_int y pb) -> (exists y, solution y pb) ->
  (List.length (v_values (p_vars pb)) < pfuel)%nat -> zeros fo (pa_theta pa) zero ->
  (forall q, preprocess pfuel pb = Ok (Some q) -> scaled_costs fo (p_objective q) (List.length (v_values (p_vars q))) (norm_costs q)) ->
  (forall q, preprocess pfuel pb = Ok (Some q) -> scaled_costs fo (p_objective q) (List.length (v_values (p_vars q))) (fun v _ => raw_costs q v)) ->
  after <> [] -> violated_order (pa_order pa) -> pa_init pa = ip_bastert -> 0 < pa_limit pa < Z.of_nat fuel ->
  exists r x z, user_solve fo ro std_sort ddiv random_optimizer raw_costs norm_costs pfuel fuel pp_all false false po pa after g pb = Finished (Ok r) /\
    sr_status r = st_success /\ sr_solutions r = [(x, Some z)] /\ is_optimum pb z /\ (exists X, reports r x X pb) /\
    forall X, reports r x X pb -> solution X pb /\ objective_value X (p_objective pb) = z.
Proof.
  intros F G fo ro std_sort ddiv Hp Hs Hsh Hof Hn. intros * Hwf Hb Hsep Hu Hl Hf Hsol Hpf Hz Hnc Hc0 Ha Hvo Hini Hlim.
  destruct (C13_preprocess_terminates_partial pb Hwf Hsol Hl) as [q Hq]. specialize (Hq pfuel Hpf).
  destruct (C134_solve_returns F G fo ro std_sort ddiv Hp Hsh random_optimizer raw_costs norm_costs pfuel fuel po pa after g pb) as (r & Hr & _); auto.
  - intros q' v Hq' Hv. destruct (Hc0 q' Hq') as (sc & _ & Hsc). destruct (Hsc v (repeat false (List.length (v_values (p_vars q')))) Hv (repeat_length _ _)) as (f & Ef & _). eauto.
  - intros q' Hq' v x Hv Hx. destruct (Hnc q' Hq') as (sc & _ & Hsc). destruct (Hsc v x Hv Hx) as (f & Ef & _). eauto.
  - intros E. rewrite E in Hvo. destruct Hvo. contradiction.
  - lia.
  - destruct (C131_separate_optimum F G fo ro std_sort ddiv Hp Hs Hsh Hof Hn random_optimizer raw_costs norm_costs pfuel fuel false po pa after g pb q r zero) as [St (x & z & E & O)];
      auto; [lia|]. exists r, x, z. auto.
Qed.
Print Assumptions C134_separate_optimum_returned.

(** The same without preprocessing. *)
Theorem C134_separate_optimum_returned_plain :
  forall (F G : Type) (fo : fops F) (ro : rops G) std_sort ddiv, permutes std_sort -> sorts std_sort -> shuffles ro -> ordered_floats fo -> never_mutates ro ->
  forall random_optimizer raw_costs norm_costs pfuel fuel po pa after (g : G) pb zero,
  well_formed pb -> separate pb -> unit_coefficients pb -> linear_objective pb -> (forall c, In c (all_constraints pb) -> c_elements c <> []) ->
  (forall y, fits_int y pb) -> (exists y, feasible y pb) -> all_constraints pb <> [] -> v_values (p_vars pb) <> [] ->
  zeros fo (pa_theta pa) zero -> scaled_costs fo (p_objective pb) (List.length (v_values (p_vars pb))) (norm_costs (unpreprocess pb)) ->
  scaled_costs fo (p_objective pb) (List.length (v_values (p_vars pb))) (fun v _ => raw_costs (unpreprocess pb) v) ->
  after <> [] -> violated_order (pa_order pa) -> pa_init pa = ip_bastert -> 0 < pa_limit pa < Z.of_nat fuel ->
  exists r x, user_solve fo ro std_sort ddiv random_optimizer raw_costs norm_costs pfuel fuel pp_none false false po pa after g pb = Finished (Ok r) /\
    sr_status r = st_success /\ sr_solutions r = [(x, Some (objective_value (as_assignment x) (p_objective pb)))] /\ feasible (as_assignment x) pb /\
    forall y, feasible y pb -> Preprocess_spec.no_worse (p_type pb) (objective_value (as_assignment x) (p_objective pb)) (objective_value y (p_objective pb)).
Proof.
  intros F G fo ro std_sort ddiv Hp Hs Hsh Hof Hn. intros * Hwf Hsep Hu Hl Hne Hf [y Hy] Hcs Hvs Hz Hnc Hc0 Ha Hvo Hini Hlim.
  destruct (C134_solve_returns_plain F G fo ro std_sort ddiv Hp Hsh random_optimizer raw_costs norm_costs pfuel fuel po pa after g pb) as (r & Hr & _); auto.
  - exists y. auto.
  - intros v Hv. destruct Hc0 as (sc & _ & Hsc). destruct (Hsc v (repeat false (List.length (v_values (p_vars pb)))) Hv (repeat_length _ _)) as (f & Ef & _). eauto.
  - intros v x Hv Hx. destruct Hnc as (sc & _ & Hsc). destruct (Hsc v x Hv Hx) as (f & Ef & _). eauto.
  - intros E. rewrite E in Hvo. destruct Hvo. contradiction.
  - lia.
  - assert (Hlim' : pa_limit pa <> 0) by lia.
    destruct (C131_separate_optimum_plain F G fo ro std_sort ddiv Hp Hs Hsh Hof Hn random_optimizer raw_costs norm_costs pfuel fuel false po pa after g pb r zero Hwf Hsep Hu Hl Hf (ex_intro _ y Hy) Hcs Hvs Hz Hnc Hc0 Hvo Hini Hlim' Hr)
      as [St (x & E & _ & A & B)].
    exists r, x. auto.
Qed.
Print Assumptions C134_separate_optimum_returned_plain.

(** Concrete case: the problem of C131 (maximize, four constraints and a fixed variable), order infeasibility-decr, optimistic initial assignment, pushes. *)
Definition ret_params : sparams Z := mk_sparams Z 50 2 0 1 100 1 1 1 2 3 5 5 co_infeasibility_decr ip_optimistic_solve.
Example C134_case : well_formed ex_sep /\ binary_bounds ex_sep /\ unit_coefficients ex_sep /\ linear_objective ex_sep /\ (forall y, fits_int y ex_sep) /\
  (exists y, solution y ex_sep) /\
  exists r, user_solve ex_fops ex_rops insertion_sort Z.div (fun _ => Aborted) lin_costs (fun p v _ => lin_costs p v) 20 60 pp_all false false po_p2 ret_params
    [mk_rc 0 0 0%nat] tt ex_sep = Finished (Ok r) /\ (sr_status r = st_success \/ sr_status r = st_limit_reached).
Proof.
  assert (W : well_formed ex_sep) by (apply wf_check_ok; vm_compute; reflexivity).
  assert (B : binary_bounds ex_sep).
  { intros v Hv. vm_compute in Hv. repeat (destruct Hv as [<-|Hv]); try contradiction; cbn; lia. }
  split; [exact W|]. split; [exact B|]. split; [exact ex_sep_unit|]. split; [reflexivity|]. split; [exact ex_sep_fits|]. split; [exact (ex_intro (fun y => solution y ex_sep) _ ex_sep_solution)|].
  apply C134_solve_returns; auto using ex_sort_permutes, ex_shuffles, ex_sep_unit, ex_sep_fits; try discriminate; try reflexivity.
  - exact (ex_intro (fun y => solution y ex_sep) _ ex_sep_solution).
  - cbn. lia.
  - intros q v _ _. eexists. reflexivity.
  - intros q _ v x _ _. eexists. reflexivity.
  - cbn. lia.
Qed.
(** The hypotheses of C134_separate_optimum_returned hold of the same problem with the parameters of C131. *)
Example C134_case_optimum : exists r x z,
  user_solve ex_fops ex_rops insertion_sort Z.div (fun _ => Aborted) lin_costs (fun p v _ => lin_costs p v) 20 60 pp_all false false po_p1 sep_params
    [mk_rc 0 0 0%nat] tt ex_sep = Finished (Ok r) /\ sr_solutions r = [(x, Some z)] /\ is_optimum ex_sep z.
Proof.
  destruct C134_case as (W & B & U & L & Hf & Hs & _).
  destruct (C134_separate_optimum_returned Z unit ex_fops ex_rops insertion_sort Z.div ex_sort_permutes insertion_sort_sorts ex_shuffles ex_ordered (fun g => eq_refl)
    (fun _ => Aborted) lin_costs (fun p v _ => lin_costs p v) 20%nat 60%nat po_p1 sep_params [mk_rc 0 0 0%nat] tt ex_sep (fun z => z = 0) W B ex_sep_separate U L Hf Hs)
    as (r & x & z & H1 & _ & H2 & H3 & _).
  - cbn. lia.
  - exact ex_zeros.
  - intros q _. apply ex_scaled.
  - intros q _. apply ex_scaled.
  - discriminate.
  - split; discriminate.
  - reflexivity.
  - cbn. lia.
  - exists r, x, z. auto.
Qed.

Example C134_case_optimum_plain : exists r x,
  user_solve ex_fops ex_rops insertion_sort Z.div (fun _ => Aborted) lin_costs (fun p v _ => lin_costs p v) 20 60 pp_none false false po_p1 sep_params
    [mk_rc 0 0 0%nat] tt ex_sep = Finished (Ok r) /\ sr_solutions r = [(x, Some (objective_value (as_assignment x) (p_objective ex_sep)))] /\
    forall y, feasible y ex_sep -> objective_value y (p_objective ex_sep) <= objective_value (as_assignment x) (p_objective ex_sep).
Proof.
  destruct C134_case as (W & B & U & L & Hf & Hs & _).
  destruct (C134_separate_optimum_returned_plain Z unit ex_fops ex_rops insertion_sort Z.div ex_sort_permutes insertion_sort_sorts ex_shuffles ex_ordered (fun g => eq_refl)
    (fun _ => Aborted) lin_costs (fun p v _ => lin_costs p v) 20%nat 60%nat po_p1 sep_params [mk_rc 0 0 0%nat] tt ex_sep (fun z => z = 0) W ex_sep_separate U L)
    as (r & x & H1 & _ & H2 & _ & H3).
  - intros c Hc. cbn in Hc. repeat (destruct Hc as [<-|Hc]); try contradiction; discriminate.
  - exact Hf.
  - exact (ex_intro (fun y => feasible y ex_sep) _ (proj1 ex_sep_solution)).
  - discriminate.
  - discriminate.
  - exact ex_zeros.
  - apply (ex_scaled (unpreprocess ex_sep)).
  - apply (ex_scaled (unpreprocess ex_sep)).
  - discriminate.
  - split; discriminate.
  - reflexivity.
  - cbn. lia.
  - exists r, x. split; [exact H1|]. split; [exact H2|]. intros y Hy. specialize (H3 y Hy). cbn [ex_sep p_type Preprocess_spec.no_worse] in H3. lia.
Qed.

(** C61 is false of the code with the order pi-sign-change: the list of the rows to visit is numbered by the variables, so that solve() reads a row
    that does not exist at its first sweep. For every problem with a solution and more variables than constraints, and whatever the other
    parameters, the floats and the random draws. *)
Theorem C61_pi_sign_change_refuted :
  forall (F G : Type) (fo : fops F) (ro : rops G) std_sort ddiv, permutes std_sort -> shuffles ro ->
  forall random_optimizer raw_costs norm_costs pfuel fuel buffered po pa after (g : G) pb,
  well_formed pb -> (forall c, In c (all_constraints pb) -> c_elements c <> []) -> (exists y, feasible y pb /\ fits_int y pb) ->
  all_constraints pb <> [] -> (List.length (all_constraints pb) < List.length (v_values (p_vars pb)))%nat ->
  pa_order pa = co_pi_sign_change -> pa_limit pa <> 0 -> (0 < fuel)%nat ->
  user_solve fo ro std_sort ddiv random_optimizer raw_costs norm_costs pfuel fuel pp_none false buffered po pa after g pb = Aborted.
Proof. intros F G fo ro std_sort ddiv H1 H2. intros *. apply plain_pi_sign; assumption. Qed.
Print Assumptions C61_pi_sign_change_refuted.
Example C61_pi_sign_change_case : well_formed ex_sep /\ (forall c, In c (all_constraints ex_sep) -> c_elements c <> []) /\
  (exists y, feasible y ex_sep /\ fits_int y ex_sep) /\ all_constraints ex_sep <> [] /\ (List.length (all_constraints ex_sep) < List.length (v_values (p_vars ex_sep)))%nat.
Proof.
  split; [apply C134_case|]. split; [intros c Hc; vm_compute in Hc; repeat (destruct Hc as [<-|Hc]); try contradiction; discriminate|].
  split; [eexists; split; [exact (proj1 ex_sep_solution)|apply ex_sep_fits]|]. split; [discriminate|]. cbn. lia.
Qed.
