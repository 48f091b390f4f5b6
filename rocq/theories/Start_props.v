(** C165: runs that start from a solution of the constraints. *)
From Coq Require Import String.
From Verif Require Import Base Problem_model Problem_spec Merged_model Merged_spec Classify_model Preprocess_model Preprocess_spec Preprocess_props
  Validate_model Params_model Rows_model Rows_spec Rows_props Merged_proofs Greedy_spec Greedy_props Cost_spec Solver_model Solver_spec Solver_props
  EndToEnd_model EndToEnd_spec Push_spec Push_props Separable_spec Separable_props Returns_proofs Returns_props Initial_spec Start_proofs.
Open Scope Z_scope.
Open Scope list_scope.

(** C165. Constraints that share no variable (or are bounds of the same left-hand side), all coefficients 1: when some assignment satisfies them,
    solve() without preprocessing, with the starts pessimistic-solve or optimistic-solve (and init-policy-random 0), succeeds. It reports one
    solution, which satisfies the constraints, with its value. The objective function is any, quadratic included; so are kappa, delta, theta, alpha,
    w, the costs, the pre-ordering, the pushes and the random numbers. The order of the constraints is any but pi-sign-change and cycle. *)
Theorem C165_start_answers :
  forall (F G : Type) (fo : fops F) (ro : rops G) std_sort ddiv, permutes std_sort -> sorts std_sort -> shuffles ro -> weak_order (fl_lt fo) -> never_mutates ro ->
  forall random_optimizer raw_costs norm_costs pfuel fuel buffered po pa after (g : G) pb r,
  well_formed pb -> separate pb -> sums_of_variables pb -> (forall y, fits_int y pb) -> (exists y, feasible y pb) ->
  all_constraints pb <> [] -> v_values (p_vars pb) <> [] ->
  violated_order (pa_order pa) -> pa_init pa <> ip_bastert -> pa_limit pa <> 0 ->
  user_solve fo ro std_sort ddiv random_optimizer raw_costs norm_costs pfuel fuel pp_none false buffered po pa after g pb = Finished (Ok r) ->
  sr_status r = st_success /\ exists x, sr_solutions r = [(x, Some (objective_value (as_assignment x) (p_objective pb)))] /\
    List.length x = List.length (v_values (p_vars pb)) /\ feasible (as_assignment x) pb.
Proof.
  intros F G fo ro std_sort ddiv H1 H2 H3 H4 H5. intros * W S U I E N V O B L R.
  destruct (plain_presolved fo ro std_sort ddiv H1 H2 H3 H4 H5 _ _ _ _ _ _ _ _ _ _ _ _ W S U I E N V O B L R) as [A (x & C & D & K & _)]. eauto.
Qed.
Print Assumptions C165_start_answers.

(** With optimistic-solve, a linear objective function and every variable in a constraint, the solution is optimal. The costs only have to keep the
    order and the signs of the coefficients. *)
Theorem C165_optimistic_optimum_plain :
  forall (F G : Type) (fo : fops F) (ro : rops G) std_sort ddiv, permutes std_sort -> sorts std_sort -> shuffles ro -> weak_order (fl_lt fo) -> never_mutates ro ->
  forall random_optimizer raw_costs norm_costs pfuel fuel buffered po pa after (g : G) pb r,
  well_formed pb -> separate pb -> sums_of_variables pb -> linear_objective pb -> all_constrained pb -> (forall y, fits_int y pb) -> (exists y, feasible y pb) ->
  all_constraints pb <> [] -> v_values (p_vars pb) <> [] ->
  (forall v, (v < List.length (v_values (p_vars pb)))%nat -> exists a, raw_costs (unpreprocess pb) v = Some a) ->
  same_order fo (raw_costs (unpreprocess pb)) (linear_coef (p_objective pb)) ->
  violated_order (pa_order pa) -> pa_init pa = ip_optimistic_solve -> pa_limit pa <> 0 ->
  user_solve fo ro std_sort ddiv random_optimizer raw_costs norm_costs pfuel fuel pp_none false buffered po pa after g pb = Finished (Ok r) ->
  exists x, sr_solutions r = [(x, Some (objective_value (as_assignment x) (p_objective pb)))] /\ feasible (as_assignment x) pb /\
    forall y, feasible y pb -> Preprocess_spec.no_worse (p_type pb) (objective_value (as_assignment x) (p_objective pb)) (objective_value y (p_objective pb)).
Proof.
  intros F G fo ro std_sort ddiv H1 H2 H3 H4 H5. intros * W S U Li Al I E N V Co So O B L R.
  assert (B' : pa_init pa <> ip_bastert) by congruence.
  destruct (plain_presolved fo ro std_sort ddiv H1 H2 H3 H4 H5 _ _ _ _ _ _ _ _ _ _ _ _ W S U I E N V O B' L R) as [A (x & C & D & K & M)].
  exists x. split; [exact C|]. split; [exact K|]. apply M; assumption.
Qed.
Print Assumptions C165_optimistic_optimum_plain.

(** The same with preprocessing: the answer is a solution, variables fixed by the preprocessing included, and with optimistic-solve it is optimal. *)
Theorem C165_start_answers_preprocessed :
  forall (F G : Type) (fo : fops F) (ro : rops G) std_sort ddiv, permutes std_sort -> sorts std_sort -> shuffles ro -> weak_order (fl_lt fo) -> never_mutates ro ->
  forall random_optimizer raw_costs norm_costs pfuel fuel buffered po pa after (g : G) pb q r,
  well_formed pb -> binary_bounds pb -> separate pb -> sums_of_variables pb -> linear_objective pb -> (forall y, fits_int y pb) -> (exists y, solution y pb) ->
  preprocess pfuel pb = Ok (Some q) ->
  violated_order (pa_order pa) -> pa_init pa <> ip_bastert -> pa_limit pa <> 0 ->
  user_solve fo ro std_sort ddiv random_optimizer raw_costs norm_costs pfuel fuel pp_all false buffered po pa after g pb = Finished (Ok r) ->
  sr_status r = st_success /\ exists x z, sr_solutions r = [(x, Some z)] /\ (exists X, reports r x X pb) /\
    forall X, reports r x X pb -> solution X pb /\ objective_value X (p_objective pb) = z.
Proof.
  intros F G fo ro std_sort ddiv H1 H2 H3 H4 H5. intros * W B S U Li I E Q O B' L R.
  destruct (user_presolved fo ro std_sort ddiv H1 H2 H3 H4 H5 _ _ _ _ _ _ _ _ _ _ _ _ _ W B S U Li I E Q O B' L R) as [A (x & z & C & D & K & _)].
  split; [exact A|]. exists x, z. auto.
Qed.
Print Assumptions C165_start_answers_preprocessed.

Theorem C165_optimistic_optimum :
  forall (F G : Type) (fo : fops F) (ro : rops G) std_sort ddiv, permutes std_sort -> sorts std_sort -> shuffles ro -> weak_order (fl_lt fo) -> never_mutates ro ->
  forall random_optimizer raw_costs norm_costs pfuel fuel buffered po pa after (g : G) pb q r,
  well_formed pb -> binary_bounds pb -> separate pb -> sums_of_variables pb -> linear_objective pb -> (forall y, fits_int y pb) -> (exists y, solution y pb) ->
  preprocess pfuel pb = Ok (Some q) ->
  (forall v, (v < List.length (v_values (p_vars q)))%nat -> exists a, raw_costs q v = Some a) ->
  same_order fo (raw_costs q) (linear_coef (p_objective q)) ->
  violated_order (pa_order pa) -> pa_init pa = ip_optimistic_solve -> pa_limit pa <> 0 ->
  user_solve fo ro std_sort ddiv random_optimizer raw_costs norm_costs pfuel fuel pp_all false buffered po pa after g pb = Finished (Ok r) ->
  exists x z, sr_solutions r = [(x, Some z)] /\ is_optimum pb z.
Proof.
  intros F G fo ro std_sort ddiv H1 H2 H3 H4 H5. intros * W B S U Li I E Q Co So O B' L R.
  assert (B'' : pa_init pa <> ip_bastert) by congruence.
  destruct (user_presolved fo ro std_sort ddiv H1 H2 H3 H4 H5 _ _ _ _ _ _ _ _ _ _ _ _ _ W B S U Li I E Q O B'' L R) as [A (x & z & C & _ & _ & K)].
  exists x, z. split; [exact C|]. apply K; assumption.
Qed.
Print Assumptions C165_optimistic_optimum.

(** Concrete case: maximize 10 + 3a - b + 2c - 4d + 5e - 2f - 5g + 7i with 1 <= a + b + c <= 3, d + e + f >= 1, g + h + i >= 2, i fixed to 1. *)
Definition ex_start : problem :=
  let lhs := [mk_felem 1 0; mk_felem 1 1; mk_felem 1 2] in
  mk_problem (mk_objective [mk_oelem 3 0; mk_oelem (-1) 1; mk_oelem 2 2; mk_oelem (-4) 3; mk_oelem 5 4; mk_oelem (-2) 5; mk_oelem (-5) 6; mk_oelem 7 8] [] 10)
    [] [mk_constraint (str "v") lhs 1 1; mk_constraint (str "u") [mk_felem 1 3; mk_felem 1 4; mk_felem 1 5] 1 0; mk_constraint (str "w") [mk_felem 1 6; mk_felem 1 7; mk_felem 1 8] 2 2]
    [mk_constraint (str "z") lhs 3 3]
    (mk_variables [str "a"; str "b"; str "c"; str "d"; str "e"; str "f"; str "g"; str "h"; str "i"] (repeat (mk_variable_value 0 1 vt_binary) 8 ++ [mk_variable_value 1 1 vt_binary]))
    (mk_affected [] []) maximize inequalities_01.
Definition start_params (p : init_policy) : sparams Z := mk_sparams Z 50 0 0 1 100 0 1 1 1 1 5 5 co_reversing p.
Notation ex_start_solve ini pp :=
  (user_solve ex_fops ex_rops insertion_sort Z.div (fun _ => Aborted) lin_costs (fun p v _ => lin_costs p v) 20%nat 60%nat pp false false po_p1 (start_params ini) [mk_rc 0 0 0%nat] tt ex_start).
Lemma ex_start_separate : separate ex_start.
Proof.
  intros c c' e e' Hc Hc' He He' Hv. cbn in Hc, Hc'.
  repeat (destruct Hc as [<-|Hc]); try contradiction; repeat (destruct Hc' as [<-|Hc']); try contradiction; try reflexivity;
    cbn in He, He'; intuition (subst; cbn in *; discriminate).
Qed.
Lemma ex_start_ones : sums_of_variables ex_start.
Proof. intros c e Hc He. cbn in Hc. repeat (destruct Hc as [<-|Hc]); try contradiction; cbn in He; intuition (subst; auto). Qed.
Lemma ex_start_all : all_constrained ex_start.
Proof.
  intros v Hv. unfold all_constraints. cbn [ex_start p_equal p_greater p_less app].
  assert (K : (v < 3 \/ 3 <= v < 6 \/ 6 <= v < 9)%nat) by (cbn in Hv; lia).
  destruct K as [K|[K|K]]; [eexists; exists (mk_felem 1 v); split; [left; reflexivity|]|eexists; exists (mk_felem 1 v); split; [right; left; reflexivity|]
    |eexists; exists (mk_felem 1 v); split; [right; right; left; reflexivity|]]; (split; [|reflexivity]); cbn [c_elements];
    do 9 (destruct v as [|v]; [cbn; first [lia|tauto]|]); cbn in Hv; lia.
Qed.
Lemma ex_start_fits y : fits_int y ex_start.
Proof.
  intros c Hc. cbn in Hc. repeat (destruct Hc as [<-|Hc]); try contradiction; cbn [c_elements lhs f_var f_factor];
    repeat match goal with |- context [y ?k] => destruct (y k) end; vm_compute; split; discriminate.
Qed.
Lemma ex_start_solution : solution (as_assignment [true; false; true; true; true; false; false; true; true]) ex_start.
Proof.
  split.
  - split; [|split]; intros c Hc; cbn in Hc; repeat (destruct Hc as [<-|Hc]); try contradiction; vm_compute; try reflexivity; discriminate.
  - intros i v Hi. do 9 (destruct i as [|i]; [injection Hi as <-; vm_compute; split; discriminate|]). destruct i; discriminate.
Qed.
Lemma ex_same p : same_order ex_fops (lin_costs p) (linear_coef (p_objective p)).
Proof. intros u v a b Hu Hv. injection Hu as <-. injection Hv as <-. cbn [ex_fops fl_lt fl_of_Z]. rewrite !Z.ltb_lt. tauto. Qed.
Lemma ex_weak : weak_order (fl_lt ex_fops).
Proof. repeat split; cbn; intros; lia. Qed.
Lemma ex_start_wf : well_formed ex_start.
Proof. apply wf_check_ok. vm_compute. reflexivity. Qed.
Lemma ex_start_bounds : binary_bounds ex_start.
Proof. intros v Hv. vm_compute in Hv. repeat (destruct Hv as [<-|Hv]); try contradiction; cbn; lia. Qed.
Example C165_case : exists q r,
  preprocess 20 ex_start = Ok (Some q) /\ a_names (p_affected q) = [str "i"] /\
  ex_start_solve ip_optimistic_solve pp_all = Finished (Ok r) /\ sr_solutions r = [([true; false; true; false; true; false; false; true], Some 27)] /\ is_optimum ex_start 27.
Proof.
  destruct (preprocess 20 ex_start) as [[q|]| |] eqn:Eq; try (vm_compute in Eq; discriminate).
  assert (R : exists r, ex_start_solve ip_optimistic_solve pp_all = Finished (Ok r) /\ sr_solutions r = [([true; false; true; false; true; false; false; true], Some 27)])
    by (eexists; split; [vm_compute; reflexivity|reflexivity]).
  destruct R as (r & Er & E). exists q, r. split; [reflexivity|].
  assert (A : a_names (p_affected q) = [str "i"]) by (vm_compute in Eq; injection Eq as <-; reflexivity). split; [exact A|]. split; [exact Er|].
  split; [exact E|].
  destruct (C165_optimistic_optimum Z unit ex_fops ex_rops insertion_sort Z.div ex_sort_permutes insertion_sort_sorts ex_shuffles ex_weak (fun g => eq_refl)
    (fun _ => Aborted) lin_costs (fun p v _ => lin_costs p v) 20%nat 60%nat false po_p1 (start_params ip_optimistic_solve) [mk_rc 0 0 0%nat] tt ex_start q r ex_start_wf ex_start_bounds ex_start_separate ex_start_ones eq_refl ex_start_fits (ex_intro (fun y => solution y ex_start) _ ex_start_solution) Eq
    (fun v _ => ex_intro _ _ eq_refl) (ex_same q) ltac:(split; discriminate) eq_refl ltac:(discriminate) Er) as (x & z & E' & O).
  rewrite E in E'. injection E' as _ <-. exact O.
Qed.
Example C165_case_plain : exists r, ex_start_solve ip_optimistic_solve pp_none = Finished (Ok r) /\
  forall y, feasible y ex_start -> objective_value y (p_objective ex_start) <= 27.
Proof.
  destruct (ex_start_solve ip_optimistic_solve pp_none) as [[r| |]| |] eqn:Er; try (vm_compute in Er; discriminate).
  exists r. split; [reflexivity|]. pose proof Er as Er'.
  destruct (C165_optimistic_optimum_plain Z unit ex_fops ex_rops insertion_sort Z.div ex_sort_permutes insertion_sort_sorts ex_shuffles ex_weak (fun g => eq_refl)
    (fun _ => Aborted) lin_costs (fun p v _ => lin_costs p v) 20%nat 60%nat false po_p1 (start_params ip_optimistic_solve) [mk_rc 0 0 0%nat] tt ex_start r ex_start_wf ex_start_separate ex_start_ones eq_refl ex_start_all ex_start_fits (ex_intro (fun y => feasible y ex_start) _ (proj1 ex_start_solution)) ltac:(discriminate) ltac:(discriminate)
    (fun v _ => ex_intro _ _ eq_refl) (ex_same (unpreprocess ex_start)) ltac:(split; discriminate) eq_refl ltac:(discriminate) Er) as (x & E & _ & O).
  intros y Hy. specialize (O y Hy). cbn [ex_start p_type Preprocess_spec.no_worse] in O.
  assert (V : objective_value (as_assignment x) (p_objective ex_start) = 27) by (vm_compute in Er'; injection Er' as <-; cbn [sr_solutions] in E; injection E as <- _; reflexivity).
  lia.
Qed.

(** With pessimistic-solve the solution need not be optimal: on the same problem, all the hypotheses above hold, solve() stops at 25 and 27 is the
    optimum. *)
Theorem C165_pessimistic_may_miss :
  exists pb r, well_formed pb /\ binary_bounds pb /\ separate pb /\ sums_of_variables pb /\ linear_objective pb /\ all_constrained pb /\
    (forall y, fits_int y pb) /\ violated_order (pa_order (start_params ip_pessimistic_solve)) /\
    user_solve ex_fops ex_rops insertion_sort Z.div (fun _ => Aborted) lin_costs (fun p v _ => lin_costs p v) 20 60 pp_all false false po_p1
      (start_params ip_pessimistic_solve) [mk_rc 0 0 0%nat] tt pb = Finished (Ok r) /\
    sr_status r = st_success /\ (exists x, sr_solutions r = [(x, Some 25)]) /\ is_optimum pb 27.
Proof.
  exists ex_start. destruct C165_case as (q & r0 & _ & _ & _ & _ & O).
  assert (R : exists r, ex_start_solve ip_pessimistic_solve pp_all = Finished (Ok r) /\ sr_status r = st_success /\ exists x, sr_solutions r = [(x, Some 25)])
    by (eexists; split; [vm_compute; reflexivity|split; [reflexivity|eexists; reflexivity]]).
  destruct R as (r & Er & A & B). exists r. split; [exact ex_start_wf|]. split; [exact ex_start_bounds|]. split; [exact ex_start_separate|].
  split; [exact ex_start_ones|]. split; [reflexivity|]. split; [exact ex_start_all|]. split; [exact ex_start_fits|]. split; [split; discriminate|].
  split; [exact Er|]. auto.
Qed.
Print Assumptions C165_pessimistic_may_miss.

(** The run is not a hypothesis: with a positive limit and costs for every variable, solve() returns these answers. *)
Theorem C165_optimum_returned :
  forall (F G : Type) (fo : fops F) (ro : rops G) std_sort ddiv, permutes std_sort -> sorts std_sort -> shuffles ro -> weak_order (fl_lt fo) -> never_mutates ro ->
  forall random_optimizer raw_costs norm_costs pfuel fuel po pa after (g : G) pb,
  well_formed pb -> binary_bounds pb -> separate pb -> sums_of_variables pb -> linear_objective pb -> (forall y, fits_int y pb) -> (exists y, solution y pb) ->
  (List.length (v_values (p_vars pb)) < pfuel)%nat ->
  (forall q v, preprocess pfuel pb = Ok (Some q) -> (v < List.length (v_values (p_vars q)))%nat -> exists f, raw_costs q v = Some f) ->
  (forall q, preprocess pfuel pb = Ok (Some q) -> same_order fo (raw_costs q) (linear_coef (p_objective q))) ->
  (forall q, preprocess pfuel pb = Ok (Some q) -> cost_defined (List.length (v_values (p_vars q))) (norm_costs q)) ->
  after <> [] -> violated_order (pa_order pa) -> pa_init pa = ip_optimistic_solve -> 0 < pa_limit pa < Z.of_nat fuel ->
  exists r x z, user_solve fo ro std_sort ddiv random_optimizer raw_costs norm_costs pfuel fuel pp_all false false po pa after g pb = Finished (Ok r) /\
    sr_status r = st_success /\ sr_solutions r = [(x, Some z)] /\ is_optimum pb z /\ (exists X, reports r x X pb) /\
    forall X, reports r x X pb -> solution X pb /\ objective_value X (p_objective pb) = z.
Proof.
  intros F G fo ro std_sort ddiv Hp Hs Hsh Hof Hn. intros * Hwf Hb Hsep Hu Hl Hf Hsol Hpf Hc0 Hso Hnc Ha Hvo Hini Hlim.
  destruct (C13_preprocess_terminates_partial pb Hwf Hsol Hl) as [q Hq]. specialize (Hq pfuel Hpf).
  destruct (C134_solve_returns F G fo ro std_sort ddiv Hp Hsh random_optimizer raw_costs norm_costs pfuel fuel po pa after g pb) as (r & Hr & _); auto.
  - intros c e Hc He. left. exact (Hu c e Hc He).
  - intros E. rewrite E in Hvo. destruct Hvo. contradiction.
  - lia.
  - assert (Hini' : pa_init pa <> ip_bastert) by congruence. assert (Hlim' : pa_limit pa <> 0) by lia.
    destruct (C165_start_answers_preprocessed F G fo ro std_sort ddiv Hp Hs Hsh Hof Hn random_optimizer raw_costs norm_costs pfuel fuel false po pa after g pb q r Hwf Hb Hsep Hu Hl Hf Hsol Hq Hvo Hini' Hlim' Hr)
      as [St (x & z & E & A & B)].
    destruct (C165_optimistic_optimum F G fo ro std_sort ddiv Hp Hs Hsh Hof Hn random_optimizer raw_costs norm_costs pfuel fuel false po pa after g pb q r Hwf Hb Hsep Hu Hl Hf Hsol Hq (fun v => Hc0 q v Hq) (Hso q Hq) Hvo Hini Hlim' Hr)
      as (x' & z' & E' & O).
    rewrite E in E'. injection E' as <- <-. exists r, x, z. auto 10.
Qed.
Print Assumptions C165_optimum_returned.
Theorem C165_answer_returned_plain :
  forall (F G : Type) (fo : fops F) (ro : rops G) std_sort ddiv, permutes std_sort -> sorts std_sort -> shuffles ro -> weak_order (fl_lt fo) -> never_mutates ro ->
  forall random_optimizer raw_costs norm_costs pfuel fuel po pa after (g : G) pb,
  well_formed pb -> separate pb -> sums_of_variables pb -> (forall c, In c (all_constraints pb) -> c_elements c <> []) -> (forall y, fits_int y pb) -> (exists y, feasible y pb) ->
  all_constraints pb <> [] -> v_values (p_vars pb) <> [] ->
  (forall v, (v < List.length (v_values (p_vars pb)))%nat -> exists f, raw_costs (unpreprocess pb) v = Some f) ->
  cost_defined (List.length (v_values (p_vars pb))) (norm_costs (unpreprocess pb)) ->
  after <> [] -> violated_order (pa_order pa) -> pa_init pa <> ip_bastert -> 0 < pa_limit pa < Z.of_nat fuel ->
  exists r x, user_solve fo ro std_sort ddiv random_optimizer raw_costs norm_costs pfuel fuel pp_none false false po pa after g pb = Finished (Ok r) /\
    sr_status r = st_success /\ sr_solutions r = [(x, Some (objective_value (as_assignment x) (p_objective pb)))] /\
    List.length x = List.length (v_values (p_vars pb)) /\ feasible (as_assignment x) pb.
Proof.
  intros F G fo ro std_sort ddiv Hp Hs Hsh Hof Hn. intros * Hwf Hsep Hu Hne Hf [y Hy] Hcs Hvs Hc0 Hnc Ha Hvo Hini Hlim.
  destruct (C134_solve_returns_plain F G fo ro std_sort ddiv Hp Hsh random_optimizer raw_costs norm_costs pfuel fuel po pa after g pb) as (r & Hr & _); auto.
  - intros c e Hc He. left. exact (Hu c e Hc He).
  - exists y. auto.
  - intros E. rewrite E in Hvo. destruct Hvo. contradiction.
  - lia.
  - assert (Hlim' : pa_limit pa <> 0) by lia.
    destruct (C165_start_answers F G fo ro std_sort ddiv Hp Hs Hsh Hof Hn random_optimizer raw_costs norm_costs pfuel fuel false po pa after g pb r Hwf Hsep Hu Hf (ex_intro _ y Hy) Hcs Hvs Hvo Hini Hlim' Hr)
      as [St (x & E & A & B)].
    exists r, x. auto.
Qed.
Print Assumptions C165_answer_returned_plain.
Example C165_case_returned :
  (exists r x z, ex_start_solve ip_optimistic_solve pp_all = Finished (Ok r) /\ sr_solutions r = [(x, Some z)] /\ is_optimum ex_start z) /\
  exists r x, ex_start_solve ip_pessimistic_solve pp_none = Finished (Ok r) /\ sr_status r = st_success /\
    sr_solutions r = [(x, Some (objective_value (as_assignment x) (p_objective ex_start)))] /\ feasible (as_assignment x) ex_start.
Proof.
  split.
  - destruct (C165_optimum_returned Z unit ex_fops ex_rops insertion_sort Z.div ex_sort_permutes insertion_sort_sorts ex_shuffles ex_weak (fun g => eq_refl)
      (fun _ => Aborted) lin_costs (fun p v _ => lin_costs p v) 20%nat 60%nat po_p1 (start_params ip_optimistic_solve) [mk_rc 0 0 0%nat] tt ex_start
      ex_start_wf ex_start_bounds ex_start_separate ex_start_ones eq_refl ex_start_fits (ex_intro (fun y => solution y ex_start) _ ex_start_solution))
      as (r & x & z & H1 & _ & H2 & H3 & _).
    + cbn. lia.
    + intros q v _ _. eexists. reflexivity.
    + intros q _. apply ex_same.
    + intros q _ v x _ _. eexists. reflexivity.
    + discriminate.
    + split; discriminate.
    + reflexivity.
    + cbn. lia.
    + exists r, x, z. auto.
  - destruct (C165_answer_returned_plain Z unit ex_fops ex_rops insertion_sort Z.div ex_sort_permutes insertion_sort_sorts ex_shuffles ex_weak (fun g => eq_refl)
      (fun _ => Aborted) lin_costs (fun p v _ => lin_costs p v) 20%nat 60%nat po_p1 (start_params ip_pessimistic_solve) [mk_rc 0 0 0%nat] tt ex_start
      ex_start_wf ex_start_separate ex_start_ones) as (r & x & H1 & H2 & H3 & _ & H4).
    + intros c Hc. cbn in Hc. repeat (destruct Hc as [<-|Hc]); try contradiction; discriminate.
    + exact ex_start_fits.
    + exact (ex_intro (fun y => feasible y ex_start) _ (proj1 ex_start_solution)).
    + discriminate.
    + discriminate.
    + intros v _. eexists. reflexivity.
    + intros v x _ _. eexists. reflexivity.
    + discriminate.
    + split; discriminate.
    + discriminate.
    + cbn. lia.
    + exists r, x. auto.
Qed.
