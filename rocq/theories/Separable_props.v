(** C131: problems whose constraints share no variable. *)
From Coq Require Import String.
From Verif Require Import Base Problem_model Problem_spec Merged_model Merged_spec Classify_model Preprocess_model Preprocess_spec Preprocess_props
  Validate_model Params_model Rows_model Rows_spec Rows_props Merged_proofs Greedy_spec Greedy_props Cost_spec Solver_model Solver_spec Solver_props
  EndToEnd_model EndToEnd_spec Push_spec Push_props Separable_spec Separable_proofs4.
Open Scope Z_scope.
Open Scope list_scope.

(** C131. Constraints that share no variable (or are bounds of the same left-hand side), coefficients 1 and -1, a linear objective function: when
    the problem has a solution, solve() with preprocessing finds one, and it is optimal. The initial assignment is that of the costs (bastert,
    without mutation), the order of the constraints is any but pi-sign-change and cycle, at least one iteration; kappa, delta, theta, alpha, w,
    the pre-ordering, the pushes and the random numbers are any. The floats compare, and the costs keep the order of the coefficients. *)
Theorem C131_separate_optimum :
  forall (F G : Type) (fo : fops F) (ro : rops G) std_sort ddiv, permutes std_sort -> sorts std_sort -> shuffles ro -> ordered_floats fo -> never_mutates ro ->
  forall random_optimizer raw_costs norm_costs pfuel fuel buffered po pa after (g : G) pb q r zero,
  well_formed pb -> binary_bounds pb -> separate pb -> unit_coefficients pb -> linear_objective pb -> (forall y, fits_int y pb) -> (exists y, solution y pb) ->
  preprocess pfuel pb = Ok (Some q) ->
  zeros fo (pa_theta pa) zero -> scaled_costs fo (p_objective q) (List.length (v_values (p_vars q))) (norm_costs q) ->
  scaled_costs fo (p_objective q) (List.length (v_values (p_vars q))) (fun v _ => raw_costs q v) ->
  violated_order (pa_order pa) -> pa_init pa = ip_bastert -> pa_limit pa <> 0 ->
  user_solve fo ro std_sort ddiv random_optimizer raw_costs norm_costs pfuel fuel pp_all false buffered po pa after g pb = Finished (Ok r) ->
  sr_status r = st_success /\ exists x z, sr_solutions r = [(x, Some z)] /\ is_optimum pb z /\ (exists X, reports r x X pb) /\
    forall X, reports r x X pb -> solution X pb /\ objective_value X (p_objective pb) = z.
Proof. intros F G fo ro std_sort ddiv H1 H2 H3 H4 H5. intros *. eapply user_separate; eassumption. Qed.
Print Assumptions C131_separate_optimum.

(** The same without preprocessing, among all the 0/1 assignments. *)
Theorem C131_separate_optimum_plain :
  forall (F G : Type) (fo : fops F) (ro : rops G) std_sort ddiv, permutes std_sort -> sorts std_sort -> shuffles ro -> ordered_floats fo -> never_mutates ro ->
  forall random_optimizer raw_costs norm_costs pfuel fuel buffered po pa after (g : G) pb r zero,
  well_formed pb -> separate pb -> unit_coefficients pb -> linear_objective pb -> (forall y, fits_int y pb) -> (exists y, feasible y pb) ->
  all_constraints pb <> [] -> v_values (p_vars pb) <> [] ->
  zeros fo (pa_theta pa) zero -> scaled_costs fo (p_objective pb) (List.length (v_values (p_vars pb))) (norm_costs (unpreprocess pb)) ->
  scaled_costs fo (p_objective pb) (List.length (v_values (p_vars pb))) (fun v _ => raw_costs (unpreprocess pb) v) ->
  violated_order (pa_order pa) -> pa_init pa = ip_bastert -> pa_limit pa <> 0 ->
  user_solve fo ro std_sort ddiv random_optimizer raw_costs norm_costs pfuel fuel pp_none false buffered po pa after g pb = Finished (Ok r) ->
  sr_status r = st_success /\ exists x, sr_solutions r = [(x, Some (objective_value (as_assignment x) (p_objective pb)))] /\
    List.length x = List.length (v_values (p_vars pb)) /\ feasible (as_assignment x) pb /\
    forall y, feasible y pb -> Preprocess_spec.no_worse (p_type pb) (objective_value (as_assignment x) (p_objective pb)) (objective_value y (p_objective pb)).
Proof. intros F G fo ro std_sort ddiv H1 H2 H3 H4 H5. intros *. eapply plain_separate; eassumption. Qed.
Print Assumptions C131_separate_optimum_plain.

(** Concrete case: maximize 10 + 3a - b + 2c - 4d + 5e - 2f - 5g + 7i with a + b + c <= 2, a + b + c >= 2, d - e - f = 0, g + h + i >= 2,
    and i fixed to 1 by its bounds. *)
Definition ex_sep : problem :=
  let lhs := [mk_felem 1 0; mk_felem 1 1; mk_felem 1 2] in
  mk_problem (mk_objective [mk_oelem 3 0; mk_oelem (-1) 1; mk_oelem 2 2; mk_oelem (-4) 3; mk_oelem 5 4; mk_oelem (-2) 5; mk_oelem (-5) 6; mk_oelem 7 8] [] 10)
    [mk_constraint (str "u") [mk_felem 1 3; mk_felem (-1) 4; mk_felem (-1) 5] 0 0]
    [mk_constraint (str "v") lhs 2 1; mk_constraint (str "w") [mk_felem 1 6; mk_felem 1 7; mk_felem 1 8] 2 2] [mk_constraint (str "z") lhs 2 3]
    (mk_variables [str "a"; str "b"; str "c"; str "d"; str "e"; str "f"; str "g"; str "h"; str "i"] (repeat (mk_variable_value 0 1 vt_binary) 8 ++ [mk_variable_value 1 1 vt_binary]))
    (mk_affected [] []) maximize inequalities_101.
Definition lin_costs (p : problem) (v : nat) : option Z := Some (linear_coef (p_objective p) v).
Definition sep_params : sparams Z := mk_sparams Z 50 0 0 1 100 0 1 1 1 1 5 5 co_reversing ip_bastert.
Notation ex_sep_solve pp :=
  (user_solve ex_fops ex_rops insertion_sort Z.div (fun _ => Aborted) lin_costs (fun p v _ => lin_costs p v) 20%nat 60%nat pp false false po_p1 sep_params [mk_rc 0 0 0%nat] tt ex_sep).
Lemma ex_zeros : zeros ex_fops (pa_theta sep_params) (fun z => z = 0).
Proof. split; cbn; intros; subst; try reflexivity; try lia. intros y. cbn. rewrite Z.sub_0_r. auto. Qed.
Lemma ex_scales : scales ex_fops (fun z => z).
Proof.
  split; [reflexivity|intros y; auto|]. intros f a Hf. assert (f = a).
  { destruct (Hf a) as [H1 H2]. cbn in *. rewrite Z.ltb_irrefl in H1, H2. apply Z.ltb_ge in H1, H2. lia. }
  subst. intros y. auto.
Qed.
Lemma ex_scaled p n : scaled_costs ex_fops (p_objective p) n (fun v _ => lin_costs p v).
Proof. exists (fun z => z). split; [exact ex_scales|]. intros v x _ _. eexists. split; [reflexivity|]. intros y. auto. Qed.
Lemma ex_sep_separate : separate ex_sep.
Proof.
  intros c c' e e' Hc Hc' He He' Hv. cbn in Hc, Hc'.
  repeat (destruct Hc as [<-|Hc]); try contradiction; repeat (destruct Hc' as [<-|Hc']); try contradiction; try reflexivity;
    cbn in He, He'; intuition (subst; cbn in *; discriminate).
Qed.
Lemma ex_sep_unit : unit_coefficients ex_sep.
Proof. intros c e Hc He. cbn in Hc. repeat (destruct Hc as [<-|Hc]); try contradiction; cbn in He; intuition (subst; auto). Qed.
Lemma ex_sep_fits y : fits_int y ex_sep.
Proof.
  intros c Hc. cbn in Hc. repeat (destruct Hc as [<-|Hc]); try contradiction; cbn [c_elements lhs f_var f_factor];
    repeat match goal with |- context [y ?k] => destruct (y k) end; vm_compute; split; discriminate.
Qed.
Lemma ex_sep_solution : solution (as_assignment [true; false; true; true; true; false; false; true; true]) ex_sep.
Proof.
  split.
  - split; [|split]; intros c Hc; cbn in Hc; repeat (destruct Hc as [<-|Hc]); try contradiction; vm_compute; try reflexivity; discriminate.
  - intros i v Hi. do 9 (destruct i as [|i]; [injection Hi as <-; vm_compute; split; discriminate|]). destruct i; discriminate.
Qed.
Example C131_case : exists q r,
  well_formed ex_sep /\ binary_bounds ex_sep /\ preprocess 20 ex_sep = Ok (Some q) /\ a_names (p_affected q) = [str "i"] /\
  ex_sep_solve pp_all = Finished (Ok r) /\ sr_solutions r = [([true; false; true; true; true; false; false; true], Some 23)] /\ is_optimum ex_sep 23.
Proof.
  assert (W : well_formed ex_sep) by (apply wf_check_ok; vm_compute; reflexivity).
  assert (B : binary_bounds ex_sep).
  { intros v Hv. vm_compute in Hv. repeat (destruct Hv as [<-|Hv]); try contradiction; cbn; lia. }
  destruct (preprocess 20 ex_sep) as [[q|]| |] eqn:Eq; try (vm_compute in Eq; discriminate).
  assert (R : exists r, ex_sep_solve pp_all = Finished (Ok r) /\ sr_solutions r = [([true; false; true; true; true; false; false; true], Some 23)])
    by (eexists; split; [vm_compute; reflexivity|reflexivity]).
  destruct R as (r & Er & E).
  exists q, r. split; [exact W|]. split; [exact B|]. split; [reflexivity|].
  assert (A : a_names (p_affected q) = [str "i"]) by (vm_compute in Eq; injection Eq as <-; reflexivity). split; [exact A|]. split; [exact Er|].
  split; [exact E|].
  destruct (C131_separate_optimum Z unit ex_fops ex_rops insertion_sort Z.div ex_sort_permutes insertion_sort_sorts ex_shuffles ex_ordered (fun g => eq_refl)
    (fun _ => Aborted) lin_costs (fun p v _ => lin_costs p v) 20%nat 60%nat false po_p1 sep_params [mk_rc 0 0 0%nat] tt ex_sep q r (fun z => z = 0) W B ex_sep_separate ex_sep_unit eq_refl ex_sep_fits (ex_intro (fun y => solution y ex_sep) _ ex_sep_solution) Eq
    ex_zeros (ex_scaled q _) (ex_scaled q _) ltac:(split; discriminate) eq_refl ltac:(discriminate) Er) as [_ (x & z & E' & O & _)].
  rewrite E in E'. injection E' as _ <-. exact O.
Qed.
Example C131_case_plain : exists r, ex_sep_solve pp_none = Finished (Ok r) /\ sr_status r = st_success /\
  forall y, feasible y ex_sep -> objective_value y (p_objective ex_sep) <= 23.
Proof.
  assert (W : well_formed ex_sep) by (apply wf_check_ok; vm_compute; reflexivity).
  destruct (ex_sep_solve pp_none) as [[r| |]| |] eqn:Er; try (vm_compute in Er; discriminate).
  exists r. split; [reflexivity|].
  pose proof Er as Er'.
  destruct (C131_separate_optimum_plain Z unit ex_fops ex_rops insertion_sort Z.div ex_sort_permutes insertion_sort_sorts ex_shuffles ex_ordered (fun g => eq_refl)
    (fun _ => Aborted) lin_costs (fun p v _ => lin_costs p v) 20%nat 60%nat false po_p1 sep_params [mk_rc 0 0 0%nat] tt ex_sep r (fun z => z = 0) W ex_sep_separate ex_sep_unit eq_refl ex_sep_fits (ex_intro (fun y => feasible y ex_sep) _ (proj1 ex_sep_solution)) ltac:(discriminate) ltac:(discriminate)
    ex_zeros (ex_scaled _ _) (ex_scaled _ _) ltac:(split; discriminate) eq_refl ltac:(discriminate) Er) as [S (x & E & _ & _ & O)].
  split; [exact S|]. intros y Hy. specialize (O y Hy). cbn [ex_sep p_type Preprocess_spec.no_worse] in O.
  assert (V : objective_value (as_assignment x) (p_objective ex_sep) = 23) by (vm_compute in Er'; injection Er' as <-; cbn [sr_solutions] in E; injection E as <- _; reflexivity).
  lia.
Qed.

(** Sharing variables is enough to lose it: minimize 5x + y + 2z where each pair of variables has one set. All the other hypotheses hold; the
    answer of solve() is 6 and the optimum is 3. *)
Theorem C131_separate_needed :
  exists pb r, well_formed pb /\ binary_bounds pb /\ unit_coefficients pb /\ linear_objective pb /\ (forall y, fits_int y pb) /\
    user_solve ex_fops ex_rops insertion_sort Z.div (fun _ => Aborted) lin_costs (fun p v _ => lin_costs p v) 20 60 pp_all false false po_none
      (push_params co_none 1 1 0 0) [mk_rc 0 0 0%nat] tt pb = Finished (Ok r) /\
    sr_status r = st_success /\ (exists x, sr_solutions r = [(x, Some 6)]) /\ exists y, solution y pb /\ objective_value y (p_objective pb) = 3.
Proof.
  exists (ex_cover [5; 1; 2]).
  destruct (user_solve ex_fops ex_rops insertion_sort Z.div (fun _ => Aborted) lin_costs (fun p v _ => lin_costs p v) 20 60 pp_all false false po_none
      (push_params co_none 1 1 0 0) [mk_rc 0 0 0%nat] tt (ex_cover [5; 1; 2])) as [[r| |]| |] eqn:Er; try (vm_compute in Er; discriminate).
  exists r. split; [apply wf_check_ok; vm_compute; reflexivity|]. split.
  { intros v Hv. vm_compute in Hv. repeat (destruct Hv as [<-|Hv]); try contradiction; cbn; lia. }
  split. { intros c e Hc He. cbn in Hc. repeat (destruct Hc as [<-|Hc]); try contradiction; cbn in He; intuition (subst; auto). }
  split; [reflexivity|]. split.
  { intros y c Hc. cbn in Hc. repeat (destruct Hc as [<-|Hc]); try contradiction; cbn [c_elements lhs f_var f_factor];
      repeat match goal with |- context [y ?k] => destruct (y k) end; vm_compute; split; discriminate. }
  split; [reflexivity|].
  assert (E : sr_status r = st_success /\ exists x, sr_solutions r = [(x, Some 6)]) by (vm_compute in Er; injection Er as <-; split; [reflexivity|eexists; reflexivity]).
  split; [apply E|]. split; [apply E|]. exists (as_assignment [false; true; true]). split; [exact ex_cover_solution|reflexivity].
Qed.
Print Assumptions C131_separate_needed.
