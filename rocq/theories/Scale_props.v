(** C150: multiplying the objective by a positive number. *)
From Coq Require Import QArith Qabs String SpecFloat.
From Verif Require Import Base Problem_model Merged_model Merged_spec Classify_model Preprocess_model Validate_model Rows_model Rows_spec Rows_props
  Params_model Cost_model Solver_model Solver_spec Solver_props EndToEnd_model Push_props Budget_props Rewrite_spec Mirror_spec Mirror_proofs Mirror_props Delta_model Delta_spec
  Scale_spec Scale_proofs Scale_proofs2.
Open Scope Z_scope.
Open Scope list_scope.

(** C150. solve() on the objective times [sk] > 0 ends the same way, with the same status and the same solution, of [sk] times the value, when the costs that the
    solver uses and its delta are the ones of the first problem up to a positive factor. Coefficients 1 and -1 in the constraints, pre-orders that do not look at
    the costs; all the random numbers and clocks. *)
Theorem C150_scaling_partial :
  forall (sk : Z) (F G : Type) (fo : fops F) (ro : rops G) std_sort raw rel ddiv random_optimizer craw cnorm ok pfuel fuel pp po pa delta (g : G) pb,
  0 < sk -> scaling fo raw -> scaling fo rel -> sort_by_comparisons std_sort -> shuffle_by_draws ro -> scaled_costs sk ok raw rel craw cnorm -> kept ok -> terms_ok ok pb ->
  plain_pre_order po -> unit_coefficients pb -> even_qcosts pb -> rel (pa_delta pa) delta ->
  let solve pa := user_solve fo ro std_sort ddiv random_optimizer (by_terms craw) (by_terms cnorm) pfuel fuel pp false false po pa [] g in
  solve (with_delta pa delta) (scale_problem sk pb) = run_map (outcome_map (scale_result sk)) (solve pa pb).
Proof.
  intros until pb. intros Hk Hr Hs Hsort Hsh Ho Hkept Hok Hpo Hu He Hd. cbv zeta.
  apply (user_solve_scl sk Hk fo ro std_sort raw rel Hr Hs Hsort Hsh ddiv random_optimizer craw cnorm ok Ho Hkept); try assumption.
  repeat (split; [reflexivity|]). split; [exact Hd|]. repeat split.
Qed.
Print Assumptions C150_scaling_partial.

(** In exact arithmetic, the run of solve() for a norm of the costs. *)
Definition exact_solve {G} (ro : rops G) std_sort ddiv random_optimizer norm pfuel fuel pp po pa g pb :=
  user_solve exact_fops ro std_sort ddiv random_optimizer (by_terms q_raw) (by_terms (q_normal norm)) pfuel fuel pp false false po pa [] g pb.
(** The l1 norm: every problem, every delta. *)
Theorem C150_l1_partial :
  forall (sk : Z) (G : Type) (ro : rops G) std_sort ddiv random_optimizer pfuel fuel pp po pa (g : G) pb,
  0 < sk -> sort_by_comparisons std_sort -> shuffle_by_draws ro -> plain_pre_order po -> unit_coefficients pb -> even_qcosts pb ->
  let solve := exact_solve ro std_sort ddiv random_optimizer cn_l1 pfuel fuel pp po pa g in
  solve (scale_problem sk pb) = run_map (outcome_map (scale_result sk)) (solve pb).
Proof.
  intros until pb. intros Hk Hsort Hsh Hpo Hu He. cbv zeta. unfold exact_solve.
  apply (user_solve_scl sk Hk exact_fops ro std_sort (times (inject_Z sk)) (times 1) (exact_scaling _ (pos_inject sk Hk)) (exact_scaling 1%Q eq_refl) Hsort Hsh
    ddiv random_optimizer q_raw (q_normal cn_l1) any_terms); try assumption; try exact I.
  - split; [intros; apply q_raw_scl|intros; now apply q_l1_scl].
  - exact kept_any.
  - repeat (split; [reflexivity|]). split; [unfold times; ring|]. repeat split.
Qed.
Print Assumptions C150_l1_partial.
(** The infinity norm (the default): linear objectives without negative costs, every delta. *)
Theorem C150_loo_partial :
  forall (sk : Z) (G : Type) (ro : rops G) std_sort ddiv random_optimizer pfuel fuel pp po pa (g : G) pb,
  0 < sk -> sort_by_comparisons std_sort -> shuffle_by_draws ro -> plain_pre_order po -> unit_coefficients pb -> terms_ok costs_not_negative pb ->
  let solve := exact_solve ro std_sort ddiv random_optimizer cn_loo pfuel fuel pp po pa g in
  solve (scale_problem sk pb) = run_map (outcome_map (scale_result sk)) (solve pb).
Proof.
  intros until pb. intros Hk Hsort Hsh Hpo Hu Hok. cbv zeta. unfold exact_solve.
  apply (user_solve_scl sk Hk exact_fops ro std_sort (times (inject_Z sk)) (times 1) (exact_scaling _ (pos_inject sk Hk)) (exact_scaling 1%Q eq_refl) Hsort Hsh
    ddiv random_optimizer q_raw (q_normal cn_loo) costs_not_negative); try assumption.
  - split; [intros; apply q_raw_scl|intros; now apply q_loo_scl].
  - exact kept_not_negative.
  - repeat (split; [reflexivity|]). split; [unfold times; ring|]. repeat split.
  - intros e Hin. destruct Hok as [E _]. rewrite E in Hin. destruct Hin.
Qed.
Print Assumptions C150_loo_partial.
(** Without a norm: every problem, with delta multiplied as well (so, with delta 0, as it is). *)
Theorem C150_none_partial :
  forall (sk : Z) (G : Type) (ro : rops G) std_sort ddiv random_optimizer pfuel fuel pp po pa delta (g : G) pb,
  0 < sk -> sort_by_comparisons std_sort -> shuffle_by_draws ro -> plain_pre_order po -> unit_coefficients pb -> even_qcosts pb -> (delta == inject_Z sk * pa_delta pa)%Q ->
  let solve pa := exact_solve ro std_sort ddiv random_optimizer cn_none pfuel fuel pp po pa g in
  solve (with_delta pa delta) (scale_problem sk pb) = run_map (outcome_map (scale_result sk)) (solve pa pb).
Proof.
  intros until pb. intros Hk Hsort Hsh Hpo Hu He Hd. cbv zeta. unfold exact_solve.
  apply (user_solve_scl sk Hk exact_fops ro std_sort (times (inject_Z sk)) (times (inject_Z sk)) (exact_scaling _ (pos_inject sk Hk)) (exact_scaling _ (pos_inject sk Hk)) Hsort Hsh
    ddiv random_optimizer q_raw (q_normal cn_none) any_terms); try assumption; try exact I.
  - split; [intros; apply q_raw_scl|intros; now apply q_none_scl].
  - exact kept_any.
  - repeat (split; [reflexivity|]). split; [exact Hd|]. repeat split.
Qed.
Print Assumptions C150_none_partial.
(** The l2 norm divides by the sum of the squares and not by its square root: every problem, but with delta divided. *)
Theorem C150_l2_partial :
  forall (sk : Z) (G : Type) (ro : rops G) std_sort ddiv random_optimizer pfuel fuel pp po pa delta (g : G) pb,
  0 < sk -> sort_by_comparisons std_sort -> shuffle_by_draws ro -> plain_pre_order po -> unit_coefficients pb -> even_qcosts pb -> (delta == / inject_Z sk * pa_delta pa)%Q ->
  let solve pa := exact_solve ro std_sort ddiv random_optimizer cn_l2 pfuel fuel pp po pa g in
  solve (with_delta pa delta) (scale_problem sk pb) = run_map (outcome_map (scale_result sk)) (solve pa pb).
Proof.
  intros until pb. intros Hk Hsort Hsh Hpo Hu He Hd. cbv zeta. unfold exact_solve.
  apply (user_solve_scl sk Hk exact_fops ro std_sort (times (inject_Z sk)) (times (/ inject_Z sk)) (exact_scaling _ (pos_inject sk Hk))
    (exact_scaling _ (Qinv_lt_0_compat _ (pos_inject sk Hk))) Hsort Hsh ddiv random_optimizer q_raw (q_normal cn_l2) any_terms); try assumption; try exact I.
  - split; [intros; apply q_raw_scl|intros; now apply q_l2_scl].
  - exact kept_any.
  - repeat (split; [reflexivity|]). split; [exact Hd|]. repeat split.
Qed.
Print Assumptions C150_l2_partial.
(** The default of delta (asked for by a negative delta) follows the costs that the solver uses, when one of them is not 0. *)
Theorem C150_default_delta :
  forall c biggest theta delta l l', (0 < c)%Q -> Forall2 (times c) l l' -> (exists q, In q l /\ ~ (q == 0)%Q) ->
  (forall q, In q l -> (Qabs q <= biggest)%Q) -> (forall q, In q l' -> (Qabs q <= biggest)%Q) -> (delta < 0)%Q ->
  times c (used_delta q_fops biggest theta delta l) (used_delta q_fops biggest theta delta l').
Proof. exact default_delta_times. Qed.
Print Assumptions C150_default_delta.

(** With a delta that stays the same it is false without a norm and with the l2 norm, and with the infinity norm when the largest cost is 0 (the costs are then
    left as they are). Five variables, four equality constraints (the ones of C136); the objective times 10. *)
Definition ex_scale_pb (c : list Z) : problem :=
  mk_problem (mk_objective (map (fun p => mk_oelem (snd p) (fst p)) (combine (seq 0 5) c)) [] 0) (p_equal ex_budget_pb) [] [] (p_vars ex_budget_pb) (p_affected ex_budget_pb)
    minimize equalities_01.
Definition ex_scale_params (delta : Q) : sparams Q := mk_sparams Q 20 2 0%Q (1 # 4)%Q 1%Q 1%Q (1 # 2)%Q delta (9 # 10)%Q 5%Q 0 50 co_none ip_bastert.
Definition ex_scale_solve (norm : cost_norm) (delta : Q) (pb : problem) : run_result (outcome sresult) :=
  exact_solve ex_rops insertion_sort Z.div (fun _ => Aborted) norm 20 100 pp_all po_none (ex_scale_params delta) tt pb.
Definition ends (r : run_result (outcome sresult)) (st : result_status) (s : list (list bool * option Z)) : Prop :=
  exists q, r = Finished (Ok q) /\ sr_status q = st /\ sr_solutions q = s.
Definition fails (r : run_result (outcome sresult)) : Prop := exists q, r = Finished (Ok q) /\ sr_status q = st_limit_reached.
Theorem C150_refuted :
  (let pb := ex_scale_pb [1; 2; 3; 4; 5] in
   ends (ex_scale_solve cn_none 5 pb) st_success [([true; false; false; false; true], Some 6)] /\
   ends (ex_scale_solve cn_none 5 (scale_problem 10 pb)) st_success [([false; false; true; false; false], Some 30)]) /\
  (let pb := ex_scale_pb [3; 1; 4; 1; 5] in
   ends (ex_scale_solve cn_none 1 pb) st_success [([true; false; false; false; true], Some 8)] /\ fails (ex_scale_solve cn_none 1 (scale_problem 10 pb)) /\
   fails (ex_scale_solve cn_l2 (1 # 10) pb) /\ ends (ex_scale_solve cn_l2 (1 # 10) (scale_problem 10 pb)) st_success [([true; false; false; false; true], Some 80)]) /\
  (let pb := ex_scale_pb [0; -7; -1; -3; -2] in
   ends (ex_scale_solve cn_loo 1 pb) st_success [([true; false; false; false; true], Some (-2))] /\ fails (ex_scale_solve cn_loo 1 (scale_problem 10 pb))).
Proof.
  repeat split; cbv zeta; eexists; (split; [vm_compute; reflexivity|]); try split; reflexivity.
Qed.
Print Assumptions C150_refuted.

(** The hypotheses hold in an example: the infinity norm, the objective times 7. *)
Example C150_ex : let pb := ex_scale_pb [3; 1; 4; 1; 5] in
  sort_by_comparisons insertion_sort /\ shuffle_by_draws ex_rops /\ plain_pre_order po_none /\ unit_coefficients pb /\ even_qcosts pb /\ terms_ok costs_not_negative pb /\
  kept costs_not_negative /\ kept any_terms /\ scaled_costs 7 any_terms (times 7) (times 1) q_raw (q_normal cn_l1) /\ scaling exact_fops (times 7) /\
  ends (ex_scale_solve cn_loo 2 pb) st_success [([true; false; false; false; true], Some 8)] /\
  ends (ex_scale_solve cn_loo 2 (scale_problem 7 pb)) st_success [([true; false; false; false; true], Some 56)] /\
  ends (ex_scale_solve cn_l1 2 (scale_problem 7 pb)) st_success [([true; false; false; false; true], Some 56)].
Proof.
  cbv zeta. split; [apply insertion_sort_by_comparisons|].
  split.
  { intros A B R g l l' H. split; [|reflexivity]. cbn [ex_rops rg_shuffle fst]. induction H as [|a a' m m' Ha Hm IH]; [constructor|].
    cbn [rev]. apply Forall2_app; [exact IH|constructor; [exact Ha|constructor]]. }
  split; [cbv; auto|].
  split; [intros c e Hc He; cbn in Hc; repeat match goal with H : _ \/ _ |- _ => destruct H | H : False |- _ => destruct H end; subst; cbn in He;
          repeat match goal with H : _ \/ _ |- _ => destruct H | H : False |- _ => destruct H end; subst; left; reflexivity|].
  split; [intros e []|].
  split; [split; [reflexivity|]; intros e He; cbn in He; repeat match goal with H : _ \/ _ |- _ => destruct H | H : False |- _ => destruct H end; subst; cbn; lia|].
  split; [exact kept_not_negative|]. split; [exact kept_any|].
  split; [split; [intros; apply (q_raw_scl 7)|intros; now apply (q_l1_scl 7)]|]. split; [now apply exact_scaling|].
  repeat split; eexists; (split; [vm_compute; reflexivity|]); split; reflexivity.
Qed.
