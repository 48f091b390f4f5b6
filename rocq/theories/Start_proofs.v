(** A start that satisfies every constraint is the result of solve(). *)
From Coq Require Import Permutation Lia.
From Verif Require Import Base Problem_model Problem_spec Merged_model Merged_spec Merged_proofs Classify_model Classify_spec Classify_proofs Preprocess_model
  Preprocess_spec Preprocess_proofs Preprocess_proofs2 Preprocess_proofs3 Preprocess_proofs4 Preprocess_props Matrix_model Rows_model Rows_spec Rows_proofs Greedy_spec Greedy_proofs
  Cost_spec Validate_model Params_model Solver_model Solver_spec Solver_proofs Solver_proofs2 Push_spec Push_proofs EndToEnd_model EndToEnd_spec EndToEnd_proofs
  Separable_spec Separable_proofs Separable_proofs2 Separable_proofs3 Separable_proofs4 Initial_spec Initial_proofs Initial_props.
Open Scope Z_scope.

Lemma weigh_vsum n w x l : (forall e, In e l -> (f_var e < n)%nat) -> (forall e, In e l -> f_factor e = 1) ->
  weigh w x l = vsum n (fun v => row_coef l v * (w v * bz (x v))).
Proof.
  unfold row_coef. induction l as [|e l IH]; intros H H1; cbn [weigh lhs].
  - symmetry. rewrite (vsum_ext _ _ (fun _ => 0)) by (intros; lia). apply vsum_zero.
  - rewrite (vsum_ext n _ (fun v => 1 * bz (Nat.eqb (f_var e) v) * (w v * bz (x v)) + lhs (fun u => Nat.eqb u v) l * (w v * bz (x v))))
      by (intros; rewrite (H1 e (or_introl eq_refl)); ring).
    rewrite vsum_add, <- IH by (intros; (apply H || apply H1); right; assumption). rewrite (vsum_single n (f_var e) 1 (fun v => w v * bz (x v))) by (apply H; left; reflexivity). lia.
Qed.
Lemma dual_weigh n w x L : (forall lam r e, In (lam, r) L -> In e (m_elements r) -> (f_var e < n)%nat /\ f_factor e = 1) ->
  vsum n (fun v => dual L v * (w v * bz (x v))) = fold_right Z.add 0 (map (fun p => fst p * weigh w x (m_elements (snd p))) L).
Proof.
  induction L as [|[lam r] L IH]; intros H; cbn [dual map fold_right fst snd].
  - rewrite (vsum_ext _ _ (fun _ => 0)) by (intros; lia). apply vsum_zero.
  - rewrite (vsum_ext n _ (fun v => lam * (row_coef (m_elements r) v * (w v * bz (x v))) + dual L v * (w v * bz (x v)))) by (intros; ring).
    rewrite vsum_add, vsum_scale, IH by (intros; eapply H; [right|]; eassumption). rewrite <- weigh_vsum; [reflexivity| |].
    + intros e He. eapply H; [left; reflexivity|exact He].
    + intros e He. eapply H; [left; reflexivity|exact He].
Qed.
Lemma vsum_rows n cs w x : disjoint_rows cs -> (forall r, In r cs -> row_ok n r) -> (forall r e, In r cs -> In e (m_elements r) -> f_factor e = 1) ->
  (forall v, (v < n)%nat -> exists r, In r cs /\ In v (map f_var (m_elements r))) ->
  vsum n (fun v => w v * bz (x v)) = fold_right Z.add 0 (map (fun r => weigh w x (m_elements r)) cs).
Proof.
  intros Hd Hr H1 Hall. set (L := map (fun r => (1, r)) cs).
  assert (HL : map snd L = cs) by (unfold L; rewrite map_map; apply map_id).
  assert (Hin : forall lam r, In (lam, r) L -> lam = 1 /\ In r cs) by (intros lam r H; unfold L in H; apply in_map_iff in H; destruct H as (q & E & Hq); injection E as <- <-; auto).
  rewrite (vsum_ext n _ (fun v => dual L v * (w v * bz (x v)))).
  - rewrite dual_weigh; [|intros lam r e H He; destruct (Hin _ _ H) as [_ Hc]; split; [apply (Hr r Hc); exact He|exact (H1 r e Hc He)]].
    unfold L. rewrite map_map. f_equal. apply map_ext. intros r. cbn [fst snd]. lia.
  - intros v Hv. destruct (Hall v Hv) as (r & Hc & Hi). apply in_map_iff in Hi. destruct Hi as (e & <- & He).
    rewrite (dual_in cs L Hd HL (fun r H => proj1 (Hr r H)) 1 r e); [rewrite (H1 r e Hc He); lia| |exact He]. unfold L. apply in_map_iff. exists r. auto.
Qed.
Lemma rows_best (cs : list merged) w x y : (forall r, In r cs -> weigh w x (m_elements r) <= weigh w y (m_elements r)) ->
  fold_right Z.add 0 (map (fun r => weigh w x (m_elements r)) cs) <= fold_right Z.add 0 (map (fun r => weigh w y (m_elements r)) cs).
Proof. induction cs as [|r cs IH]; intros H; cbn [map fold_right]; [lia|]. pose proof (H r (or_introl eq_refl)). assert (forall q, In q cs -> weigh w x (m_elements q) <= weigh w y (m_elements q)) as X by (intros; apply H; right; assumption). specialize (IH X). lia. Qed.
Lemma disjoint_after cs before c after : disjoint_rows cs -> cs = before ++ c :: after -> shares_none c after.
Proof.
  intros Hd -> d v Hin Hc Hv. apply In_nth_error in Hin. destruct Hin as [k Hk].
  assert (E : length before = (length before + S k)%nat); [|lia].
  apply (Hd (length before) (length before + S k)%nat c d v); [| |exact Hc|exact Hv].
  - rewrite nth_error_app2, Nat.sub_diag by lia. reflexivity.
  - rewrite nth_error_app2 by lia. replace (length before + S k - length before)%nat with (S k) by lia. exact Hk.
Qed.

Section Functor.
Context {F G : Type} (fo : fops F) (ro : rops G) (std_sort : forall A : Type, (A -> A -> bool) -> list A -> list A).
Hypothesis Hperm : permutes std_sort.
Hypothesis Hsorts : sorts std_sort.
Hypothesis Hshuf : shuffles ro.
Hypothesis Hw : weak_order (fl_lt fo).
Hypothesis Hnever : never_mutates ro.

Lemma functor_presolved fuel cl cs n c0 nc pa mode obj after (g : G) l st :
  (forall r, In r cs -> row_ok n r) -> disjoint_rows cs -> (forall r, In r cs -> row_satisfiable r) -> (forall r e, In r cs -> In e (m_elements r) -> f_factor e = 1) ->
  violated_order (pa_order pa) -> pa_init pa <> ip_bastert -> pa_limit pa <> 0 -> pa_pushes_limit pa <= 0 ->
  functor fo ro std_sort fuel cl cs n c0 nc pa mode obj after g = Finished (l, st) ->
  st = st_success /\ exists x v g0 g1, lp_best l = mk_best x (Some v) 0 /\ length x = n /\ results obj x = Some v /\ sat_merged (as_assignment x) cs /\
    initial_x fo ro std_sort (pa_init pa) mode c0 cs n g0 = Some (x, g1).
Proof.
  intros Hrows Hdis Hsat H1 Hvo Hini Hlim Hpush H. unfold functor in H.
  destruct (make_any_solver fo cl cs n nc mode after [] g) as [[sv s]| |] eqn:Em; try discriminate.
  destruct (make_any_make fo _ _ _ _ _ _ _ _ _ _ Em) as [Hmk _].
  destruct (initial_x _ _ _ _ _ _ _ _ _) as [[x g1]|] eqn:Ex; [|discriminate].
  pose proof (initial_x_length fo ro std_sort _ _ _ _ _ _ _ _ Ex) as Hx.
  assert (Hall : forall r, In r cs -> row_satisfied x r).
  { intros r Hr. destruct (in_split r cs Hr) as (b & a & E). rewrite E in Ex.
    apply (C164_satisfied F G fo ro std_sort Hperm Hsorts Hw Hshuf Hnever (pa_init pa) mode c0 b r a n (s_g s) x g1); [exact Hini| | | | |exact Ex].
    - rewrite <- E. exact Hrows.
    - intros e He. exact (H1 r e Hr He).
    - exact (Hsat r Hr).
    - eapply disjoint_after; eassumption. }
  set (s1 := mk_state x (s_P s) (s_pi s) (s_R s) g1) in *. unfold functor_loop in H.
  destruct (order_init sv (s_x s1) (make_order (pa_order pa) n)) as [od|] eqn:Eod; [|discriminate].
  assert (Hh : history fo ro std_sort sv (pa_order pa) n od s1) by (apply history_init; [exact Eod|exact Hx]).
  destruct fuel as [|fuel]; [discriminate|]. cbn [main_loop lp_kappa lp_od lp_s lp_tried lp_best] in H.
  destruct (Z.eqb_spec 0 (pa_limit pa)) as [E0|_]; [exfalso; apply Hlim; lia|].
  destruct (run fo ro std_sort sv None (pa_kappa_min pa) (pa_delta pa) (pa_theta pa) od s1) as [[[rem od2] s2]|] eqn:Er; [|discriminate].
  destruct (run_exact fo ro std_sort cl cs n nc mode after [] g sv s Hmk Hrows None (pa_kappa_min pa) (pa_delta pa) (pa_theta pa) od s1 rem od2 s2 Hx Er) as [Hx2 Hrem].
  destruct (run_visits fo ro std_sort Hperm Hshuf cl cs n nc mode after [] g sv s Hmk Hrows _ _ _ _ _ _ _ _ _ _ (proj2 Hvo) Hh Er) as (rows & g2 & b & Hup & _ & Hp & _).
  specialize (Hp (proj1 Hvo)). change (s_x s1) with x in *.
  assert (Hnil : violated_rows cs x = []).
  { destruct (violated_rows cs x) as [|k t] eqn:E; [reflexivity|]. assert (Hk : In k (violated_rows cs x)) by (rewrite E; left; reflexivity).
    apply violated_rows_in in Hk. destruct Hk as (c & Hc & Hv). pose proof (proj2 (violates_iff x c) (Hall c (nth_error_In _ _ Hc))). congruence. }
  rewrite Hnil in Hp. apply Permutation_sym, Permutation_nil in Hp. subst rows. cbn [update_rows] in Hup. injection Hup as <- <-.
  assert (Hr0 : rem = 0) by (rewrite Hrem; apply violations_0; exact Hall).
  rewrite Hr0 in H. cbn [Z.eqb s_x] in H. destruct (results obj x) as [v|] eqn:Ev; [|discriminate].
  assert (Ez : Z.to_nat (pa_pushes_limit pa) = O) by lia. rewrite Ez in H. cbn [push_loop lp_best store_value is_better best0 be_value be_remaining Z.eqb] in H.
  injection H as <- <-. split; [reflexivity|]. exists x, v, (s_g s), g1. cbn [lp_best]. split; [reflexivity|]. split; [exact Hx|]. split; [exact Ev|].
  split; [exact Hall|exact Ex].
Qed.
End Functor.

Lemma ones_kept pb x0 fuel q : well_formed pb -> solution x0 pb -> preprocess fuel pb = Ok (Some q) -> sums_of_variables pb -> sums_of_variables q.
Proof.
  intros Hwf Hx0 Hq H1. destruct (preprocess_run pb Hwf x0 Hx0 fuel q Hq) as (ch & s & s1 & U & mo & Hch & Hb & F).
  intros c' e' Hc' He'. apply all_constraints_ops in Hc'. destruct Hc' as [op H].
  pose proof (rb_csts _ _ _ _ _ (fi_rebuilt _ _ _ _ _ _ _ _ _ F) op) as Hcc. cbn [s_vars final_state] in Hcc.
  destruct (constraints_copy_spec _ _ _ _ _ Hcc) as [_ G].
  destruct (G c' H) as (i & c & k & A1 & A2 & A3 & ([l v] & Hr & ->)).
  destruct (copy_elements_in _ _ _ _ _ _ Hr e' He') as (e & B1 & B2 & _). rewrite <- B2. apply (H1 c e); [|exact B1].
  apply all_constraints_ops. exists op. eapply nth_error_In; eassumption.
Qed.

Section Solve.
Context {F G : Type} (fo : fops F) (ro : rops G)
        (std_sort : forall A : Type, (A -> A -> bool) -> list A -> list A) (ddiv : Z -> Z -> Z).
Hypothesis Hperm : permutes std_sort.
Hypothesis Hsorts : sorts std_sort.
Hypothesis Hshuf : shuffles ro.
Hypothesis Hw : weak_order (fl_lt fo).
Hypothesis Hnever : never_mutates ro.

Lemma solve_presolved fuel po cl pb c0 nc pa after (g : G) r :
  well_formed pb -> separate pb -> sums_of_variables pb -> (forall y, fits_int y pb) -> (exists y, feasible y pb) ->
  all_constraints pb <> [] -> v_values (p_vars pb) <> [] ->
  violated_order (pa_order pa) -> pa_init pa <> ip_bastert -> pa_limit pa <> 0 -> pa_pushes_limit pa <= 0 ->
  solve_problem fo ro std_sort fuel ddiv po cl pb c0 nc pa after g = Finished (Ok r) ->
  sr_status r = st_success /\ exists x, sr_solutions r = [(x, Some (objective_value (as_assignment x) (p_objective pb)))] /\
    length x = length (v_values (p_vars pb)) /\ feasible (as_assignment x) pb /\
    (pa_init pa = ip_optimistic_solve -> linear_objective pb -> all_constrained pb ->
     (forall v, (v < length (v_values (p_vars pb)))%nat -> exists a, c0 v = Some a) -> same_order fo c0 (linear_coef (p_objective pb)) ->
     forall y, feasible y pb -> Preprocess_spec.no_worse (p_type pb) (objective_value (as_assignment x) (p_objective pb)) (objective_value y (p_objective pb))).
Proof.
  intros (_ & _ & Hi & Hd & Ho & _) Hsep Hones Hfit [y0 Hy0] Hne Hv Hvo Hini Hlim Hpush H. unfold solve_problem in H.
  destruct (make_merged std_sort ddiv po pb) as [cs| |] eqn:Em; try discriminate.
  pose proof (merged_rows_ok std_sort ddiv Hperm po pb cs Hi Hd Em) as Hrows.
  pose proof (fun y => merged_meaning std_sort ddiv Hperm po pb cs y Em (Hfit y)) as Hmean.
  pose proof (merged_rows _ _ _ _ _ Hperm Em) as [Hr1 Hr2].
  assert (H1 : forall r e, In r cs -> In e (m_elements r) -> f_factor e = 1).
  { intros m e Hm He. destruct (Hr2 m Hm) as (c & Hc & Hp). apply (Hones c e Hc). eapply Permutation_in; [exact Hp|exact He]. }
  assert (Hdis : disjoint_rows cs) by (apply pairwise_disjoint; eapply merged_pairwise; eassumption).
  assert (Hcs : cs <> []).
  { destruct (all_constraints pb) as [|c l] eqn:E; [contradiction|]. destruct (Hr1 c) as (m & Hin & _); [left; reflexivity|].
    destruct cs; [destruct Hin|discriminate]. }
  destruct cs as [|c1 cs1] eqn:Ecs; [contradiction|]. rewrite <- Ecs in *. destruct (v_values (p_vars pb)) as [|v1 vs1] eqn:Evs; [contradiction|]. rewrite <- Evs in *.
  replace (is_nil cs) with false in H by (rewrite Ecs; reflexivity). replace (is_nil (v_values (p_vars pb))) with false in H by (rewrite Evs; reflexivity).
  cbn [negb andb] in H.
  destruct (functor fo ro std_sort fuel cl cs (length (v_values (p_vars pb))) c0 nc pa (p_type pb) (p_objective pb) after g) as [[l st]| |] eqn:Ef; try discriminate.
  destruct (functor_presolved fo ro std_sort Hperm Hsorts Hshuf Hw Hnever fuel cl cs _ c0 nc pa (p_type pb) (p_objective pb) after g l st Hrows Hdis)
    as [Hst (x & v & g0 & g1 & Hb & Hx & Hres & Hsat & Hinit)]; try assumption.
  { intros row Hr. exists y0. apply (proj2 (Hmean y0) Hy0). exact Hr. }
  apply results_ok in Hres. injection H as <-. cbn [sr_status sr_solutions]. rewrite Hb. cbn [be_x be_value].
  split; [exact Hst|]. exists x. split; [|split; [exact Hx|split; [apply Hmean; exact Hsat|]]].
  - destruct x; [cbn in Hx; rewrite Evs in Hx; discriminate|]. rewrite Hres. reflexivity.
  - intros Hopt Hlin Hall Hcost Hso y Hy. rewrite Hopt in Hinit. set (n := length (v_values (p_vars pb))) in *.
    assert (Hcov : forall v, (v < n)%nat -> exists r, In r cs /\ In v (map f_var (m_elements r))).
    { intros u Hu. destruct (Hall u Hu) as (c & e & Hc & He & <-). destruct (Hr1 c Hc) as (m & Hm & Hp). exists m. split; [exact Hm|].
      apply in_map. eapply Permutation_in; [apply Permutation_sym; exact Hp|exact He]. }
    pose proof (proj2 (Hmean y) Hy) as Hym.
    assert (Hrow : forall r, In r cs -> match p_type pb with
       | minimize => weigh (linear_coef (p_objective pb)) (as_assignment x) (m_elements r) <= weigh (linear_coef (p_objective pb)) y (m_elements r)
       | maximize => weigh (linear_coef (p_objective pb)) y (m_elements r) <= weigh (linear_coef (p_objective pb)) (as_assignment x) (m_elements r) end).
    { intros m Hm. destruct (in_split m cs Hm) as (b & a & E). rewrite E in Hinit.
      apply (C164_optimistic_is_best F G fo ro std_sort Hperm Hsorts Hw Hshuf Hnever (p_type pb) c0 (linear_coef (p_objective pb)) b m a n g0 x g1 Hso Hcost); try assumption.
      - rewrite <- E. exact Hrows.
      - intros e He. exact (H1 m e Hm He).
      - eapply disjoint_after; eassumption.
      - exact (Hym m Hm). }
    unfold Preprocess_spec.no_worse. rewrite !(linear_value n (p_objective pb)) by assumption.
    rewrite !(vsum_rows n cs (linear_coef (p_objective pb))) by assumption.
    destruct (p_type pb); [pose proof (rows_best cs _ _ _ Hrow)|pose proof (rows_best cs _ _ _ Hrow)]; lia.
Qed.
Lemma plain_presolved random_optimizer raw_costs norm_costs pfuel fuel buffered po pa after (g : G) pb r :
  well_formed pb -> separate pb -> sums_of_variables pb -> (forall y, fits_int y pb) -> (exists y, feasible y pb) ->
  all_constraints pb <> [] -> v_values (p_vars pb) <> [] ->
  violated_order (pa_order pa) -> pa_init pa <> ip_bastert -> pa_limit pa <> 0 ->
  user_solve fo ro std_sort ddiv random_optimizer raw_costs norm_costs pfuel fuel pp_none false buffered po pa after g pb = Finished (Ok r) ->
  sr_status r = st_success /\ exists x, sr_solutions r = [(x, Some (objective_value (as_assignment x) (p_objective pb)))] /\
    length x = length (v_values (p_vars pb)) /\ feasible (as_assignment x) pb /\
    (pa_init pa = ip_optimistic_solve -> linear_objective pb -> all_constrained pb ->
     (forall v, (v < length (v_values (p_vars pb)))%nat -> exists a, raw_costs (unpreprocess pb) v = Some a) -> same_order fo (raw_costs (unpreprocess pb)) (linear_coef (p_objective pb)) ->
     forall y, feasible y pb -> Preprocess_spec.no_worse (p_type pb) (objective_value (as_assignment x) (p_objective pb)) (objective_value y (p_objective pb))).
Proof.
  intros Hwf Hsep Hu Hfit Hfe Hne Hv Hvo Hini Hlim H.
  rewrite (user_solve_pushes fo ro std_sort Hperm Hshuf _ _ _ _ _ _ _ _ _ _ pa (no_push pa)) in H by (assumption || apply no_push_same).
  unfold user_solve, itm_solve in H. cbn [negb] in H.
  apply (solve_presolved fuel po _ (unpreprocess pb) _ _ (no_push pa) after g r Hwf Hsep Hu Hfit Hfe Hne Hv) in H; try assumption; cbn; lia.
Qed.
Lemma user_presolved random_optimizer raw_costs norm_costs pfuel fuel buffered po pa after (g : G) pb q r :
  well_formed pb -> binary_bounds pb -> separate pb -> sums_of_variables pb -> linear_objective pb -> (forall y, fits_int y pb) -> (exists y, solution y pb) ->
  preprocess pfuel pb = Ok (Some q) ->
  violated_order (pa_order pa) -> pa_init pa <> ip_bastert -> pa_limit pa <> 0 ->
  user_solve fo ro std_sort ddiv random_optimizer raw_costs norm_costs pfuel fuel pp_all false buffered po pa after g pb = Finished (Ok r) ->
  sr_status r = st_success /\ exists x z, sr_solutions r = [(x, Some z)] /\ (exists X, reports r x X pb) /\
    (forall X, reports r x X pb -> solution X pb /\ objective_value X (p_objective pb) = z) /\
    (pa_init pa = ip_optimistic_solve -> (forall v, (v < length (v_values (p_vars q)))%nat -> exists a, raw_costs q v = Some a) ->
     same_order fo (raw_costs q) (linear_coef (p_objective q)) -> is_optimum pb z).
Proof.
  intros Hwf Hbin Hsep Hu Hlin Hfit [x0 Hx0] Hq Hvo Hini Hlim H.
  pose proof H as Hall.
  rewrite (user_solve_pushes fo ro std_sort Hperm Hshuf _ _ _ _ _ _ _ _ _ _ pa (no_push pa)) in H by (assumption || apply no_push_same).
  unfold user_solve, itm_solve in H. rewrite Hq in H. cbn [negb] in H.
  destruct (preprocess_shape pb x0 pfuel q Hwf Hx0 Hq) as (Wq & Rq & Aq & Lq & Tq). destruct (Lq Hlin) as [Wfq Hlq].
  destruct (preprocess_separate pb x0 pfuel q Hwf Hx0 Hq) as (Sq & Uq & Cq).
  pose proof (preprocess_complete pb Hwf x0 Hx0 pfuel q Hq) as Hcomp.
  assert (Hobj : forall y x, completes y q x pb -> objective_value y (p_objective q) = objective_value x (p_objective pb)).
  { intros y x. eapply (preprocess_objective pb Hwf x0 Hx0 pfuel q Hq); assumption. }
  assert (Hres : sr_status r = st_success /\ forall x v, sr_solutions r = [(x, v)] ->
            exists x1, v = Some (objective_value x1 (p_objective q)) /\
              (pa_init pa = ip_optimistic_solve -> (forall v, (v < length (v_values (p_vars q)))%nat -> exists a, raw_costs q v = Some a) ->
               same_order fo (raw_costs q) (linear_coef (p_objective q)) ->
               forall y, feasible y q -> Preprocess_spec.no_worse (p_type q) (objective_value x1 (p_objective q)) (objective_value y (p_objective q)))).
  { destruct (v_values (p_vars q)) as [|v1 vs] eqn:Ev.
    - destruct (solve_names fo ro std_sort ddiv _ _ _ _ _ _ _ _ _ _ H) as (_ & _ & _ & cs & Hm & Hcs & Hempty).
      destruct (Hempty (or_intror Ev)) as [Hs Hsol]. split; [exact Hs|]. intros x v E. rewrite Hsol in E. injection E as <- <-.
      assert (Hval : forall y, objective_value y (p_objective q) = o_value (p_objective q)).
      { intros y. rewrite (linear_value 0); [cbn; lia|exact Hlq|]. intros e He. destruct Wfq as (_ & _ & _ & _ & H3 & _). rewrite Ev in H3. apply (H3 e He). }
      exists (fun _ => false). rewrite Hval. split; [reflexivity|]. intros _ _ _ y _. rewrite Hval. unfold Preprocess_spec.no_worse. destruct (p_type q); lia.
    - rewrite <- Ev in *.
      assert (Hv : v_values (p_vars q) <> []) by congruence.
      destruct (preprocess_used pb x0 pfuel q Hwf Hx0 Hq 0%nat) as (c & e & Hc & _); [rewrite Ev; cbn; lia|].
      apply (solve_presolved fuel po _ q _ _ (no_push pa) after g r) in H; try assumption.
      + destruct H as [Hs (x & Hsol & _ & _ & Hopt)]. split; [exact Hs|]. intros x' v E. rewrite Hsol in E. injection E as <- <-. eexists. split; [reflexivity|].
        intros I1 I2 I3. apply Hopt; try assumption. intros u Hu'. exact (preprocess_used pb x0 pfuel q Hwf Hx0 Hq u Hu').
      + apply Sq, Hsep.
      + exact (ones_kept pb x0 pfuel q Hwf Hx0 Hq Hu).
      + exact (preprocess_fits pb x0 pfuel q Hwf Hx0 Hq Hfit).
      + destruct (Hcomp x0 Hx0 Hbin) as (y & _ & Hy & _). exists y. apply Hy.
      + intros E. rewrite E in Hc. destruct Hc.
      + cbn. lia. }
  destruct Hres as [Hs Hopt]. split; [exact Hs|].
  assert (Hnr : false = true -> forall q, preprocess pfuel pb = Ok (Some q) -> p_problem_type q <> inequalities_01 /\ p_problem_type q <> inequalities_101) by discriminate.
  destruct (user_solve_answers fo ro std_sort ddiv Hperm _ _ _ _ _ _ _ _ _ _ _ pb r Hwf (ex_intro _ x0 Hx0) Hfit Hnr Hall Hs)
    as (x & v & Hsol & _ & _ & [X HX] & Hrep).
  destruct (Hopt x v Hsol) as (x1 & Hv & Ho). exists x, (objective_value x1 (p_objective q)). split; [rewrite Hsol, Hv; reflexivity|].
  assert (Hsolution : forall X, reports r x X pb -> solution X pb /\ objective_value X (p_objective pb) = objective_value x1 (p_objective q)).
  { intros Y HY. destruct (Hrep Y HY) as (A & B & C). split; [split; auto|]. specialize (C Hlin). congruence. }
  split; [eauto|]. split; [exact Hsolution|]. intros I1 I2 I3. specialize (Ho I1 I2 I3).
  split; [exists X; exact (Hsolution X HX)|].
  intros Y HY. destruct (Hcomp Y HY Hbin) as (y' & x' & Hy' & Hc' & Hx' & _ & Hnw).
  specialize (Ho y' (proj1 Hy')). specialize (Hnw Hlin). rewrite (Hobj y' x' Hc'), Tq in Ho.
  unfold Preprocess_spec.no_worse in *. destruct (p_type pb); lia.
Qed.
End Solve.
