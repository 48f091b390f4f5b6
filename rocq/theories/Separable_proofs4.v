(** From the rows of the solver to the problem of the user. *)
From Coq Require Import Permutation Lia.
From Verif Require Import Base Problem_model Problem_spec Merged_model Merged_spec Merged_proofs Classify_model Classify_spec Classify_proofs Preprocess_model
  Preprocess_spec Preprocess_proofs Preprocess_proofs2 Preprocess_proofs3 Preprocess_proofs4 Preprocess_props Matrix_model Rows_model Rows_spec Rows_proofs Greedy_spec
  Greedy_proofs Cost_spec Validate_model Params_model Solver_model Solver_spec Solver_proofs Solver_proofs2 Push_spec Push_proofs EndToEnd_model EndToEnd_spec
  EndToEnd_proofs Separable_spec Separable_proofs Separable_proofs2 Separable_proofs3.
Open Scope Z_scope.

(** ** The rows share no variable *)
Definition apart (a b : merged) : Prop := forall v, In v (map f_var (m_elements a)) -> In v (map f_var (m_elements b)) -> False.
Definition pairwise (l : list merged) : Prop := ForallOrdPairs apart l.
Lemma apart_sym a b : apart a b -> apart b a.
Proof. intros H v A B. exact (H v B A). Qed.
Lemma pairwise_perm a b : Permutation a b -> pairwise a -> pairwise b.
Proof.
  intros H. induction H as [|x a b H IH|x y a|a b c H1 IH1 H2 IH2]; intros P; [constructor| | |auto].
  - inversion P as [|? ? F1 P1]; subst. constructor; [|apply IH; exact P1]. rewrite Forall_forall in *. intros z Hz. apply F1. eapply Permutation_in; [symmetry; exact H|exact Hz].
  - inversion P as [|? ? F1 P1]; subst. inversion P1 as [|? ? F2 P2]; subst. inversion F1; subst.
    constructor; [constructor; [apply apart_sym; assumption|assumption]|]. constructor; assumption.
Qed.
Lemma apart_same a b a' b' : msame a a' -> msame b b' -> apart a' b' -> apart a b.
Proof.
  intros (Ha & _) (Hb & _) H v A B. apply (H v).
  - eapply Permutation_in; [apply Permutation_map; exact Ha|exact A].
  - eapply Permutation_in; [apply Permutation_map; exact Hb|exact B].
Qed.
Lemma pairwise_same a b : Forall2 msame b a -> pairwise a -> pairwise b.
Proof.
  intros H. induction H as [|x y b a Hxy H IH]; intros P; [constructor|]. inversion P as [|? ? F1 P1]; subst. constructor; [|apply IH; exact P1].
  clear IH P P1. induction H as [|x' y' b a Hx' H IH]; [constructor|]. inversion F1; subst. constructor; [|auto]. eapply apart_same; eassumption.
Qed.
Lemma pairwise_disjoint l : pairwise l -> disjoint_rows l.
Proof.
  intros H. induction H as [|a l F P IH]; intros [|k] [|k'] r r' v Hk Hk' A B; cbn in *; try discriminate; try reflexivity.
  - injection Hk as ->. exfalso. rewrite Forall_forall in F. exact (F r' (nth_error_In _ _ Hk') v A B).
  - injection Hk' as ->. exfalso. rewrite Forall_forall in F. exact (F r (nth_error_In _ _ Hk) v B A).
  - f_equal. eapply IH; eassumption.
Qed.
Lemma fill3_pairwise o1 o2 o3 pb ret : separate pb -> fill3 o1 o2 o3 pb = Ok ret -> pairwise ret.
Proof.
  intros Hsep H. pose proof (fill3_distinct _ _ _ _ _ H) as Hd. pose proof (fill3_from _ _ _ _ _ H) as Hf. clear H.
  unfold lhs_distinct in Hd. induction ret as [|a ret IH]; [constructor|]. cbn [map] in Hd. inversion Hd as [|? ? Hn Hd']; subst. constructor.
  - rewrite Forall_forall. intros b Hb v A B. apply Hn.
    destruct (Hf a (or_introl eq_refl)) as (c & Hc & Ec). destruct (Hf b (or_intror Hb)) as (c' & Hc' & Ec').
    apply in_map_iff in A, B. destruct A as (e & Ee & He), B as (e' & Ee' & He'). rewrite Ec in *. rewrite Ec' in He'.
    rewrite (Hsep c c' e e' Hc Hc' He He' ltac:(congruence)), <- Ec'. apply in_map. exact Hb.
  - apply IH; [exact Hd'|]. intros m Hm. apply Hf. right. exact Hm.
Qed.
Lemma merged_pairwise std_sort ddiv po pb cs : permutes std_sort -> separate pb -> make_merged std_sort ddiv po pb = Ok cs -> pairwise cs.
Proof.
  intros Hperm Hsep H.
  assert (Hu : forall r, make_unsorted std_sort pb = Ok r -> pairwise r).
  { intros r Hr. unfold make_unsorted in Hr. destruct (fill3 _ _ _ pb) as [r0| |] eqn:E; cbn [obind] in Hr; try discriminate.
    inversion Hr; subst r. eapply pairwise_perm; [symmetry; apply Hperm|]. eapply fill3_pairwise; [exact Hsep|exact E]. }
  assert (Hi : forall (o : outcome (list merged)), (forall r, o = Ok r -> pairwise r) -> forall r, (let! r := o in Ok (improve_memory_usage std_sort r)) = Ok r -> pairwise r).
  { intros [r0| |] Ho r Hr; cbn [obind] in Hr; try discriminate. inversion Hr; subst r. unfold improve_memory_usage.
    eapply pairwise_same; [apply sort_elements_same; assumption|]. apply Ho. reflexivity. }
  assert (Ho : forall r, make_ordered po pb = Ok r -> po <> po_none -> po <> po_memory -> (forall p, In p [po_p1; po_p2; po_p3; po_p4] -> po <> p) -> pairwise r).
  { intros r Hr N1 N2 N3. unfold make_ordered in Hr. destruct po; try congruence;
      try (exfalso; eapply N3; [|reflexivity]; cbn; tauto);
      (eapply fill3_pairwise; [exact Hsep|exact Hr]). }
  assert (Hs : make_special std_sort ddiv po pb = Ok cs -> pairwise cs).
  { unfold make_special. intros Hm. destruct (make_unsorted std_sort pb) as [r0| |] eqn:E; cbn [obind] in Hm; try discriminate.
    destruct (count_degrees _ _); cbn [of_opt obind] in Hm; try discriminate.
    destruct (fill_costs _ _ _ _); cbn [of_opt obind] in Hm; try discriminate.
    destruct (ratios _ _ _); cbn [of_opt obind] in Hm; try discriminate.
    match type of Hm with context [set_ids ?a ?b] => destruct (set_ids a b) eqn:Es end; cbn [of_opt obind] in Hm; try discriminate.
    inversion Hm; subst cs. eapply pairwise_same; [apply sort_elements_same; assumption|].
    eapply pairwise_perm; [symmetry; apply Hperm|]. eapply pairwise_same; [eapply set_ids_spec; exact Es|]. apply Hu. reflexivity. }
  unfold make_merged in H. destruct po; try (apply Hs; exact H); try (apply Hu; exact H);
    (eapply Hi; [|exact H]; first [exact Hu | intros r Hr; apply Ho; [exact Hr|discriminate|discriminate|intros p Hp E; subst p; cbn in Hp; intuition discriminate]]).
Qed.

(** ** The solver class *)
Lemma unit_class pb : unit_coefficients pb -> shares_affect (dispatch (which_problem_type pb)).
Proof.
  intros Hu. destruct (which_minimal pb inequalities_101) as [H _].
  - split; [|exact I]. intros c e Hc He. unfold factor_101. destruct (Hu c e Hc He); lia.
  - destruct (which_problem_type pb); cbn in *; auto; lia.
Qed.

(** ** The preprocessor *)
Lemma copy_elements_alike m l : forall v w l1 v1 l2 v2, copy_elements m l v = Some (l1, v1) -> copy_elements m l w = Some (l2, v2) -> l1 = l2.
Proof.
  induction l as [|e l IH]; intros v w l1 v1 l2 v2 H1 H2; cbn [copy_elements] in *; [congruence|].
  destruct (nth_error m (f_var e)) as [mi|]; cbn [bind] in *; [|discriminate]. destruct (fst mi).
  - destruct (copy_elements m l v) as [[a b]|] eqn:A; cbn [bind] in *; [|discriminate]. destruct (copy_elements m l w) as [[a' b']|] eqn:B; cbn [bind] in *; [|discriminate].
    rewrite (IH _ _ _ _ _ _ A B) in H1. cbn [fst snd] in *. congruence.
  - eapply IH; eassumption.
Qed.
Lemma copy_elements_in vars n l : forall v l1 v1, copy_elements (make_mapping vars (seq 0 n) 0) l v = Some (l1, v1) ->
  forall e', In e' l1 -> exists e, In e l /\ f_factor e = f_factor e' /\ nth_error (kept vars n) (f_var e') = Some (f_var e).
Proof.
  induction l as [|e l IH]; intros v l1 v1 H e' He'; cbn [copy_elements] in H; [injection H as <- <-; destruct He'|].
  destruct (nth_error (make_mapping vars (seq 0 n) 0) (f_var e)) as [mi|] eqn:E; cbn [bind] in H; [|discriminate].
  pose proof (mapping_defined _ _ _ _ E) as Hlt. pose proof (mapping_nth vars n (f_var e) Hlt) as Hm.
  destruct (fst mi) as [j|] eqn:Ej.
  - destruct (copy_elements _ l v) as [[a b]|] eqn:A; cbn [bind] in H; [|discriminate]. injection H as <- <-. cbn [fst] in He'. destruct He' as [<-|He'].
    + exists e. split; [left; reflexivity|]. split; [reflexivity|]. cbn [f_var]. destruct (vfind vars (f_var e)).
      * rewrite Hm in E. injection E as <-. discriminate.
      * destruct Hm as (j' & Hj & Hk). rewrite Hj in E. injection E as <-. cbn in Ej. injection Ej as <-. exact Hk.
    + destruct (IH _ _ _ A e' He') as (e0 & H1 & H2). exists e0. split; [right; exact H1|exact H2].
  - destruct (IH _ _ _ H e' He') as (e0 & H1 & H2). exists e0. split; [right; exact H1|exact H2].
Qed.
Lemma preprocess_separate pb x0 fuel q : well_formed pb -> solution x0 pb -> preprocess fuel pb = Ok (Some q) ->
  (separate pb -> separate q) /\ (unit_coefficients pb -> unit_coefficients q) /\ p_problem_type q = which_problem_type q.
Proof.
  intros Hwf Hx0 Hq. destruct (preprocess_run pb Hwf x0 Hx0 fuel q Hq) as (ch & s & s1 & U & mo & Hch & Hb & F).
  set (vars := s_vars s1 ++ U). set (n := length (v_values (p_vars pb))).
  assert (Hfrom : forall c', In c' (all_constraints q) -> exists c, In c (all_constraints pb) /\
            copy_elements (make_mapping vars (seq 0 n) 0) (c_elements c) (c_value c) = Some (c_elements c', c_value c')).
  { intros c' Hc'. apply all_constraints_ops in Hc'. destruct Hc' as [op H].
    pose proof (rb_csts _ _ _ _ _ (fi_rebuilt _ _ _ _ _ _ _ _ _ F) op) as Hcc. cbn [s_vars final_state] in Hcc.
    destruct (constraints_copy_spec _ _ _ _ _ Hcc) as [_ G].
    destruct (G c' H) as (i & c & k & H1 & H2 & H3 & ([l v] & Hr & ->)). exists c. split; [|exact Hr].
    apply all_constraints_ops. exists op. eapply nth_error_In; eassumption. }
  split; [|split].
  - intros Hsep c c' e e' Hc Hc' He He' Hv.
    destruct (Hfrom c Hc) as (d & Hd & Ed), (Hfrom c' Hc') as (d' & Hd' & Ed').
    destruct (copy_elements_in _ _ _ _ _ _ Ed e He) as (b & B1 & _ & B2). destruct (copy_elements_in _ _ _ _ _ _ Ed' e' He') as (b' & B1' & _ & B2').
    rewrite Hv, B2' in B2. rewrite (Hsep d d' b b' Hd Hd' B1 B1' ltac:(congruence)) in Ed.
    eapply copy_elements_alike; eassumption.
  - intros Hu c e Hc He. destruct (Hfrom c Hc) as (d & Hd & Ed). destruct (copy_elements_in _ _ _ _ _ _ Ed e He) as (b & B1 & B2 & _).
    rewrite <- B2. exact (Hu d b Hd B1).
  - exact (rb_class _ _ _ _ _ (fi_rebuilt _ _ _ _ _ _ _ _ _ F)).
Qed.

(** ** The value of a linear objective *)
Lemma linear_value n o x : o_qelements o = [] -> (forall e, In e (o_elements o) -> (o_var e < n)%nat) ->
  objective_value x o = o_value o + vsum n (fun v => linear_coef o v * bz (x v)).
Proof. intros Hq Hn. unfold objective_value. rewrite Hq, (lin_value_vsum n x _ Hn). cbn [quad_value]. unfold linear_coef. lia. Qed.
Lemma linear_no_worse n o x y t : o_qelements o = [] -> (forall e, In e (o_elements o) -> (o_var e < n)%nat) ->
  vsum n (fun v => sign t * linear_coef o v * bz (x v)) <= vsum n (fun v => sign t * linear_coef o v * bz (y v)) ->
  Preprocess_spec.no_worse t (objective_value x o) (objective_value y o).
Proof.
  intros Hq Hn. rewrite (vsum_ext _ _ (fun v => sign t * (linear_coef o v * bz (x v)))) by (intros; lia).
  rewrite (vsum_ext _ (fun v => sign t * linear_coef o v * bz (y v)) (fun v => sign t * (linear_coef o v * bz (y v)))) by (intros; lia).
  rewrite !vsum_scale. rewrite !(linear_value n o) by assumption. unfold Preprocess_spec.no_worse, sign. destruct t; lia.
Qed.

(** ** solve() *)
Section Solve.
Context {F G : Type} (fo : fops F) (ro : rops G)
        (std_sort : forall A : Type, (A -> A -> bool) -> list A -> list A) (ddiv : Z -> Z -> Z).
Hypothesis Hperm : permutes std_sort.
Hypothesis Hsorts : sorts std_sort.
Hypothesis Hshuf : shuffles ro.
Hypothesis Hord : ordered_floats fo.
Hypothesis Hnever : never_mutates ro.

Lemma solve_separate fuel po cl pb c0 nc pa after (g : G) r zero :
  well_formed pb -> separate pb -> linear_objective pb -> (forall y, fits_int y pb) -> (exists y, feasible y pb) ->
  all_constraints pb <> [] -> v_values (p_vars pb) <> [] -> shares_affect cl ->
  zeros fo (pa_theta pa) zero -> scaled_costs fo (p_objective pb) (length (v_values (p_vars pb))) nc ->
  scaled_costs fo (p_objective pb) (length (v_values (p_vars pb))) (fun v _ => c0 v) ->
  violated_order (pa_order pa) -> pa_init pa = ip_bastert -> pa_limit pa <> 0 -> pa_pushes_limit pa <= 0 ->
  solve_problem fo ro std_sort fuel ddiv po cl pb c0 nc pa after g = Finished (Ok r) ->
  sr_status r = st_success /\ exists x, sr_solutions r = [(x, Some (objective_value (as_assignment x) (p_objective pb)))] /\
    length x = length (v_values (p_vars pb)) /\ feasible (as_assignment x) pb /\
    forall y, feasible y pb -> Preprocess_spec.no_worse (p_type pb) (objective_value (as_assignment x) (p_objective pb)) (objective_value y (p_objective pb)).
Proof.
  intros (_ & _ & Hi & Hd & Ho & _) Hsep Hlin Hfit [y0 Hy0] Hne Hv Hcl Hze Hnc Hc0 Hvo Hini Hlim Hpush H. unfold solve_problem in H.
  destruct (make_merged std_sort ddiv po pb) as [cs| |] eqn:Em; try discriminate.
  pose proof (merged_rows_ok std_sort ddiv Hperm po pb cs Hi Hd Em) as Hrows.
  pose proof (fun y => merged_meaning std_sort ddiv Hperm po pb cs y Em (Hfit y)) as Hmean.
  assert (Hcs : cs <> []).
  { destruct (all_constraints pb) as [|c l] eqn:E; [contradiction|]. destruct (proj1 (merged_rows _ _ _ _ _ Hperm Em) c) as (m & Hin & _); [rewrite E; left; reflexivity|].
    destruct cs; [destruct Hin|discriminate]. }
  destruct cs as [|c1 cs1] eqn:Ecs; [contradiction|]. rewrite <- Ecs in *. destruct (v_values (p_vars pb)) as [|v1 vs1] eqn:Evs; [contradiction|]. rewrite <- Evs in *.
  replace (is_nil cs) with false in H by (rewrite Ecs; reflexivity). replace (is_nil (v_values (p_vars pb))) with false in H by (rewrite Evs; reflexivity).
  cbn [negb andb] in H.
  destruct (functor fo ro std_sort fuel cl cs (length (v_values (p_vars pb))) c0 nc pa (p_type pb) (p_objective pb) after g) as [[l st]| |] eqn:Ef; try discriminate.
  destruct (functor_separate fo ro std_sort Hperm Hsorts Hshuf Hord Hnever fuel cl cs _ c0 nc pa (p_type pb) (p_objective pb) after g l st zero Hze Hnc Hc0 Hcl Hrows)
    as [Hst (x & v & Hb & Hx & Hres & Hsat & Hopt)]; try assumption.
  { apply pairwise_disjoint. eapply merged_pairwise; eassumption. }
  { intros row Hr. exists y0. apply (proj2 (Hmean y0) Hy0). exact Hr. }
  apply results_ok in Hres. injection H as <-. cbn [sr_status sr_solutions]. rewrite Hb. cbn [be_x be_value].
  split; [exact Hst|]. exists x. split; [|split; [exact Hx|split; [apply Hmean; exact Hsat|]]].
  - destruct x; [cbn in Hx; rewrite Evs in Hx; discriminate|]. rewrite Hres. reflexivity.
  - intros y Hy. apply (linear_no_worse (length (v_values (p_vars pb)))); [exact Hlin|exact Ho|]. apply Hopt. apply Hmean. exact Hy.
Qed.

(** The parameters without pushes. *)
Definition no_push (pa : sparams F) : sparams F :=
  mk_sparams F (pa_limit pa) (pa_w pa) (pa_kappa_min pa) (pa_kappa_step pa) (pa_kappa_max pa) (pa_alpha pa) (pa_theta pa) (pa_delta pa)
    (pa_pushing_k_factor pa) (pa_amplifier pa) 0 (pa_pushing_iteration_limit pa) (pa_order pa) (pa_init pa).
Lemma no_push_same pa : same_but_pushes pa (no_push pa).
Proof. repeat split. Qed.
Lemma plain_separate random_optimizer raw_costs norm_costs pfuel fuel buffered po pa after (g : G) pb r zero :
  well_formed pb -> separate pb -> unit_coefficients pb -> linear_objective pb -> (forall y, fits_int y pb) -> (exists y, feasible y pb) ->
  all_constraints pb <> [] -> v_values (p_vars pb) <> [] ->
  zeros fo (pa_theta pa) zero -> scaled_costs fo (p_objective pb) (length (v_values (p_vars pb))) (norm_costs (unpreprocess pb)) ->
  scaled_costs fo (p_objective pb) (length (v_values (p_vars pb))) (fun v _ => raw_costs (unpreprocess pb) v) ->
  violated_order (pa_order pa) -> pa_init pa = ip_bastert -> pa_limit pa <> 0 ->
  user_solve fo ro std_sort ddiv random_optimizer raw_costs norm_costs pfuel fuel pp_none false buffered po pa after g pb = Finished (Ok r) ->
  sr_status r = st_success /\ exists x, sr_solutions r = [(x, Some (objective_value (as_assignment x) (p_objective pb)))] /\
    length x = length (v_values (p_vars pb)) /\ feasible (as_assignment x) pb /\
    forall y, feasible y pb -> Preprocess_spec.no_worse (p_type pb) (objective_value (as_assignment x) (p_objective pb)) (objective_value y (p_objective pb)).
Proof.
  intros Hwf Hsep Hu Hlin Hfit Hfe Hne Hv Hze Hnc Hc0 Hvo Hini Hlim H.
  rewrite (user_solve_pushes fo ro std_sort Hperm Hshuf _ _ _ _ _ _ _ _ _ _ pa (no_push pa)) in H by (assumption || apply no_push_same).
  unfold user_solve, itm_solve in H. cbn [negb] in H.
  apply (solve_separate fuel po _ (unpreprocess pb) _ _ (no_push pa) after g r zero Hwf Hsep Hlin Hfit Hfe Hne Hv) in H; try assumption.
  - destruct buffered; [exact I|]. apply (unit_class pb Hu).
  - cbn. lia.
Qed.
Lemma user_separate random_optimizer raw_costs norm_costs pfuel fuel buffered po pa after (g : G) pb q r zero :
  well_formed pb -> binary_bounds pb -> separate pb -> unit_coefficients pb -> linear_objective pb -> (forall y, fits_int y pb) -> (exists y, solution y pb) ->
  preprocess pfuel pb = Ok (Some q) ->
  zeros fo (pa_theta pa) zero -> scaled_costs fo (p_objective q) (length (v_values (p_vars q))) (norm_costs q) ->
  scaled_costs fo (p_objective q) (length (v_values (p_vars q))) (fun v _ => raw_costs q v) ->
  violated_order (pa_order pa) -> pa_init pa = ip_bastert -> pa_limit pa <> 0 ->
  user_solve fo ro std_sort ddiv random_optimizer raw_costs norm_costs pfuel fuel pp_all false buffered po pa after g pb = Finished (Ok r) ->
  sr_status r = st_success /\ exists x z, sr_solutions r = [(x, Some z)] /\ is_optimum pb z /\ (exists X, reports r x X pb) /\
    forall X, reports r x X pb -> solution X pb /\ objective_value X (p_objective pb) = z.
Proof.
  intros Hwf Hbin Hsep Hu Hlin Hfit [x0 Hx0] Hq Hze Hnc Hc0 Hvo Hini Hlim H.
  pose proof H as Hall.
  rewrite (user_solve_pushes fo ro std_sort Hperm Hshuf _ _ _ _ _ _ _ _ _ _ pa (no_push pa)) in H by (assumption || apply no_push_same).
  unfold user_solve, itm_solve in H. rewrite Hq in H. cbn [negb] in H.
  destruct (preprocess_shape pb x0 pfuel q Hwf Hx0 Hq) as (Wq & Rq & Aq & Lq & Tq). destruct (Lq Hlin) as [Wfq Hlq].
  destruct (preprocess_separate pb x0 pfuel q Hwf Hx0 Hq) as (Sq & Uq & Cq).
  pose proof (preprocess_complete pb Hwf x0 Hx0 pfuel q Hq) as Hcomp.
  assert (Hobj : forall y x, completes y q x pb -> objective_value y (p_objective q) = objective_value x (p_objective pb)).
  { intros y x. eapply (preprocess_objective pb Hwf x0 Hx0 pfuel q Hq); assumption. }
  assert (Hres : sr_status r = st_success /\ forall x v, sr_solutions r = [(x, v)] ->
            exists x1, (forall y, feasible y q -> Preprocess_spec.no_worse (p_type q) (objective_value x1 (p_objective q)) (objective_value y (p_objective q))) /\
                       v = Some (objective_value x1 (p_objective q))).
  { destruct (v_values (p_vars q)) as [|v1 vs] eqn:Ev.
    - destruct (solve_names fo ro std_sort ddiv _ _ _ _ _ _ _ _ _ _ H) as (_ & _ & _ & cs & Hm & Hcs & Hempty).
      destruct (Hempty (or_intror Ev)) as [Hs Hsol]. split; [exact Hs|]. intros x v E. rewrite Hsol in E. injection E as <- <-.
      assert (Hval : forall y, objective_value y (p_objective q) = o_value (p_objective q)).
      { intros y. rewrite (linear_value 0); [cbn; lia|exact Hlq|]. intros e He. destruct Wfq as (_ & _ & _ & _ & H3 & _). rewrite Ev in H3. apply (H3 e He). }
      exists (fun _ => false). rewrite Hval. split; [|reflexivity]. intros y _. rewrite Hval. unfold Preprocess_spec.no_worse. destruct (p_type q); lia.
    - rewrite <- Ev in *.
      assert (Hv : v_values (p_vars q) <> []) by congruence.
      destruct (preprocess_used pb x0 pfuel q Hwf Hx0 Hq 0%nat) as (c & e & Hc & _); [rewrite Ev; cbn; lia|].
      apply (solve_separate fuel po _ q _ _ (no_push pa) after g r zero) in H; try assumption.
      + destruct H as [Hs (x & Hsol & _ & _ & Hopt)]. split; [exact Hs|]. intros x' v E. rewrite Hsol in E. injection E as <- <-. eauto.
      + apply Sq, Hsep.
      + exact (preprocess_fits pb x0 pfuel q Hwf Hx0 Hq Hfit).
      + destruct (Hcomp x0 Hx0 Hbin) as (y & _ & Hy & _). exists y. apply Hy.
      + intros E. rewrite E in Hc. destruct Hc.
      + destruct buffered; [exact I|]. rewrite Cq. apply unit_class, Uq, Hu.
      + cbn. lia. }
  destruct Hres as [Hs Hopt]. split; [exact Hs|].
  assert (Hnr : false = true -> forall q, preprocess pfuel pb = Ok (Some q) -> p_problem_type q <> inequalities_01 /\ p_problem_type q <> inequalities_101) by discriminate.
  destruct (user_solve_answers fo ro std_sort ddiv Hperm _ _ _ _ _ _ _ _ _ _ _ pb r Hwf (ex_intro _ x0 Hx0) Hfit Hnr Hall Hs)
    as (x & v & Hsol & _ & _ & [X HX] & Hrep).
  destruct (Hopt x v Hsol) as (x1 & Ho & Hv). exists x, (objective_value x1 (p_objective q)). split; [rewrite Hsol, Hv; reflexivity|].
  assert (Hsolution : forall X, reports r x X pb -> solution X pb /\ objective_value X (p_objective pb) = objective_value x1 (p_objective q)).
  { intros Y HY. destruct (Hrep Y HY) as (A & B & C). split; [split; auto|]. specialize (C Hlin). congruence. }
  split; [|split; [eauto|exact Hsolution]].
  split; [exists X; exact (Hsolution X HX)|].
  intros Y HY. destruct (Hcomp Y HY Hbin) as (y' & x' & Hy' & Hc' & Hx' & _ & Hnw).
  specialize (Ho y' (proj1 Hy')). specialize (Hnw Hlin). rewrite (Hobj y' x' Hc'), Tq in Ho.
  unfold Preprocess_spec.no_worse in *. destruct (p_type pb); lia.
Qed.
End Solve.
