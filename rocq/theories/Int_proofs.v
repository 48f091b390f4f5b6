From Verif Require Import Base Problem_model Classify_model Merged_model Preprocess_model Validate_model
  Rows_model Solver_model Subsolver_model BranchBound_model Matrix_model Int_model Int_spec.
From Coq Require Import Lia Permutation.
Open Scope Z_scope.

Lemma int_bounds : int_min = -2147483648 /\ int_max = 2147483647.
Proof. split; reflexivity. Qed.
Lemma checked_ok z : -2147483648 <= z <= 2147483647 -> checked z = Some z.
Proof.
  intros H. unfold checked, int_ok. destruct int_bounds as [-> ->].
  destruct (Z.leb_spec (-2147483648) z); [|lia]. destruct (Z.leb_spec z 2147483647); [reflexivity|lia].
Qed.
Lemma weight_nonneg l : 0 <= weight l.
Proof. induction l as [|e l IH]; [cbn; lia|]. change (weight (e :: l)) with (Z.abs (f_factor e) + weight l). lia. Qed.
Lemma weight_cons e l : weight (e :: l) = Z.abs (f_factor e) + weight l.
Proof. reflexivity. Qed.
Lemma weight_in e l : In e l -> Z.abs (f_factor e) <= weight l.
Proof.
  induction l as [|a l IH]; intros []; rewrite weight_cons; pose proof (weight_nonneg l).
  - subst. lia.
  - specialize (IH H). lia.
Qed.
Lemma weight_perm a b : Permutation a b -> weight a = weight b.
Proof. induction 1; rewrite ?weight_cons; lia. Qed.

(** ** The preprocessor *)
Lemma int_sum_factor_ok l : forall init, Z.abs init + weight l <= 2147483647 ->
  int_sum_factor l init = Some (fold_left (fun i e => i + f_factor e) l init).
Proof.
  induction l as [|e l IH]; intros init H; cbn [int_sum_factor fold_left]; [reflexivity|].
  rewrite weight_cons in H. pose proof (weight_nonneg l). rewrite checked_ok by lia. cbn [bind]. apply IH. lia.
Qed.
Lemma int_sum_factor_eq c : constraint_fits c -> int_sum_factor (c_elements c) 0 = Some (sum_factor c).
Proof. intros H. apply int_sum_factor_ok. unfold constraint_fits in H. lia. Qed.

Lemma int_reduce_loop_ok vars l : forall res rem, Z.abs res + weight l <= 2147483647 ->
  int_reduce_loop vars l res rem = reduce_loop vars l res rem.
Proof.
  induction l as [|e l IH]; intros res rem H; cbn [int_reduce_loop reduce_loop]; [reflexivity|].
  rewrite weight_cons in H. pose proof (weight_nonneg l).
  destruct (vfind vars (f_var e)) as [b|].
  - rewrite (checked_ok (f_factor e * _)) by (destruct b; lia). cbn [of_opt obind].
    rewrite (checked_ok (-1 * _)) by (destruct b; lia). cbn [of_opt obind].
    rewrite checked_ok by (destruct b; lia). cbn [of_opt obind]. apply IH. destruct b; lia.
  - destruct rem; [reflexivity|]. apply IH. lia.
Qed.
Lemma reduce_loop_rem vars l : forall res rem e r, reduce_loop vars l res rem = Ok (Some e, r) -> rem = Some e \/ In e l.
Proof.
  induction l as [|a l IH]; intros res rem e r H; cbn [reduce_loop] in H.
  - inversion H. auto.
  - destruct (vfind vars (f_var a)) as [b|].
    + destruct (IH _ _ _ _ H); [auto|right; right; assumption].
    + destruct rem; [discriminate|]. destruct (IH _ _ _ _ H) as [E|E]; [inversion E; right; left; reflexivity|right; right; assumption].
Qed.
Lemma int_reduce_constraint_ok op vars c : constraint_fits c ->
  int_reduce_constraint op vars c = reduce_constraint op vars c.
Proof.
  intros H. unfold int_reduce_constraint, reduce_constraint, reduce. unfold constraint_fits in H.
  rewrite int_reduce_loop_ok by lia.
  destruct (reduce_loop vars (c_elements c) (c_value c) None) as [[[e|] r]| |] eqn:E; cbn [obind]; try reflexivity.
  destruct (reduce_loop_rem _ _ _ _ _ _ E) as [E'|E']; [discriminate|]. apply weight_in in E'.
  rewrite !checked_ok by lia. reflexivity.
Qed.
Lemma int_affect_csts_ok op csts vars idx : (forall c, In c csts -> constraint_fits c) -> forall cnt lf,
  int_affect_csts op csts vars idx cnt lf = affect_csts op csts vars idx cnt lf.
Proof.
  intros H. induction idx as [|i idx IH]; intros cnt lf; cbn [int_affect_csts affect_csts]; [reflexivity|].
  destruct (nth_error cnt i) as [k|]; cbn [of_opt obind]; [|reflexivity].
  destruct (Nat.eqb k 0); [apply IH|]. destruct (Nat.eqb (Nat.pred k) 1).
  - destruct (nth_error csts i) as [c|] eqn:E; cbn [of_opt obind]; [|reflexivity].
    rewrite int_reduce_constraint_ok by (apply H; eapply nth_error_In; eassumption).
    destruct (reduce_constraint op vars c) as [v| |]; cbn [obind]; try reflexivity.
    destruct (list_upd cnt i 0%nat); cbn [of_opt obind]; [apply IH|reflexivity].
  - destruct (list_upd cnt i (Nat.pred k)); cbn [of_opt obind]; [apply IH|reflexivity].
Qed.
Section Problem.
Variable pb : problem.
Hypothesis Hpb : problem_fits pb.
Lemma fit_e c : In c (p_equal pb) -> constraint_fits c.
Proof. intros H. apply Hpb. rewrite !in_app_iff. auto. Qed.
Lemma fit_g c : In c (p_greater pb) -> constraint_fits c.
Proof. intros H. apply Hpb. rewrite !in_app_iff. auto. Qed.
Lemma fit_l c : In c (p_less pb) -> constraint_fits c.
Proof. intros H. apply Hpb. rewrite !in_app_iff. auto. Qed.

Lemma int_affect_step_ok ch s v b lf : int_affect_step pb ch s v b lf = affect_step pb ch s v b lf.
Proof.
  unfold int_affect_step, affect_step. destruct (nth_error (in_equal ch) v) as [ie|]; cbn [of_opt obind]; [|reflexivity].
  rewrite (int_affect_csts_ok op_equal) by exact fit_e. destruct (affect_csts op_equal _ _ _ _ _) as [[eq lf1]| |]; cbn [obind]; try reflexivity.
  destruct (nth_error (in_greater ch) v) as [ig|]; cbn [of_opt obind]; [|reflexivity].
  rewrite (int_affect_csts_ok op_greater) by exact fit_g. destruct (affect_csts op_greater _ _ _ _ _) as [[gr lf2]| |]; cbn [obind]; try reflexivity.
  destruct (nth_error (in_less ch) v) as [il|]; cbn [of_opt obind]; [|reflexivity].
  rewrite (int_affect_csts_ok op_less) by exact fit_l. reflexivity.
Qed.
Lemma int_affects_ok fuel ch : forall s, int_affects fuel pb ch s = affects fuel pb ch s.
Proof.
  induction fuel as [|fuel IH]; intros s; cbn [int_affects affects]; [reflexivity|].
  destruct (s_lifo s) as [|[v b] lf]; [reflexivity|]. rewrite int_affect_step_ok.
  destruct (affect_step pb ch s v b lf); cbn [obind]; try reflexivity. apply IH.
Qed.
Lemma int_affect_unit_ok op vars c k lf : constraint_fits c -> int_affect_unit op vars c k lf = affect_unit op vars c k lf.
Proof.
  intros H. unfold int_affect_unit, affect_unit. rewrite int_reduce_constraint_ok by assumption.
  rewrite int_sum_factor_eq by assumption. destruct (Nat.eqb k 1); [reflexivity|].
  destruct (is_all_factor_ge_than_zero c); [|reflexivity]. destruct op; reflexivity.
Qed.
Lemma int_affect_units_ok op vars l : (forall c, In c l -> constraint_fits c) -> forall cnt lf,
  int_affect_units op vars l cnt lf = affect_units op vars l cnt lf.
Proof.
  induction l as [|c l IH]; intros H [|k cnt] lf; cbn [int_affect_units affect_units]; try reflexivity.
  rewrite int_affect_unit_ok by (apply H; left; reflexivity).
  destruct (affect_unit op vars c k lf) as [[k' lf']| |]; cbn [obind]; try reflexivity.
  rewrite IH by (intros; apply H; right; assumption). reflexivity.
Qed.
Lemma int_try_affect_variable_ok s : int_try_affect_variable pb s = try_affect_variable pb s.
Proof.
  unfold int_try_affect_variable, try_affect_variable.
  rewrite (int_affect_units_ok op_equal) by exact fit_e. destruct (affect_units op_equal _ _ _ _) as [[eq lf1]| |]; cbn [obind]; try reflexivity.
  rewrite (int_affect_units_ok op_greater) by exact fit_g. destruct (affect_units op_greater _ _ _ _) as [[gr lf2]| |]; cbn [obind]; try reflexivity.
  rewrite (int_affect_units_ok op_less) by exact fit_l. reflexivity.
Qed.
End Problem.

Lemma int_copy_elements_ok m l : forall v, Z.abs v + weight l <= 2147483647 ->
  int_copy_elements m l v = copy_elements m l v.
Proof.
  induction l as [|e l IH]; intros v H; cbn [int_copy_elements copy_elements]; [reflexivity|].
  rewrite weight_cons in H. pose proof (weight_nonneg l).
  destruct (nth_error m (f_var e)) as [[[j|] b]|]; cbn [bind fst snd]; [| |reflexivity].
  - rewrite IH by lia. reflexivity.
  - destruct b; [rewrite checked_ok by lia|]; cbn [bind]; apply IH; lia.
Qed.
Lemma copy_elements_fits m l : forall v els w, copy_elements m l v = Some (els, w) ->
  weight els + Z.abs w <= weight l + Z.abs v.
Proof.
  induction l as [|e l IH]; intros v els w H; cbn [copy_elements] in H.
  - inversion H. lia.
  - rewrite weight_cons. destruct (nth_error m (f_var e)) as [[[j|] b]|]; cbn [bind fst snd] in H; [| |discriminate].
    + destruct (copy_elements m l v) as [[els' w']|] eqn:E; cbn [bind fst snd] in H; [|discriminate]. inversion H; subst.
      rewrite weight_cons. cbn [f_factor]. specialize (IH _ _ _ E). lia.
    + specialize (IH _ _ _ H). destruct b; lia.
Qed.
Lemma int_constraints_exclude_copy_ok m l : (forall c, In c l -> constraint_fits c) -> forall cnt,
  int_constraints_exclude_copy m cnt l = constraints_exclude_copy m cnt l.
Proof.
  induction l as [|c l IH]; intros H [|k cnt]; cbn [int_constraints_exclude_copy constraints_exclude_copy]; try reflexivity.
  assert (Hc : constraint_fits c) by (apply H; left; reflexivity). unfold constraint_fits in Hc.
  rewrite int_copy_elements_ok by lia. rewrite !IH by (intros; apply H; right; assumption). reflexivity.
Qed.
Lemma constraints_exclude_copy_fits m l : (forall c, In c l -> constraint_fits c) -> forall cnt l',
  constraints_exclude_copy m cnt l = Some l' -> forall c, In c l' -> constraint_fits c.
Proof.
  induction l as [|c l IH]; intros H cnt l' E; cbn [constraints_exclude_copy] in E.
  - destruct cnt; inversion E; subst; intros ? [].
  - destruct cnt as [|k cnt]; [discriminate|].
    assert (IH' := IH (fun c H' => H c (or_intror H'))). clear IH.
    destruct (Nat.leb k 1); [eauto|].
    destruct (copy_elements m (c_elements c) (c_value c)) as [[els w]|] eqn:E1; cbn [bind fst snd] in E; [|discriminate].
    destruct (constraints_exclude_copy m cnt l) as [l''|] eqn:E2; cbn [bind] in E; [|discriminate]. inversion E; subst.
    intros c' [<-|Hc']; [|eapply IH'; eassumption]. unfold constraint_fits. cbn [c_elements c_value].
    pose proof (copy_elements_fits _ _ _ _ _ E1). specialize (H c (or_introl eq_refl)). unfold constraint_fits in H. lia.
Qed.
Section Problem2.
Variable pb : problem.
Hypothesis Hpb : problem_fits pb.
Lemma int_make_problem_ok aff mo s : int_make_problem pb aff mo s = make_problem pb aff mo s.
Proof.
  unfold int_make_problem, make_problem. cbn zeta.
  rewrite !int_constraints_exclude_copy_ok by first [exact (fit_e pb Hpb)|exact (fit_g pb Hpb)|exact (fit_l pb Hpb)]. reflexivity.
Qed.
Lemma int_finish_ok fuel aff ch s : int_finish fuel pb aff ch s = Preprocess_model.finish fuel pb aff ch s.
Proof.
  unfold int_finish, Preprocess_model.finish. rewrite int_affects_ok by assumption.
  destruct (affects fuel pb ch s) as [[s1|]| |]; cbn [obind]; try reflexivity.
  destruct (make_lp_from_bqp_objective pb ch s1); cbn [of_opt obind]; [|reflexivity].
  destruct (try_remove_unused_variable pb ch s1) as [s2|]; cbn [of_opt obind]; [|reflexivity].
  rewrite int_affects_ok by assumption. destruct (affects fuel pb ch s2) as [[s3|]| |]; cbn [obind]; try reflexivity.
  rewrite int_make_problem_ok. reflexivity.
Qed.
Lemma int_preprocess_ok fuel : int_preprocess fuel pb = preprocess fuel pb.
Proof.
  unfold int_preprocess, preprocess. destruct (make_caches pb); cbn [of_opt obind]; [|reflexivity].
  rewrite int_try_affect_variable_ok by assumption. destruct (try_affect_variable pb _); cbn [obind]; try reflexivity. apply int_finish_ok.
Qed.
Lemma int_affect_ok fuel v b : int_affect fuel pb v b = Preprocess_model.affect fuel pb v b.
Proof.
  unfold int_affect, Preprocess_model.affect. destruct (Nat.ltb v _); cbn [ensures]; [|reflexivity].
  destruct (make_caches pb); cbn [of_opt obind]; [|reflexivity]. apply int_finish_ok.
Qed.
Lemma make_problem_fits aff mo s q : make_problem pb aff mo s = Ok q -> problem_fits q.
Proof.
  unfold make_problem, ensures. intros H. destruct (Nat.eqb _ _); [|discriminate].
  destruct (objective_function_exclude_copy _ _ _); cbn [of_opt obind] in H; [|discriminate].
  destruct (variables_exclude_copy _ _ _ _ _) as [[vs af]|]; cbn [of_opt obind] in H; [|discriminate].
  destruct (names_kept _ _ _); [|discriminate].
  destruct (constraints_exclude_copy _ _ (p_equal pb)) as [eq|] eqn:E1; cbn [of_opt obind] in H; [|discriminate].
  destruct (constraints_exclude_copy _ _ (p_greater pb)) as [gr|] eqn:E2; cbn [of_opt obind] in H; [|discriminate].
  destruct (constraints_exclude_copy _ _ (p_less pb)) as [le|] eqn:E3; cbn [of_opt obind] in H; [|discriminate].
  destruct (_ && _); [|discriminate]. inversion H; subst q. intros c Hc. cbn [p_equal p_greater p_less] in Hc.
  rewrite !in_app_iff in Hc. destruct Hc as [Hc|[Hc|Hc]].
  - exact (constraints_exclude_copy_fits _ _ (fit_e pb Hpb) _ _ E1 c Hc).
  - exact (constraints_exclude_copy_fits _ _ (fit_g pb Hpb) _ _ E2 c Hc).
  - exact (constraints_exclude_copy_fits _ _ (fit_l pb Hpb) _ _ E3 c Hc).
Qed.
Lemma finish_fits fuel aff ch s q : Preprocess_model.finish fuel pb aff ch s = Ok (Some q) -> problem_fits q.
Proof.
  unfold Preprocess_model.finish. intros H. destruct (affects fuel pb ch s) as [[s1|]| |]; cbn [obind] in H; try discriminate.
  destruct (make_lp_from_bqp_objective pb ch s1); cbn [of_opt obind] in H; [|discriminate].
  destruct (try_remove_unused_variable pb ch s1) as [s2|]; cbn [of_opt obind] in H; [|discriminate].
  destruct (affects fuel pb ch s2) as [[s3|]| |]; cbn [obind] in H; try discriminate.
  destruct (make_problem pb aff m s3) as [q'| |] eqn:E; cbn [obind] in H; try discriminate. inversion H; subst.
  eapply make_problem_fits; eassumption.
Qed.
Lemma preprocess_fits fuel q : preprocess fuel pb = Ok (Some q) -> problem_fits q.
Proof.
  unfold preprocess. intros H. destruct (make_caches pb); cbn [of_opt obind] in H; [|discriminate].
  destruct (try_affect_variable pb _); cbn [obind] in H; try discriminate. eapply finish_fits; eassumption.
Qed.
Lemma affect_fits fuel v b q : Preprocess_model.affect fuel pb v b = Ok (Some q) -> problem_fits q.
Proof.
  unfold Preprocess_model.affect. intros H. destruct (Nat.ltb v _); cbn [ensures] in H; [|discriminate].
  destruct (make_caches pb); cbn [of_opt obind] in H; [|discriminate]. eapply finish_fits; eassumption.
Qed.
End Problem2.
