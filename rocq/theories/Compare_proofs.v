(** Proofs about the comparisons. *)
From Coq Require Import QArith Lqa.
From Verif Require Import Base Problem_model Problem_spec Classify_model Validate_model Params_model Params_proofs Preprocess_model Compare_model Compare_spec.
Open Scope Z_scope.

Lemma vec_eqb_spec {A} (eqb : A -> A -> bool) (R : A -> A -> Prop) : (forall x y, eqb x y = true <-> R x y) ->
  forall a b, vec_eqb eqb a b = true <-> Forall2 R a b.
Proof.
  intros H a. induction a as [|x a IH]; intros [|y b]; cbn [vec_eqb].
  - split; [constructor|reflexivity].
  - split; [discriminate|intros K; inversion K].
  - split; [discriminate|intros K; inversion K].
  - rewrite andb_true_iff, H, IH. split; [intros [K1 K2]; constructor; assumption|intros K; inversion K; auto].
Qed.
Lemma Forall2_eq {A} (a b : list A) : Forall2 eq a b <-> a = b.
Proof. split; [induction 1; congruence|intros <-; induction a; constructor; auto]. Qed.
Lemma vec_eqb_eq {A} (eqb : A -> A -> bool) : (forall x y, eqb x y = true <-> x = y) -> forall a b, vec_eqb eqb a b = true <-> a = b.
Proof. intros H a b. rewrite (vec_eqb_spec eqb eq H). apply Forall2_eq. Qed.
Lemma text_eqb_eq a b : text_eqb a b = true <-> a = b.
Proof. unfold text_eqb. destruct (list_eq_dec _ a b); split; congruence. Qed.
Lemma value_eqb_eq a b : value_eqb a b = true <-> a = b.
Proof.
  unfold value_eqb. rewrite !andb_true_iff, !Z.eqb_eq. destruct a as [a1 a2 a3], b as [b1 b2 b3]; cbn. split.
  - intros [[-> ->] H]. destruct a3, b3; (reflexivity || discriminate).
  - intros H. injection H as -> -> ->. destruct b3; auto.
Qed.
Lemma variables_eqb_eq a b : variables_eqb a b = true <-> a = b.
Proof.
  unfold variables_eqb. rewrite andb_true_iff, (vec_eqb_eq _ text_eqb_eq), (vec_eqb_eq _ value_eqb_eq). destruct a, b; cbn. split; [intros [-> ->]; reflexivity|intros H; injection H; auto].
Qed.
Lemma oelem_eqb_eq a b : oelem_eqb a b = true <-> a = b.
Proof. unfold oelem_eqb. rewrite andb_true_iff, Z.eqb_eq, Nat.eqb_eq. destruct a, b; cbn. split; [intros [-> ->]; reflexivity|intros H; injection H; auto]. Qed.
Lemma affected_eqb_eq a b : affected_eqb a b = true <-> a = b.
Proof.
  unfold affected_eqb. rewrite andb_true_iff, (vec_eqb_eq _ text_eqb_eq), (vec_eqb_eq _ Bool.eqb_true_iff). destruct a, b; cbn. split; [intros [-> ->]; reflexivity|intros H; injection H; auto].
Qed.
Lemma constraint_eqb_same a b : constraint_eqb a b = true <-> same_constraint a b.
Proof.
  unfold constraint_eqb, same_constraint. rewrite !andb_true_iff, Z.eqb_eq, text_eqb_eq.
  assert (E : felems_eqb (c_elements a) (c_elements b) = true <-> c_elements a = c_elements b) by (destruct (felems_eqb_spec (c_elements a) (c_elements b)); split; congruence).
  rewrite E. tauto.
Qed.
Lemma otype_eqb_eq a b : otype_eqb a b = true <-> a = b.
Proof. destruct a, b; cbn; split; congruence. Qed.
Lemma ptype_eqb_eq a b : ptype_eqb a b = true <-> a = b.
Proof. destruct a, b; cbn; split; congruence. Qed.
Lemma raw_eqb_same a b : raw_eqb a b = true <-> same_linear a b.
Proof.
  unfold raw_eqb, same_linear, objective_eqb. rewrite !andb_true_iff, !(vec_eqb_spec _ _ constraint_eqb_same), variables_eqb_eq, otype_eqb_eq, (vec_eqb_eq _ oelem_eqb_eq), Z.eqb_eq. tauto.
Qed.
Lemma problem_eqb_raw a b : problem_eqb a b = true <-> raw_eqb a b = true /\ p_affected a = p_affected b /\ p_problem_type a = p_problem_type b.
Proof. unfold problem_eqb, raw_eqb. rewrite !andb_true_iff, affected_eqb_eq, ptype_eqb_eq. tauto. Qed.
Lemma same_constraint_sym c d : same_constraint c d -> same_constraint d c.
Proof. unfold same_constraint. intuition congruence. Qed.
Lemma Forall2_refl_of {A} (R : A -> A -> Prop) l : (forall x, R x x) -> Forall2 R l l.
Proof. intros H. induction l; constructor; auto. Qed.
Lemma Forall2_sym_of {A} (R : A -> A -> Prop) a b : (forall x y, R x y -> R y x) -> Forall2 R a b -> Forall2 R b a.
Proof. intros H. induction 1; constructor; auto. Qed.
Lemma Forall2_trans_of {A} (R : A -> A -> Prop) a b c : (forall x y z, R x y -> R y z -> R x z) -> Forall2 R a b -> Forall2 R b c -> Forall2 R a c.
Proof. intros H H1. revert c. induction H1; intros c H2; inversion H2; subst; constructor; eauto. Qed.
Lemma same_linear_refl a : same_linear a a.
Proof. unfold same_linear. repeat split; apply Forall2_refl_of; intros; repeat split. Qed.
Lemma same_linear_sym a b : same_linear a b -> same_linear b a.
Proof. intros (H1 & H2 & H3 & H4 & H5 & H6 & H7). unfold same_linear. repeat split; auto; apply (Forall2_sym_of _ _ _ same_constraint_sym); assumption. Qed.
Lemma same_linear_trans a b c : same_linear a b -> same_linear b c -> same_linear a c.
Proof.
  assert (T : forall x y z, same_constraint x y -> same_constraint y z -> same_constraint x z) by (unfold same_constraint; intuition congruence).
  intros (H1 & H2 & H3 & H4 & H5 & H6 & H7) (K1 & K2 & K3 & K4 & K5 & K6 & K7). unfold same_linear.
  repeat split; try congruence; eapply Forall2_trans_of; eauto.
Qed.
(** The constraints hold together. *)
Lemma same_all (P : constraint -> Prop) a b : (forall c d, same_constraint c d -> P c -> P d) -> Forall2 same_constraint a b -> (forall c, In c a -> P c) -> forall c, In c b -> P c.
Proof.
  intros H. induction 1 as [|c d a b Hc _ IH]; intros Ha e He; [destruct He|]. destruct He as [<-|He]; [apply (H c); [exact Hc|apply Ha; left; reflexivity]|].
  apply IH; [intros f Hf; apply Ha; right; exact Hf|exact He].
Qed.
Lemma same_feasible x a b : same_linear a b -> feasible x a -> feasible x b.
Proof.
  intros (_ & _ & H3 & H4 & H5 & _) (K1 & K2 & K3).
  split; [|split]; [eapply (same_all (sat_equal x)); [|exact H3|exact K1]|eapply (same_all (sat_greater x)); [|exact H4|exact K2]|eapply (same_all (sat_less x)); [|exact H5|exact K3]].
  all: unfold sat_equal, sat_greater, sat_less; intros c d (_ & E1 & E2); rewrite E1, E2; auto.
Qed.
Lemma same_objective x a b : same_linear a b -> o_qelements (p_objective a) = o_qelements (p_objective b) -> objective_value x (p_objective a) = objective_value x (p_objective b).
Proof. intros (H1 & H2 & _) H. unfold objective_value. congruence. Qed.
(** The same check of a result. *)
Lemma same_check bad vars a b : Forall2 same_constraint a b -> check_all bad vars a = check_all bad vars b.
Proof. induction 1 as [|c d a b (_ & E1 & E2) _ IH]; [reflexivity|]. cbn [check_all]. rewrite E1, E2, IH. reflexivity. Qed.
Lemma same_valid a b r : same_linear a b -> is_valid_solution a r = is_valid_solution b r.
Proof.
  intros (_ & _ & H3 & H4 & H5 & H6 & _). unfold is_valid_solution, make_variable_value, is_valid_solution_impl. rewrite H6.
  destruct (r_last r); [|reflexivity]. destruct (negb (r_ok r)); [reflexivity|].
  do 3 (match goal with |- ensures ?c _ = ensures ?c _ => destruct c; cbn [ensures]; [|reflexivity] end).
  match goal with |- context [ensures ?c (ensures ?d ?k)] => destruct (ensures c (ensures d k)) end; cbn; try reflexivity.
  rewrite (same_check _ _ _ _ H3), (same_check _ _ _ _ H4), (same_check _ _ _ _ H5). reflexivity.
Qed.
Lemma same_value a b r : same_linear a b -> o_qelements (p_objective a) = o_qelements (p_objective b) -> compute_solution a r = compute_solution b r.
Proof.
  intros (H1 & H2 & _ & _ & _ & H6 & _) Hq. unfold compute_solution, make_variable_value, compute_solution_impl. rewrite H6, H1, H2, Hq. reflexivity.
Qed.
(** The same solver. *)
Lemma same_coef a b : Forall2 same_constraint a b -> forall z, coef_csts a z = coef_csts b z.
Proof. induction 1 as [|c d a b (_ & E1 & E2) _ IH]; intros z; [reflexivity|]. cbn [coef_csts]. rewrite E1. destruct (coef_elems _ _); auto. Qed.
Lemma same_nil {A} (R : A -> A -> Prop) a b : Forall2 R a b -> is_nil a = is_nil b.
Proof. destruct 1; reflexivity. Qed.
Lemma same_class a b : same_linear a b -> which_problem_type a = which_problem_type b.
Proof.
  intros (_ & _ & H3 & H4 & H5 & _). unfold which_problem_type, coefficient_type, coefficient_type_of.
  rewrite !(same_coef _ _ H3), !(same_coef _ _ H4), !(same_coef _ _ H5), (same_nil _ _ _ H4), (same_nil _ _ _ H5). reflexivity.
Qed.
Lemma same_unpreprocess a b : same_linear a b -> problem_eqb (unpreprocess a) (unpreprocess b) = true.
Proof.
  intros H. apply problem_eqb_raw. split; [apply raw_eqb_same; exact H|]. split; [reflexivity|]. cbn. apply same_class. exact H.
Qed.
(** *** Solutions *)
Lemma dlt_irrefl a : dlt a a = false.
Proof. destruct a as [| | |q]; try reflexivity. apply dlt_fin_f. apply Qle_refl. Qed.
Lemma dlt_trans a b c : dlt a b = true -> dlt b c = true -> dlt a c = true.
Proof.
  destruct a as [| | |x], b as [| | |y], c as [| | |z]; try discriminate; try reflexivity. rewrite !dlt_fin. intros; lra.
Qed.
(** Not below, for numbers. *)
Lemma dlt_cotrans a b c : b <> NaN -> dlt a c = true -> dlt a b = true \/ dlt b c = true.
Proof.
  intros Hb. destruct a as [| | |x], b as [| | |y], c as [| | |z]; try discriminate; try congruence; auto.
  rewrite !dlt_fin. intros H. destruct (Qlt_le_dec x y); [left; assumption|right; lra].
Qed.
