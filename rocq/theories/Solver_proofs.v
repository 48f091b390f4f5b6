(** Proofs about the sweeps and the solving loop. *)
From Coq Require Import Permutation Sorted.
From Verif Require Import Base Problem_model Problem_spec Merged_model Merged_spec Merged_proofs Classify_model Classify_proofs Matrix_model
  Rows_model Subsolver_model BranchBound_model ZRow_model RandomRow_model Rows_spec Rows_proofs Validate_model Solver_model Solver_spec.
Open Scope Z_scope.

(** ** Violated rows *)
Lemma violates_iff x c : violates x c = false <-> row_satisfied x c.
Proof. unfold violates, row_satisfied. rewrite Bool.negb_false_iff. lia. Qed.
Lemma violated_at_filter cs : forall k x, length (violated_at k x cs) = length (filter (violates x) cs).
Proof. induction cs as [|c cs IH]; intros k x; cbn; [reflexivity|]. destruct (violates x c); cbn; rewrite IH; reflexivity. Qed.
Lemma violated_at_in cs : forall k x j, In j (violated_at k x cs) <-> exists c, (k <= j)%nat /\ nth_error cs (j - k) = Some c /\ violates x c = true.
Proof.
  induction cs as [|c cs IH]; intros k x j; cbn [violated_at].
  - split; [intros []|]. intros (c & _ & H & _). destruct (j - k)%nat; discriminate.
  - assert (Hr : In j (violated_at (S k) x cs) <-> exists c', (k < j)%nat /\ nth_error (c :: cs) (j - k) = Some c' /\ violates x c' = true).
    { rewrite IH. split; intros (c' & H1 & H2 & H3); exists c'.
      - replace (j - k)%nat with (S (j - S k)) by lia. cbn. repeat split; try assumption; lia.
      - replace (j - k)%nat with (S (j - S k)) in H2 by lia. cbn in H2. repeat split; try assumption; lia. }
    destruct (violates x c) eqn:E; cbn [In]; rewrite Hr.
    + split.
      * intros [<-|(c' & H1 & H2)]; [exists c; rewrite Nat.sub_diag; auto|exists c'; split; [lia|tauto]].
      * intros (c' & H1 & H2 & H3). destruct (Nat.eq_dec k j) as [->|]; [left; reflexivity|right; exists c'; split; [lia|tauto]].
    + split.
      * intros (c' & H1 & H2); exists c'; split; [lia|tauto].
      * intros (c' & H1 & H2 & H3). destruct (Nat.eq_dec k j) as [->|]; [|exists c'; split; [lia|tauto]].
        rewrite Nat.sub_diag in H2. cbn in H2. inversion H2; subst. congruence.
Qed.
Lemma violated_rows_in cs x k : In k (violated_rows cs x) <-> exists c, nth_error cs k = Some c /\ violates x c = true.
Proof. unfold violated_rows. rewrite violated_at_in, Nat.sub_0_r. split; intros (c & H); exists c; intuition lia. Qed.
Lemma violated_rows_length cs x : Z.of_nat (length (violated_rows cs x)) = violations cs x.
Proof. unfold violated_rows, violations. rewrite violated_at_filter. reflexivity. Qed.
Lemma violations_nonneg cs x : 0 <= violations cs x.
Proof. unfold violations. lia. Qed.
Lemma violations_0 cs x : violations cs x = 0 <-> forall c, In c cs -> row_satisfied x c.
Proof.
  unfold violations. split.
  - intros H c Hc. apply violates_iff. destruct (violates x c) eqn:E; [|reflexivity].
    assert (Hin : In c (filter (violates x) cs)) by (apply filter_In; auto). destruct (filter (violates x) cs); [destruct Hin|cbn in H; lia].
  - intros H. enough (Hf : filter (violates x) cs = []) by (rewrite Hf; reflexivity).
    revert H. induction cs as [|c cs IH]; intros H; cbn; [reflexivity|]. rewrite (proj2 (violates_iff x c)); [|apply H; left; reflexivity].
    apply IH. intros c' Hc'. apply H. right. assumption.
Qed.

(** ** Objective *)
Lemma results_lin_ok x l : forall v w, results_lin x l v = Some w -> w = v + lin_value (as_assignment x) l.
Proof.
  induction l as [|e l IH]; intros v w H; cbn in *; [inversion H; lia|].
  destruct (nth_error x (o_var e)) as [b|] eqn:E; cbn in H; [|discriminate]. apply IH in H. rewrite H.
  unfold as_assignment. rewrite (nth_error_nth _ _ _ E). destruct b; cbn [bz]; lia.
Qed.
Lemma results_quad_ok x l : forall v w, results_quad x l v = Some w -> w = v + quad_value (as_assignment x) l.
Proof.
  induction l as [|e l IH]; intros v w H; cbn in *; [inversion H; lia|].
  destruct (nth_error x (q_vara e)) as [a|] eqn:Ea; cbn in H; [|discriminate].
  unfold as_assignment at 1 2. rewrite (nth_error_nth _ _ _ Ea).
  destruct a; cbn [bind andb] in H.
  - destruct (nth_error x (q_varb e)) as [b|] eqn:Eb; cbn in H; [|discriminate]. apply IH in H. rewrite H, (nth_error_nth _ _ _ Eb). destruct b; cbn [bz]; lia.
  - apply IH in H. rewrite H. cbn [bz]. lia.
Qed.
Lemma results_ok o x v : results o x = Some v -> v = objective_value (as_assignment x) o.
Proof.
  unfold results, objective_value. destruct (results_lin x (o_elements o) (o_value o)) as [w|] eqn:E; cbn; [|discriminate].
  intros H. apply results_lin_ok in E. apply results_quad_ok in H. lia.
Qed.
Definition objective_in (n : nat) (o : objective) : Prop :=
  (forall e, In e (o_elements o) -> (o_var e < n)%nat) /\
  (forall e, In e (o_qelements o) -> (q_vara e < n)%nat /\ (q_varb e < n)%nat).
Lemma results_total n o x : objective_in n o -> length x = n -> exists v, results o x = Some v.
Proof.
  intros [H1 H2] Hx. unfold results.
  assert (Hl : forall l v, (forall e, In e l -> (o_var e < n)%nat) -> exists w, results_lin x l v = Some w).
  { induction l as [|e l IH]; intros v H; cbn; [eauto|]. destruct (nth_error x (o_var e)) as [b|] eqn:E.
    - cbn. apply IH. intros; apply H; right; assumption.
    - apply nth_error_None in E. specialize (H e (or_introl eq_refl)). lia. }
  assert (Hq : forall l v, (forall e, In e l -> (q_vara e < n)%nat /\ (q_varb e < n)%nat) -> exists w, results_quad x l v = Some w).
  { induction l as [|e l IH]; intros v H; cbn; [eauto|]. destruct (H e (or_introl eq_refl)) as [Ha Hb].
    destruct (nth_error x (q_vara e)) as [a|] eqn:E; [|apply nth_error_None in E; lia].
    destruct (nth_error x (q_varb e)) as [b|] eqn:E'; [|apply nth_error_None in E'; lia].
    destruct a; cbn; apply IH; intros; apply H; right; assumption. }
  destruct (Hl _ (o_value o) H1) as [w ->]. cbn. apply Hq. assumption.
Qed.

(** ** Sizes are kept, whatever happens *)
Section Length.
Context {F G : Type} (fo : fops F) (ro : rops G)
        (std_sort : forall A : Type, (A -> A -> bool) -> list A -> list A).
Lemma assign_range_length row (R : list (rc F)) up d m : forall i x P x' P', assign_range fo row R up d m i x P = Some (x', P') -> length x' = length x.
Proof.
  induction m as [|m IH]; intros i x P x' P' H; cbn in H; [inversion H; reflexivity|].
  destruct (nth_error R i) as [e|]; cbn in H; [|discriminate]. destruct (nth_error row (rc_id e)) as [[slot col]|]; cbn in H; [|discriminate].
  destruct (list_upd x col _) as [x1|] eqn:E; cbn in H; [|discriminate]. destruct (list_modify P slot _) as [P1|]; cbn in H; [|discriminate].
  rewrite (IH _ _ _ _ _ H). eapply list_upd_length; eassumption.
Qed.
Lemma affect_length sv k row sel r_size kappa delta (s s' : state F G) b :
  affect fo sv k row sel r_size kappa delta s = Some (s', b) -> length (s_x s') = length (s_x s).
Proof.
  unfold affect. destruct (nth_error (s_pi s) k) as [old|]; cbn [bind]; [|discriminate].
  match goal with |- bind ?e _ = _ -> _ => destruct e as [[[x P] pi]|] eqn:E end; cbn [bind]; [|discriminate].
  destruct (is_valid_constraint sv k x) as [[|]|]; cbn [bind]; try discriminate.
  destruct (nth_error pi k); cbn [bind]; [|discriminate]. intros H. inversion H; subst. cbn. clear H. revert E.
  destruct (sel <? 0); [|destruct (_ <=? _)].
  - destruct (nth_error (s_R s) 0); cbn [bind]; [|discriminate].
    destruct (assign_range _ _ _ _ _ _ _ _ _) as [[x' P']|] eqn:E; cbn [bind]; [|discriminate]. intros H; inversion H; subst. eapply assign_range_length; eassumption.
  - destruct (nth_Z (s_R s) sel); cbn [bind]; [|discriminate].
    destruct (assign_range _ _ _ _ _ _ _ _ _) as [[x' P']|] eqn:E; cbn [bind]; [|discriminate]. intros H; inversion H; subst. eapply assign_range_length; eassumption.
  - destruct (nth_Z (s_R s) sel); cbn [bind]; [|discriminate]. destruct (nth_Z (s_R s) (sel + 1)); cbn [bind]; [|discriminate].
    destruct (list_modify (s_pi s) k _); cbn [bind]; [|discriminate].
    destruct (assign_range _ _ _ _ _ _ _ (s_x s) _) as [[x1 P1]|] eqn:E1; cbn [bind]; [|discriminate].
    destruct (assign_range _ _ _ _ _ _ _ x1 _) as [[x' P']|] eqn:E; cbn [bind]; [|discriminate]. intros H; inversion H; subst.
    erewrite (assign_range_length _ _ _ _ _ _ _ _ _ _ E). eapply assign_range_length; eassumption.
Qed.
Lemma update_row_length sv push kappa delta theta k (s s' : state F G) b :
  update_row fo ro std_sort sv push kappa delta theta k s = Some (s', b) -> length (s_x s') = length (s_x s).
Proof.
  unfold update_row. destruct (mx_row (sv_ap sv) k) as [row|]; cbn [bind]; [|discriminate].
  destruct (decrease_preference fo theta row (s_P s)); cbn [bind]; [|discriminate].
  destruct (compute_reduced_costs _ _ _ _ _ _ _ _ _) as [[[R r_size] c_size]|]; cbn [bind]; [|discriminate].
  match goal with |- bind ?e _ = _ -> _ => destruct e as [R2|]; cbn [bind]; [|discriminate] end.
  destruct (calculator_sort _ _ _ _ _ _ _) as [R3 g]. destruct (bound_min sv k); cbn [bind]; [|discriminate].
  destruct (bound_max sv k); cbn [bind]; [|discriminate]. destruct (select_variables _ _ _ _ _ _ _ _ _) as [[sel g']|]; cbn [bind]; [|discriminate].
  intros H. apply affect_length in H. exact H.
Qed.
Lemma zassign_length sv row R pi one d n : forall i x P x' P', zassign fo sv row R pi one d n i x P = Some (x', P') -> length x' = length x.
Proof.
  induction n as [|n IH]; intros i x P x' P' H; cbn [zassign] in H; [inversion H; reflexivity|].
  destruct (nth_error R i) as [e|]; cbn [bind] in H; [|discriminate]. destruct (nth_error row (rc_id e)) as [[slot col]|]; cbn [bind] in H; [|discriminate].
  destruct (list_upd x col one) as [x1|] eqn:E; cbn [bind] in H; [|discriminate].
  destruct (list_modify P slot _) as [P1|]; cbn [bind] in H; [|discriminate].
  destruct (zreduced_cost _ _ _ _ _ _) as [r|]; cbn [bind] in H; [|discriminate].
  match type of H with bind ?t _ = _ => destruct t as [P2|] end; cbn [bind] in H; [|discriminate].
  rewrite (IH _ _ _ _ _ H). eapply list_upd_length. eassumption.
Qed.
Lemma zaffect_length sv k row sel r_size kappa delta (s s' : state F G) b :
  zaffect fo sv k row sel r_size kappa delta s = Some (s', b) -> length (s_x s') = length (s_x s).
Proof.
  unfold zaffect. destruct (nth_error (s_pi s) k) as [old|]; cbn [bind]; [|discriminate].
  match goal with |- bind ?e _ = _ -> _ => destruct e as [[[x P] pi]|] eqn:E end; cbn [bind]; [|discriminate].
  destruct (is_valid_constraint sv k x) as [[|]|]; cbn [bind]; try discriminate.
  destruct (nth_error pi k); cbn [bind]; [|discriminate]. intros H. inversion H; subst. cbn. clear H. revert E.
  destruct (sel <? 0); [|destruct (_ <=? _)].
  - destruct (nth_error (s_R s) 0); cbn [bind]; [|discriminate]. destruct (list_modify (s_pi s) k _); cbn [bind]; [|discriminate].
    destruct (zassign _ _ _ _ _ _ _ _ _ _ _) as [[x' P']|] eqn:E; cbn [bind]; [|discriminate]. intros H; inversion H; subst. eapply zassign_length; eassumption.
  - destruct (nth_Z _ sel); cbn [bind]; [|discriminate]. destruct (list_modify (s_pi s) k _); cbn [bind]; [|discriminate].
    destruct (zassign _ _ _ _ _ _ _ _ _ _ _) as [[x' P']|] eqn:E; cbn [bind]; [|discriminate]. intros H; inversion H; subst. eapply zassign_length; eassumption.
  - destruct (nth_Z (s_R s) sel); cbn [bind]; [|discriminate]. destruct (nth_Z (s_R s) (sel + 1)); cbn [bind]; [|discriminate].
    destruct (list_modify (s_pi s) k _); cbn [bind]; [|discriminate].
    destruct (zassign _ _ _ _ _ _ _ _ _ (s_x s) _) as [[x1 P1]|] eqn:E1; cbn [bind]; [|discriminate].
    destruct (zassign _ _ _ _ _ _ _ _ _ x1 _) as [[x' P']|] eqn:E; cbn [bind]; [|discriminate]. intros H; inversion H; subst.
    erewrite (zassign_length _ _ _ _ _ _ _ _ _ _ _ _ E). eapply zassign_length; eassumption.
Qed.
Lemma random_set_length row kappa delta (e : rc F) b x P x' P' : random_set fo row kappa delta e b x P = Some (x', P') -> length x' = length x.
Proof.
  unfold random_set. destruct (nth_error row (rc_id e)) as [[slot col]|]; cbn [bind]; [|discriminate].
  destruct (list_upd x col b) as [x1|] eqn:E; cbn [bind]; [|discriminate]. destruct (list_modify P slot _); cbn [bind]; [|discriminate].
  intros H. inversion H; subst. eapply list_upd_length. eassumption.
Qed.
Lemma random_first_length row (R : list (rc F)) lo kappa delta n : forall i v x P i' v' x' P',
  random_first fo row R lo kappa delta n i v x P = Some (i', v', x', P') -> length x' = length x.
Proof.
  induction n as [|n IH]; intros i v x P i' v' x' P' H; cbn [random_first] in H; [inversion H; reflexivity|].
  destruct (nth_error R i) as [e|]; cbn [bind] in H; [|discriminate].
  destruct (random_set _ _ _ _ _ _ _ _) as [[x1 P1]|] eqn:E; cbn [bind] in H; [|discriminate]. apply random_set_length in E.
  destruct (lo <=? v + rc_f e); [inversion H; subst; assumption|]. apply IH in H. lia.
Qed.
Lemma random_rest_length row (R : list (rc F)) kappa delta n : forall i x P x' P',
  random_rest fo row R kappa delta n i x P = Some (x', P') -> length x' = length x.
Proof.
  induction n as [|n IH]; intros i x P x' P' H; cbn [random_rest] in H; [inversion H; reflexivity|].
  destruct (nth_error R i) as [e|]; cbn [bind] in H; [|discriminate].
  destruct (random_set _ _ _ _ _ _ _ _) as [[x1 P1]|] eqn:E; cbn [bind] in H; [|discriminate]. apply random_set_length in E.
  apply IH in H. lia.
Qed.
Lemma random_second_length mode row (R : list (rc F)) lo hi kappa delta n : forall i v x P g x' P' (g' : G),
  random_second fo ro mode row R lo hi kappa delta n i v x P g = Some (x', P', g') -> length x' = length x.
Proof.
  induction n as [|n IH]; intros i v x P g x' P' g' H; cbn [random_second] in H; [inversion H; reflexivity|].
  destruct (nth_error R i) as [e|]; cbn [bind] in H; [|discriminate].
  match type of H with (let '(_, _) := ?t in _) = _ => destruct t as [valid g1] end.
  destruct (random_set _ _ _ _ _ _ _ _) as [[x1 P1]|] eqn:E; cbn [bind] in H; [|discriminate]. apply random_set_length in E.
  destruct valid; [apply IH in H; lia|].
  destruct (random_rest _ _ _ _ _ _ _ _ _) as [[x2 P2]|] eqn:E2; cbn [bind] in H; [|discriminate]. apply random_rest_length in E2.
  inversion H; subst. lia.
Qed.
Lemma random_update_row_length sv kappa delta theta k (s s' : state F G) b :
  random_update_row fo ro std_sort sv kappa delta theta k s = Some (s', b) -> length (s_x s') = length (s_x s).
Proof.
  unfold random_update_row. destruct (mx_row (sv_ap sv) k) as [row|]; cbn [bind]; [|discriminate].
  destruct (decrease_preference fo theta row (s_P s)) as [P|]; cbn [bind]; [|discriminate].
  destruct (random_costs _ _ _ _ _ _ _ _) as [[R r_size]|]; cbn [bind]; [|discriminate].
  destruct (calculator_sort _ _ _ _ _ _ _) as [R3 g]. destruct (bound_min sv k) as [lo|]; cbn [bind]; [|discriminate].
  destruct (bound_max sv k) as [hi|]; cbn [bind]; [|discriminate].
  match goal with |- bind ?e _ = _ -> _ => destruct e as [[[[i v] x] P1]|] eqn:E1 end; cbn [bind]; [|discriminate].
  match goal with |- bind ?e _ = _ -> _ => destruct e as [[[x2 P2] g2]|] eqn:E2 end; cbn [bind]; [|discriminate].
  destruct (is_valid_constraint sv k x2) as [[|]|]; cbn [bind]; try discriminate. intros H. inversion H; subst. cbn [s_x].
  assert (L1 : length x = length (s_x s)).
  { destruct (lo <=? 0); [inversion E1; reflexivity|]. apply random_first_length in E1. assumption. }
  destruct (_ && _).
  - apply random_second_length in E2. lia.
  - destruct (random_rest _ _ _ _ _ _ _ _ _) as [[x3 P3]|] eqn:E3; cbn [bind] in E2; [|discriminate]. apply random_rest_length in E3.
    inversion E2; subst. lia.
Qed.
Lemma any_update_row_length sv push kappa delta theta k (s s' : state F G) b :
  any_update_row fo ro std_sort sv push kappa delta theta k s = Some (s', b) -> length (s_x s') = length (s_x s).
Proof.
  unfold any_update_row. destruct (sv_class sv); try apply update_row_length; [|apply random_update_row_length].
  destruct (zsolver_of sv) as [zs|]; cbn [bind]; [|discriminate]. unfold zupdate_row.
  destruct (mx_row _ k) as [row|]; cbn [bind]; [|discriminate].
  destruct (zprepare _ _ _ _ _ _) as [[[P R] r_size]|]; cbn [bind]; [|discriminate].
  destruct (nth_error (zs_kind zs) k); cbn [bind]; [|discriminate]. destruct (bound_min _ k); cbn [bind]; [|discriminate].
  destruct (bound_max _ k); cbn [bind]; [|discriminate]. destruct (zchoose _ _ _ _ _ _ _ _ _ _ _ _) as [[[R2 sel] g]|]; cbn [bind]; [|discriminate].
  intros H. apply zaffect_length in H. exact H.
Qed.
Lemma update_rows_length sv push kappa delta theta ks : forall (s s' : state F G) c b,
  update_rows fo ro std_sort sv push kappa delta theta ks s c = Some (s', b) -> length (s_x s') = length (s_x s).
Proof.
  induction ks as [|k ks IH]; intros s s' c b H; cbn in H; [inversion H; reflexivity|].
  destruct (any_update_row _ _ _ _ _ _ _ _ _ s) as [[s1 c1]|] eqn:E; cbn in H; [|discriminate].
  rewrite (IH _ _ _ _ H). eapply any_update_row_length; eassumption.
Qed.
End Length.

(** ** Sweeps *)
Section Sweeps.
Context {F G : Type} (fo : fops F) (ro : rops G)
        (std_sort : forall A : Type, (A -> A -> bool) -> list A -> list A).
Variables (cl : solver_class) (cs : list merged) (n : nat) (c : nat -> list bool -> option F)
          (mode : objective_type) (after : list (rc F)) (x0 : list bool) (g0 : G) (sv : solver F) (s0 : state F G).
Hypothesis Hmk : make_solver fo cl cs n c mode after x0 g0 = Ok (sv, s0).
Hypothesis Hrows : forall r, In r cs -> row_ok n r.

Lemma sv_m_length : sv_m sv = length cs.
Proof. destruct (mk_fields fo cl cs n c mode after x0 g0 sv s0 Hmk) as (ap & b & _ & _ & -> & _). reflexivity. Qed.
Lemma sv_mode_mode : sv_mode sv = mode.
Proof. destruct (mk_fields fo cl cs n c mode after x0 g0 sv s0 Hmk) as (ap & b & _ & _ & -> & _). reflexivity. Qed.

Lemma is_valid_exact x k r : length x = n -> nth_error cs k = Some r -> is_valid_constraint sv k x = Some (negb (violates x r)).
Proof.
  intros Hx Hk. destruct (is_valid_constraint_ok fo cl cs n c mode after x0 g0 sv s0 Hmk Hrows x k r Hx Hk) as (b & Hb & Hiff).
  rewrite Hb. f_equal. rewrite <- violates_iff in Hiff. destruct b, (violates x r); cbn; try reflexivity; intuition discriminate.
Qed.

Lemma violated_from_ok x : length x = n -> forall pre l, cs = pre ++ l ->
  violated_from sv x (seq (length pre) (length l)) = Some (violated_at (length pre) x l).
Proof.
  intros Hx pre l. revert pre. induction l as [|r l IH]; intros pre Hcs; cbn [length seq violated_from violated_at]; [reflexivity|].
  rewrite (is_valid_exact x (length pre) r Hx) by (rewrite Hcs, nth_error_app2, Nat.sub_diag by lia; reflexivity). cbn [bind].
  specialize (IH (pre ++ [r])). rewrite app_length in IH. cbn [length] in IH. rewrite Nat.add_1_r in IH. rewrite IH by (rewrite <- app_assoc; exact Hcs).
  cbn [bind]. destruct (violates x r); reflexivity.
Qed.
Lemma violated_ok x : length x = n -> violated sv x = Some (violated_rows cs x).
Proof. intros Hx. unfold violated. rewrite sv_m_length. exact (violated_from_ok x Hx [] cs eq_refl). Qed.

Definition infeasible_rows (x : list bool) : list (nat * Z) := map (fun k => (k, distance_of cs x k)) (violated_rows cs x).
Lemma infeasibility_from_ok x : length x = n -> forall pre l, cs = pre ++ l ->
  infeasibility_from sv x (seq (length pre) (length l)) = Some (map (fun k => (k, distance_of cs x k)) (violated_at (length pre) x l)).
Proof.
  intros Hx pre l. revert pre. induction l as [|r l IH]; intros pre Hcs; cbn [length seq infeasibility_from violated_at]; [reflexivity|].
  assert (Hk : nth_error cs (length pre) = Some r) by (rewrite Hcs, nth_error_app2, Nat.sub_diag by lia; reflexivity).
  destruct (row_matches fo cl cs n c mode after x0 g0 sv s0 Hmk Hrows _ r Hk) as (row & Hrow & Hrel). rewrite Hrow. cbn [bind].
  rewrite (row_sum_lhs cs n sv x Hx row _ Hrel) by (apply (Hrows r); eapply nth_error_In; eassumption). cbn [bind].
  destruct (bounds_at fo cl cs n c mode after x0 g0 sv s0 Hmk _ r Hk) as (lo & hi & Hb & Hc).
  unfold bound_min, bound_max. rewrite Hb. cbn [option_map bind fst snd].
  specialize (IH (pre ++ [r])). rewrite app_length in IH. cbn [length] in IH. rewrite Nat.add_1_r in IH. rewrite IH by (rewrite <- app_assoc; exact Hcs).
  cbn [bind]. rewrite Z.add_0_l.
  destruct (ctor_row_bounds _ _ _ _ Hc) as (L & U & Hrange & Hbd). specialize (Hrange (as_assignment x)).
  assert (Hd : distance_of cs x (length pre) = distance x r) by (unfold distance_of; rewrite Hk; reflexivity).
  unfold violates. set (v := lhs (as_assignment x) (m_elements r)) in *.
  destruct (Z.ltb_spec v lo) as [H1|H1]; [|destruct (Z.ltb_spec hi v) as [H2|H2]].
  - replace (negb _) with true by lia. cbn [map]. rewrite Hd. unfold distance. fold v.
    rewrite (proj2 (Z.ltb_lt _ _)) by lia. repeat f_equal. lia.
  - replace (negb _) with true by lia. cbn [map]. rewrite Hd. unfold distance. fold v.
    rewrite (proj2 (Z.ltb_ge _ _)) by lia. rewrite (proj2 (Z.ltb_lt _ _)) by lia. repeat f_equal. lia.
  - replace (negb _) with false by lia. reflexivity.
Qed.
Lemma infeasibility_ok x : length x = n -> infeasibility sv x = Some (infeasible_rows x).
Proof. intros Hx. unfold infeasibility. rewrite sv_m_length. exact (infeasibility_from_ok x Hx [] cs eq_refl). Qed.

Lemma recompute_ok x od r od' : length x = n -> recompute sv x od = Some (r, od') -> r = violations cs x.
Proof.
  intros Hx. unfold recompute, count_violated. rewrite (violated_ok x Hx), (infeasibility_ok x Hx). cbn [bind].
  assert (Hl : Z.of_nat (length (infeasible_rows x)) = violations cs x) by (unfold infeasible_rows; rewrite map_length; apply violated_rows_length).
  destruct (od_order od); intros H; inversion H; subst; try exact Hl; apply violated_rows_length.
Qed.

Lemma run_length push kappa delta theta od (s : state F G) r od' s' :
  run fo ro std_sort sv push kappa delta theta od s = Some (r, od', s') -> length (s_x s') = length (s_x s).
Proof.
  unfold run. set (od1 := match push with Some _ => _ | None => _ end).
  destruct (sweep fo ro std_sort (s_pi s) od1 (s_g s)) as [[[rows od2] g]|]; cbn [bind]; [|discriminate].
  destruct (update_rows _ _ _ _ _ _ _ _ _ _ _) as [[s1 b]|] eqn:E; cbn [bind]; [|discriminate].
  destruct (recompute sv (s_x s1) od2) as [[r1 od3]|]; cbn [bind]; [|discriminate]. intros H; inversion H; subst.
  apply update_rows_length in E. exact E.
Qed.
Lemma run_exact push kappa delta theta od (s : state F G) r od' s' : length (s_x s) = n ->
  run fo ro std_sort sv push kappa delta theta od s = Some (r, od', s') -> length (s_x s') = n /\ r = violations cs (s_x s').
Proof.
  intros Hx H. pose proof (run_length _ _ _ _ _ _ _ _ _ H) as Hl. split; [congruence|]. revert H.
  unfold run. set (od1 := match push with Some _ => _ | None => _ end).
  destruct (sweep fo ro std_sort (s_pi s) od1 (s_g s)) as [[[rows od2] g]|]; cbn [bind]; [|discriminate].
  destruct (update_rows _ _ _ _ _ _ _ _ _ _ _) as [[s1 b]|] eqn:E; cbn [bind]; [|discriminate].
  destruct (recompute sv (s_x s1) od2) as [[r1 od3]|] eqn:Er; cbn [bind]; [|discriminate]. intros H.
  assert (Hs1 : r1 = r /\ s1 = s') by (split; congruence). destruct Hs1 as [-> ->].
  eapply recompute_ok; [|eassumption]. congruence.
Qed.

(** *** The best solution *)
(** [b] is at least as good as every assignment tried, and one of them (or nothing was kept). *)
Definition best_of (obj : objective) (b : best) (tried : list (list bool)) : Prop :=
  (forall x, In x tried -> be_remaining b <= violations cs x /\
     (violations cs x = 0 -> no_worse mode (be_value b) (objective_value (as_assignment x) obj))) /\
  (b = best0 \/ (In (be_x b) tried /\ be_remaining b = violations cs (be_x b) /\
     (be_remaining b = 0 -> be_value b = Some (objective_value (as_assignment (be_x b)) obj)) /\
     (be_remaining b <> 0 -> be_value b = None))).

Lemma best_of_nil obj : best_of obj best0 [].
Proof. split; [intros x []|left; reflexivity]. Qed.

Lemma best_of_value obj b tried x : best_of obj b tried -> violations cs x = 0 ->
  best_of obj (store_value mode b x (objective_value (as_assignment x) obj)) (x :: tried).
Proof.
  intros [H1 H2] Hx. unfold store_value. set (v := objective_value (as_assignment x) obj).
  destruct (is_better mode v (be_value b)) eqn:Eb.
  - split; cbn [be_x be_value be_remaining].
    + intros y [<-|Hy].
      * split; [lia|]. intros _. cbn. fold v. destruct mode; lia.
      * split; [pose proof (violations_nonneg cs y); lia|]. intros Hy0. destruct (H1 y Hy) as [_ Hw]. specialize (Hw Hy0).
        cbn. unfold no_worse in Hw. unfold is_better in Eb. destruct (be_value b) as [u|]; [|contradiction]. destruct mode; lia.
    + right. split; [left; reflexivity|]. split; [symmetry; assumption|]. split; [reflexivity|congruence].
  - unfold is_better in Eb. destruct (be_value b) as [u|] eqn:Eu; [|discriminate].
    assert (Hb0 : be_remaining b = 0).
    { destruct H2 as [->|(_ & _ & _ & Hn)]; [discriminate Eu|]. destruct (Z.eq_dec (be_remaining b) 0) as [|Hnz]; [assumption|]. specialize (Hn Hnz). congruence. }
    split.
    + intros y [<-|Hy]; [|rewrite Eu; apply H1; assumption]. split; [lia|]. intros _. rewrite Eu. cbn. fold v. destruct mode; lia.
    + destruct H2 as [->|(Hin & Hr & Hv & Hn)]; [left; reflexivity|right]. split; [right; assumption|]. rewrite Eu. auto.
Qed.
Lemma best_of_more obj b tried x : best_of obj b tried -> be_remaining b <= violations cs x -> violations cs x <> 0 -> best_of obj b (x :: tried).
Proof.
  intros [H1 H2] Hle Hx. split.
  - intros y [<-|Hy]; [|apply H1; assumption]. split; [assumption|]. intros. contradiction.
  - destruct H2 as [->|(Hin & Hr & Hv & Hn)]; [left; reflexivity|right]. split; [right; assumption|]. auto.
Qed.
Lemma best_of_remaining obj b tried x : best_of obj b tried -> violations cs x <> 0 ->
  best_of obj (store_remaining b x (violations cs x)) (x :: tried).
Proof.
  intros Hb Hx. unfold store_remaining. destruct (Z.ltb_spec (violations cs x) (be_remaining b)) as [Hlt|Hge]; [|apply best_of_more; assumption].
  destruct Hb as [H1 H2]. pose proof (violations_nonneg cs x) as H0.
  assert (Hn : be_value b = None). { destruct H2 as [->|(_ & _ & _ & Hn)]; [reflexivity|]. apply Hn. lia. }
  split; cbn [be_x be_value be_remaining].
  - intros y [<-|Hy]; [split; [lia|intros; contradiction]|]. destruct (H1 y Hy) as [Hr _]. split; [lia|]. intros. lia.
  - right. split; [left; reflexivity|]. split; [reflexivity|]. split; [intros; contradiction|intros _; assumption].
Qed.

(** *** The loops *)
Notation loop := (@loop F G).
Definition loop_ok (obj : objective) (l : loop) : Prop :=
  length (s_x (lp_s l)) = n /\ (forall x, In x (lp_tried l) -> length x = n) /\ best_of obj (lp_best l) (lp_tried l).

Lemma main_loop_ok pa obj : forall fuel i (l : loop) l' e, main_loop fo ro std_sort fuel sv pa obj i (be_remaining (lp_best l)) l = Finished (l', e) ->
  loop_ok obj l -> (forall x, In x (lp_tried l) -> violations cs x <> 0) ->
  loop_ok obj l' /\ (e = stop_found -> exists x, hd_error (lp_tried l') = Some x /\ violations cs x = 0) /\
  (e <> stop_found -> forall x, In x (lp_tried l') -> violations cs x <> 0) /\
  (exists new, lp_tried l' = new ++ lp_tried l).
Proof.
  induction fuel as [|fuel IH]; intros i l l' e H Hl Hp; cbn [main_loop] in H; [discriminate|].
  destruct (i =? pa_limit pa). { inversion H; subst. split; [assumption|]. split; [discriminate|]. split; [auto|]. exists []. reflexivity. }
  destruct (run _ _ _ _ _ _ _ _ _ (lp_s l)) as [[[r od] s]|] eqn:Er; [|discriminate].
  destruct Hl as (Hlx & Hlt & Hb). destruct (run_exact _ _ _ _ _ _ _ _ _ Hlx Er) as [Hx Hr].
  assert (Ht : forall x, In x (s_x s :: lp_tried l) -> length x = n) by (intros x [<-|Hin]; auto).
  destruct (Z.eqb_spec r 0) as [Hr0|Hr0].
  - destruct (results obj (s_x s)) as [v|] eqn:Ev; [|discriminate]. inversion H; subst l' e. apply results_ok in Ev.
    split; [|split; [|split]].
    + split; [assumption|]. split; [assumption|]. cbn [lp_best lp_tried]. rewrite Ev, sv_mode_mode. apply best_of_value; [assumption|congruence].
    + intros _. exists (s_x s). split; [reflexivity|congruence].
    + congruence.
    + exists [s_x s]. reflexivity.
  - rewrite Hr in *. assert (Hp' : forall x, In x (s_x s :: lp_tried l) -> violations cs x <> 0) by (intros x [<-|Hin]; auto).
    assert (Hb' : best_of obj (store_remaining (lp_best l) (s_x s) (violations cs (s_x s))) (s_x s :: lp_tried l)) by (apply best_of_remaining; assumption).
    assert (Hsame : (if violations cs (s_x s) <? be_remaining (lp_best l)
              then (store_remaining (lp_best l) (s_x s) (violations cs (s_x s)), violations cs (s_x s)) else (lp_best l, be_remaining (lp_best l)))
            = (store_remaining (lp_best l) (s_x s) (violations cs (s_x s)), be_remaining (store_remaining (lp_best l) (s_x s) (violations cs (s_x s))))).
    { unfold store_remaining. destruct (violations cs (s_x s) <? be_remaining (lp_best l)); reflexivity. }
    rewrite Hsame in H. set (b := store_remaining _ _ _) in *. cbv zeta beta iota in H.
    destruct (fl_lt fo (pa_kappa_max pa) _).
    + inversion H; subst l' e. split; [split; [assumption|]; split; assumption|]. split; [discriminate|]. split; [auto|]. exists [s_x s]. reflexivity.
    + destruct (rg_time_out ro (s_g s)) as [out g]. destruct out.
      * inversion H; subst l' e. split; [split; [assumption|]; split; assumption|]. split; [discriminate|]. split; [auto|]. exists [s_x s]. reflexivity.
      * match type of H with main_loop _ _ _ _ _ _ _ _ _ ?l1 = _ => change (be_remaining b) with (be_remaining (lp_best l1)) in H end.
        apply IH in H; [|split; [assumption|]; split; assumption|assumption]. cbn [lp_tried] in H. destruct H as (H1 & H2 & H3 & new & Hn).
        split; [assumption|]. split; [assumption|]. split; [assumption|]. exists (new ++ [s_x s]). rewrite <- app_assoc. exact Hn.
Qed.

Lemma push_inner_ok pa obj : forall k iter (l l' : loop), push_inner fo ro std_sort k sv pa obj iter l = Some l' -> be_remaining (lp_best l) = 0 ->
  loop_ok obj l -> loop_ok obj l' /\ be_remaining (lp_best l') = 0 /\ (exists new, lp_tried l' = new ++ lp_tried l).
Proof.
  induction k as [|k IH]; intros iter l l' H Hz Hl; cbn [push_inner] in H. { inversion H; subst. split; [assumption|]. split; [assumption|]. exists []. reflexivity. }
  destruct (run _ _ _ _ _ _ _ _ _ (lp_s l)) as [[[r od] s]|] eqn:Er; cbn [bind] in H; [|discriminate].
  destruct Hl as (Hlx & Hlt & Hb). destruct (run_exact _ _ _ _ _ _ _ _ _ Hlx Er) as [Hx Hr].
  assert (Ht : forall x, In x (s_x s :: lp_tried l) -> length x = n) by (intros x [<-|Hin]; auto).
  destruct (Z.eqb_spec r 0) as [Hr0|Hr0].
  - destruct (results obj (s_x s)) as [v|] eqn:Ev; cbn [bind] in H; [|discriminate]. inversion H; subst l'. apply results_ok in Ev.
    split; [|split].
    + split; [assumption|]. split; [assumption|]. cbn [lp_best lp_tried]. rewrite Ev, sv_mode_mode. apply best_of_value; [assumption|congruence].
    + cbn. unfold store_value. destruct (is_better _ _ _); [reflexivity|assumption].
    + exists [s_x s]. reflexivity.
  - assert (Hb' : best_of obj (lp_best l) (s_x s :: lp_tried l)).
    { apply best_of_more; [assumption| |congruence]. pose proof (violations_nonneg cs (s_x s)). lia. }
    destruct (fl_lt fo (pa_kappa_max pa) _).
    + inversion H; subst l'. split; [split; [assumption|]; split; assumption|]. split; [assumption|]. exists [s_x s]. reflexivity.
    + destruct (rg_time_out ro (s_g s)) as [out g]. destruct out.
      * inversion H; subst l'. split; [split; [assumption|]; split; assumption|]. split; [assumption|]. exists [s_x s]. reflexivity.
      * apply IH in H; [|assumption|split; [assumption|]; split; assumption]. cbn [lp_tried] in H. destruct H as (H1 & H2 & new & Hn).
        split; [assumption|]. split; [assumption|]. exists (new ++ [s_x s]). rewrite <- app_assoc. exact Hn.
Qed.

Lemma push_loop_ok pa obj : forall k (l l' : loop), push_loop fo ro std_sort k sv pa obj l = Some l' -> be_remaining (lp_best l) = 0 ->
  loop_ok obj l -> loop_ok obj l' /\ be_remaining (lp_best l') = 0 /\ (exists new, lp_tried l' = new ++ lp_tried l).
Proof.
  induction k as [|k IH]; intros l l' H Hz Hl; cbn [push_loop] in H. { inversion H; subst. split; [assumption|]. split; [assumption|]. exists []. reflexivity. }
  destruct (run _ _ _ _ _ _ _ _ _ (lp_s l)) as [[[r od] s]|] eqn:Er; cbn [bind] in H; [|discriminate].
  destruct Hl as (Hlx & Hlt & Hb). destruct (run_exact _ _ _ _ _ _ _ _ _ Hlx Er) as [Hx Hr].
  assert (Ht : forall x, In x (s_x s :: lp_tried l) -> length x = n) by (intros x [<-|Hin]; auto).
  match type of H with bind ?e _ = _ => destruct e as [b|] eqn:Eb; cbn [bind] in H; [|discriminate] end.
  assert (Hb' : best_of obj b (s_x s :: lp_tried l) /\ be_remaining b = 0).
  { destruct (Z.eqb_spec r 0) as [Hr0|Hr0].
    - destruct (results obj (s_x s)) as [v|] eqn:Ev; cbn [bind] in Eb; [|discriminate]. inversion Eb; subst b. apply results_ok in Ev. split.
      + rewrite Ev, sv_mode_mode. apply best_of_value; [assumption|congruence].
      + unfold store_value. destruct (is_better _ _ _); [reflexivity|assumption].
    - inversion Eb; subst b. split; [|assumption]. apply best_of_more; [assumption| |congruence]. pose proof (violations_nonneg cs (s_x s)). lia. }
  destruct Hb' as [Hb' Hz']. destruct (rg_time_out ro (s_g s)) as [out g]. destruct out.
  - inversion H; subst l'. split; [split; [assumption|]; split; assumption|]. split; [assumption|]. exists [s_x s]. reflexivity.
  - destruct (push_inner _ _ _ _ _ _ _ _ _) as [l1|] eqn:E1; cbn [bind] in H; [|discriminate].
    apply push_inner_ok in E1; [|assumption|split; [assumption|]; split; assumption]. destruct E1 as (H1 & H2 & new & Hn).
    apply IH in H; [|assumption|assumption]. destruct H as (H3 & H4 & new' & Hn'). split; [assumption|]. split; [assumption|].
    exists (new' ++ new ++ [s_x s]). rewrite Hn', Hn. cbn [lp_tried]. rewrite <- !app_assoc. reflexivity.
Qed.

Lemma functor_loop_ok fuel pa obj (s : state F G) l st : length (s_x s) = n ->
  functor_loop fo ro std_sort fuel sv pa obj s n = Finished (l, st) ->
  loop_ok obj l /\ (st = st_success \/ st = st_limit_reached) /\
  (st = st_success <-> exists x, In x (lp_tried l) /\ violations cs x = 0) /\ (st = st_success <-> be_remaining (lp_best l) = 0).
Proof.
  intros Hs. unfold functor_loop. destruct (order_init _ _ _) as [od|]; [|discriminate].
  destruct (main_loop _ _ _ _ _ _ _ _ _ _) as [[l1 e]| |] eqn:Em; try discriminate.
  change int_max with (be_remaining (lp_best (mk_loop od s (pa_kappa_min pa) best0 []))) in Em.
  apply main_loop_ok in Em; [|split; [assumption|]; split; [intros x []|apply best_of_nil]|intros x []].
  destruct Em as (H1 & H2 & H3 & _).
  assert (Hfail : e <> stop_found -> Finished (l1, if be_remaining (lp_best l1) =? 0 then st_success else st_limit_reached) = Finished (l, st) ->
     loop_ok obj l /\ (st = st_success \/ st = st_limit_reached) /\
     (st = st_success <-> exists x, In x (lp_tried l) /\ violations cs x = 0) /\ (st = st_success <-> be_remaining (lp_best l) = 0)).
  { intros He H. inversion H; subst l st. specialize (H3 He). destruct H1 as (Ha & Hb & Hbest). destruct (Z.eqb_spec (be_remaining (lp_best l1)) 0) as [E|E].
    - exfalso. destruct Hbest as [_ [Hb0|(Hin & Hr & _)]]; [rewrite Hb0 in E; discriminate E|]. apply (H3 _ Hin). congruence.
    - split; [split; [assumption|]; split; assumption|]. split; [auto|]. split; split; try discriminate; try (intros; contradiction).
      intros (x & Hx & Hx0). exfalso. exact (H3 x Hx Hx0). }
  destruct e; try (apply Hfail; discriminate). clear Hfail.
  destruct (push_loop _ _ _ _ _ _ _ _) as [l2|] eqn:Ep; [|discriminate]. intros H; inversion H; subst l st.
  destruct (H2 eq_refl) as (x & Hx & Hx0). assert (Hin : In x (lp_tried l1)) by (destruct (lp_tried l1); [discriminate|inversion Hx; left; reflexivity]).
  assert (Hz : be_remaining (lp_best l1) = 0).
  { destruct H1 as (_ & _ & [Ha [Hb0|(_ & Hr & _)]]); destruct (Ha x Hin) as [Hle _].
    - rewrite Hb0 in Hle. cbn in Hle. rewrite Hx0 in Hle. unfold int_max in Hle. lia.
    - pose proof (violations_nonneg cs (be_x (lp_best l1))). lia. }
  apply push_loop_ok in Ep; [|assumption|assumption]. destruct Ep as (H4 & H5 & new & Hn). rewrite H5. cbn [Z.eqb].
  split; [assumption|]. split; [auto|]. split; [|tauto]. split; [intros _|reflexivity]. exists x. split; [|assumption]. rewrite Hn. apply in_or_app. auto.
Qed.
End Sweeps.
