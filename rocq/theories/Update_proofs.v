(** What a row update that returns has done, for every class of solver. *)
From Verif Require Import Base Problem_model Problem_spec Merged_model Merged_spec Classify_model Matrix_model
  Rows_model Subsolver_model BranchBound_model ZRow_model RandomRow_model Rows_spec Rows_proofs Validate_model Solver_model Solver_spec
  Solver_proofs.
Open Scope Z_scope.

Section Keep.
Context {F G : Type} (fo : fops F) (ro : rops G)
        (std_sort : forall A : Type, (A -> A -> bool) -> list A -> list A).

(** [x'] has the values of [x] outside the columns of [row]. *)
Definition keeps (row : list (nat * nat)) (x x' : list bool) : Prop :=
  forall v, ~ In v (map snd row) -> nth_error x' v = nth_error x v.
Lemma keeps_refl row x : keeps row x x.
Proof. intros v _. reflexivity. Qed.
Lemma keeps_trans row x y w : keeps row x y -> keeps row y w -> keeps row x w.
Proof. intros H1 H2 v Hv. rewrite (H2 v Hv). apply H1, Hv. Qed.
Lemma keeps_upd row i slot col x b x' : nth_error row i = Some (slot, col) -> list_upd x col b = Some x' -> keeps row x x'.
Proof.
  intros Hr Hx v Hv. rewrite (list_upd_nth _ _ _ _ _ Hx). destruct (Nat.eqb_spec v col) as [->|]; [|reflexivity].
  exfalso. apply Hv. apply in_map_iff. exists (slot, col). split; [reflexivity|]. eapply nth_error_In. eassumption.
Qed.

Lemma assign_range_keeps row (R : list (rc F)) up d m : forall i x P x' P', assign_range fo row R up d m i x P = Some (x', P') -> keeps row x x'.
Proof.
  induction m as [|m IH]; intros i x P x' P' H; cbn in H; [inversion H; apply keeps_refl|].
  destruct (nth_error R i) as [e|]; cbn in H; [|discriminate]. destruct (nth_error row (rc_id e)) as [[slot col]|] eqn:Er; cbn in H; [|discriminate].
  destruct (list_upd x col _) as [x1|] eqn:E; cbn in H; [|discriminate]. destruct (list_modify P slot _) as [P1|]; cbn in H; [|discriminate].
  eapply keeps_trans; [eapply keeps_upd; eassumption|]. eapply IH. eassumption.
Qed.
Lemma affect_keeps sv k row sel r_size kappa delta (s s' : state F G) b :
  affect fo sv k row sel r_size kappa delta s = Some (s', b) -> keeps row (s_x s) (s_x s') /\ is_valid_constraint sv k (s_x s') = Some true.
Proof.
  unfold affect. destruct (nth_error (s_pi s) k) as [old|]; cbn [bind]; [|discriminate].
  match goal with |- bind ?e _ = _ -> _ => destruct e as [[[x P] pi]|] eqn:E end; cbn [bind]; [|discriminate].
  destruct (is_valid_constraint sv k x) as [[|]|] eqn:Ev; cbn [bind]; try discriminate.
  destruct (nth_error pi k); cbn [bind]; [|discriminate]. intros H. inversion H; subst. cbn [s_x]. split; [|assumption]. clear H. revert E.
  destruct (sel <? 0); [|destruct (_ <=? _)].
  - destruct (nth_error (s_R s) 0); cbn [bind]; [|discriminate].
    destruct (assign_range _ _ _ _ _ _ _ _ _) as [[x' P']|] eqn:E; cbn [bind]; [|discriminate]. intros H; inversion H; subst. eapply assign_range_keeps; eassumption.
  - destruct (nth_Z (s_R s) sel); cbn [bind]; [|discriminate].
    destruct (assign_range _ _ _ _ _ _ _ _ _) as [[x' P']|] eqn:E; cbn [bind]; [|discriminate]. intros H; inversion H; subst. eapply assign_range_keeps; eassumption.
  - destruct (nth_Z (s_R s) sel); cbn [bind]; [|discriminate]. destruct (nth_Z (s_R s) (sel + 1)); cbn [bind]; [|discriminate].
    destruct (list_modify (s_pi s) k _); cbn [bind]; [|discriminate].
    destruct (assign_range _ _ _ _ _ _ _ (s_x s) _) as [[x1 P1]|] eqn:E1; cbn [bind]; [|discriminate].
    destruct (assign_range _ _ _ _ _ _ _ x1 _) as [[x' P']|] eqn:E; cbn [bind]; [|discriminate]. intros H; inversion H; subst.
    eapply keeps_trans; eapply assign_range_keeps; eassumption.
Qed.
Lemma update_row_keeps sv push kappa delta theta k (s s' : state F G) b :
  update_row fo ro std_sort sv push kappa delta theta k s = Some (s', b) ->
  is_valid_constraint sv k (s_x s') = Some true /\ forall row, mx_row (sv_ap sv) k = Some row -> keeps row (s_x s) (s_x s').
Proof.
  unfold update_row. destruct (mx_row (sv_ap sv) k) as [row|]; cbn [bind]; [|discriminate].
  destruct (decrease_preference fo theta row (s_P s)); cbn [bind]; [|discriminate].
  destruct (compute_reduced_costs _ _ _ _ _ _ _ _ _) as [[[R r_size] c_size]|]; cbn [bind]; [|discriminate].
  match goal with |- bind ?e _ = _ -> _ => destruct e as [R2|]; cbn [bind]; [|discriminate] end.
  destruct (calculator_sort _ _ _ _ _ _ _) as [R3 g]. destruct (bound_min sv k); cbn [bind]; [|discriminate].
  destruct (bound_max sv k); cbn [bind]; [|discriminate]. destruct (select_variables _ _ _ _ _ _ _ _ _) as [[sel g']|]; cbn [bind]; [|discriminate].
  intros H. apply affect_keeps in H. destruct H as [H1 H2]. split; [exact H2|]. intros row' E. inversion E; subst. exact H1.
Qed.
Lemma zassign_keeps sv row R pi one d n : forall i x P x' P', zassign fo sv row R pi one d n i x P = Some (x', P') -> keeps row x x'.
Proof.
  induction n as [|n IH]; intros i x P x' P' H; cbn [zassign] in H; [inversion H; apply keeps_refl|].
  destruct (nth_error R i) as [e|]; cbn [bind] in H; [|discriminate]. destruct (nth_error row (rc_id e)) as [[slot col]|] eqn:Er; cbn [bind] in H; [|discriminate].
  destruct (list_upd x col one) as [x1|] eqn:E; cbn [bind] in H; [|discriminate].
  destruct (list_modify P slot _) as [P1|]; cbn [bind] in H; [|discriminate].
  destruct (zreduced_cost _ _ _ _ _ _) as [r|]; cbn [bind] in H; [|discriminate].
  match type of H with bind ?t _ = _ => destruct t as [P2|] end; cbn [bind] in H; [|discriminate].
  eapply keeps_trans; [eapply keeps_upd; eassumption|]. eapply IH. eassumption.
Qed.
Lemma zaffect_keeps sv k row sel r_size kappa delta (s s' : state F G) b :
  zaffect fo sv k row sel r_size kappa delta s = Some (s', b) -> keeps row (s_x s) (s_x s') /\ is_valid_constraint sv k (s_x s') = Some true.
Proof.
  unfold zaffect. destruct (nth_error (s_pi s) k) as [old|]; cbn [bind]; [|discriminate].
  match goal with |- bind ?e _ = _ -> _ => destruct e as [[[x P] pi]|] eqn:E end; cbn [bind]; [|discriminate].
  destruct (is_valid_constraint sv k x) as [[|]|] eqn:Ev; cbn [bind]; try discriminate.
  destruct (nth_error pi k); cbn [bind]; [|discriminate]. intros H. inversion H; subst. cbn [s_x]. split; [|assumption]. clear H. revert E.
  destruct (sel <? 0); [|destruct (_ <=? _)].
  - destruct (nth_error (s_R s) 0); cbn [bind]; [|discriminate]. destruct (list_modify (s_pi s) k _); cbn [bind]; [|discriminate].
    destruct (zassign _ _ _ _ _ _ _ _ _ _ _) as [[x' P']|] eqn:E; cbn [bind]; [|discriminate]. intros H; inversion H; subst. eapply zassign_keeps; eassumption.
  - destruct (nth_Z _ sel); cbn [bind]; [|discriminate]. destruct (list_modify (s_pi s) k _); cbn [bind]; [|discriminate].
    destruct (zassign _ _ _ _ _ _ _ _ _ _ _) as [[x' P']|] eqn:E; cbn [bind]; [|discriminate]. intros H; inversion H; subst. eapply zassign_keeps; eassumption.
  - destruct (nth_Z (s_R s) sel); cbn [bind]; [|discriminate]. destruct (nth_Z (s_R s) (sel + 1)); cbn [bind]; [|discriminate].
    destruct (list_modify (s_pi s) k _); cbn [bind]; [|discriminate].
    destruct (zassign _ _ _ _ _ _ _ _ _ (s_x s) _) as [[x1 P1]|] eqn:E1; cbn [bind]; [|discriminate].
    destruct (zassign _ _ _ _ _ _ _ _ _ x1 _) as [[x' P']|] eqn:E; cbn [bind]; [|discriminate]. intros H; inversion H; subst.
    eapply keeps_trans; eapply zassign_keeps; eassumption.
Qed.
Lemma random_set_keeps row kappa delta (e : rc F) b x P x' P' : random_set fo row kappa delta e b x P = Some (x', P') -> keeps row x x'.
Proof.
  unfold random_set. destruct (nth_error row (rc_id e)) as [[slot col]|] eqn:Er; cbn [bind]; [|discriminate].
  destruct (list_upd x col b) as [x1|] eqn:E; cbn [bind]; [|discriminate]. destruct (list_modify P slot _); cbn [bind]; [|discriminate].
  intros H. inversion H; subst. eapply keeps_upd; eassumption.
Qed.
Lemma random_first_keeps row (R : list (rc F)) lo kappa delta n : forall i v x P i' v' x' P',
  random_first fo row R lo kappa delta n i v x P = Some (i', v', x', P') -> keeps row x x'.
Proof.
  induction n as [|n IH]; intros i v x P i' v' x' P' H; cbn [random_first] in H; [inversion H; apply keeps_refl|].
  destruct (nth_error R i) as [e|]; cbn [bind] in H; [|discriminate].
  destruct (random_set _ _ _ _ _ _ _ _) as [[x1 P1]|] eqn:E; cbn [bind] in H; [|discriminate]. apply random_set_keeps in E.
  destruct (lo <=? v + rc_f e); [inversion H; subst; assumption|]. apply IH in H. eapply keeps_trans; eassumption.
Qed.
Lemma random_rest_keeps row (R : list (rc F)) kappa delta n : forall i x P x' P',
  random_rest fo row R kappa delta n i x P = Some (x', P') -> keeps row x x'.
Proof.
  induction n as [|n IH]; intros i x P x' P' H; cbn [random_rest] in H; [inversion H; apply keeps_refl|].
  destruct (nth_error R i) as [e|]; cbn [bind] in H; [|discriminate].
  destruct (random_set _ _ _ _ _ _ _ _) as [[x1 P1]|] eqn:E; cbn [bind] in H; [|discriminate]. apply random_set_keeps in E.
  apply IH in H. eapply keeps_trans; eassumption.
Qed.
Lemma random_second_keeps mode row (R : list (rc F)) lo hi kappa delta n : forall i v x P g x' P' (g' : G),
  random_second fo ro mode row R lo hi kappa delta n i v x P g = Some (x', P', g') -> keeps row x x'.
Proof.
  induction n as [|n IH]; intros i v x P g x' P' g' H; cbn [random_second] in H; [inversion H; apply keeps_refl|].
  destruct (nth_error R i) as [e|]; cbn [bind] in H; [|discriminate].
  match type of H with (let '(_, _) := ?t in _) = _ => destruct t as [valid g1] end.
  destruct (random_set _ _ _ _ _ _ _ _) as [[x1 P1]|] eqn:E; cbn [bind] in H; [|discriminate]. apply random_set_keeps in E.
  destruct valid; [apply IH in H; eapply keeps_trans; eassumption|].
  destruct (random_rest _ _ _ _ _ _ _ _ _) as [[x2 P2]|] eqn:E2; cbn [bind] in H; [|discriminate]. apply random_rest_keeps in E2.
  inversion H; subst. eapply keeps_trans; eassumption.
Qed.
Lemma random_update_keeps sv kappa delta theta k (s s' : state F G) b :
  random_update_row fo ro std_sort sv kappa delta theta k s = Some (s', b) ->
  is_valid_constraint sv k (s_x s') = Some true /\ forall row, mx_row (sv_ap sv) k = Some row -> keeps row (s_x s) (s_x s').
Proof.
  unfold random_update_row. destruct (mx_row (sv_ap sv) k) as [row|]; cbn [bind]; [|discriminate].
  destruct (decrease_preference fo theta row (s_P s)) as [P|]; cbn [bind]; [|discriminate].
  destruct (random_costs _ _ _ _ _ _ _ _) as [[R r_size]|]; cbn [bind]; [|discriminate].
  destruct (calculator_sort _ _ _ _ _ _ _) as [R3 g]. destruct (bound_min sv k) as [lo|]; cbn [bind]; [|discriminate].
  destruct (bound_max sv k) as [hi|]; cbn [bind]; [|discriminate].
  match goal with |- bind ?e _ = _ -> _ => destruct e as [[[[i v] x] P1]|] eqn:E1 end; cbn [bind]; [|discriminate].
  match goal with |- bind ?e _ = _ -> _ => destruct e as [[[x2 P2] g2]|] eqn:E2 end; cbn [bind]; [|discriminate].
  destruct (is_valid_constraint sv k x2) as [[|]|] eqn:Ev; cbn [bind]; try discriminate. intros H. inversion H; subst. cbn [s_x].
  split; [exact Ev|]. intros row' Er. inversion Er; subst row'.
  assert (L1 : keeps row (s_x s) x).
  { destruct (lo <=? 0); [inversion E1; apply keeps_refl|]. apply random_first_keeps in E1. assumption. }
  destruct (_ && _).
  - apply random_second_keeps in E2. eapply keeps_trans; eassumption.
  - destruct (random_rest _ _ _ _ _ _ _ _ _) as [[x3 P3]|] eqn:E3; cbn [bind] in E2; [|discriminate]. apply random_rest_keeps in E3.
    inversion E2; subst. eapply keeps_trans; eassumption.
Qed.
Lemma any_update_keeps sv push kappa delta theta k (s s' : state F G) b :
  any_update_row fo ro std_sort sv push kappa delta theta k s = Some (s', b) ->
  is_valid_constraint sv k (s_x s') = Some true /\ forall row, mx_row (sv_ap sv) k = Some row -> keeps row (s_x s) (s_x s').
Proof.
  unfold any_update_row. destruct (sv_class sv); try apply update_row_keeps; [|apply random_update_keeps].
  destruct (zsolver_of sv) as [zs|] eqn:Ez; cbn [bind]; [|discriminate]. unfold zupdate_row.
  assert (Es : zs_sv zs = sv).
  { unfold zsolver_of in Ez. destruct (build_tables _ _ _ _); cbn [bind] in Ez; [|discriminate]. injection Ez as <-. reflexivity. }
  rewrite Es. destruct (mx_row _ k) as [row|]; cbn [bind]; [|discriminate].
  destruct (zprepare _ _ _ _ _ _) as [[[P R] r_size]|]; cbn [bind]; [|discriminate].
  destruct (nth_error (zs_kind zs) k); cbn [bind]; [|discriminate]. destruct (bound_min _ k); cbn [bind]; [|discriminate].
  destruct (bound_max _ k); cbn [bind]; [|discriminate]. destruct (zchoose _ _ _ _ _ _ _ _ _ _ _ _) as [[[R2 sel] g]|]; cbn [bind]; [|discriminate].
  intros H. apply zaffect_keeps in H. destruct H as [H1 H2]. split; [exact H2|]. intros row' E. inversion E; subst. exact H1.
Qed.
End Keep.

Section Safe.
Context {F G : Type} (fo : fops F) (ro : rops G)
        (std_sort : forall A : Type, (A -> A -> bool) -> list A -> list A).
Variables (cl : solver_class) (cs : list merged) (n : nat) (c : nat -> list bool -> option F)
          (mode : objective_type) (after : list (rc F)) (x0 : list bool) (g0 : G) (sv : solver F) (s0 : state F G).
Hypothesis Hmk : make_any_solver fo cl cs n c mode after x0 g0 = Ok (sv, s0).
Hypothesis Hrows : forall r, In r cs -> row_ok n r.

Lemma any_update_safe push kappa delta theta k r (s s' : state F G) b :
  nth_error cs k = Some r -> length (s_x s) = n ->
  any_update_row fo ro std_sort sv push kappa delta theta k s = Some (s', b) ->
  length (s_x s') = n /\ row_satisfied (s_x s') r /\
  (forall v, ~ In v (map f_var (m_elements r)) -> nth_error (s_x s') v = nth_error (s_x s) v).
Proof.
  intros Hk Hx H. pose proof (any_update_row_length _ _ _ _ _ _ _ _ _ _ _ _ H) as Hl. apply any_update_keeps in H. destruct H as [Hv Hkeep].
  assert (Hmk' : make_solver fo cl cs n c mode after x0 g0 = Ok (sv, s0)).
  { unfold make_any_solver in Hmk. destruct (make_solver fo cl cs n c mode after x0 g0) as [[sv1 s1]| |]; cbn in Hmk; try discriminate.
    destruct cl; try exact Hmk. destruct (zsolver_of sv1); cbn in Hmk; [exact Hmk|discriminate]. }
  split; [lia|]. split.
  - destruct (is_valid_constraint_ok fo cl cs n c mode after x0 g0 sv s0 Hmk' Hrows (s_x s') k r ltac:(lia) Hk) as (b' & Hb & Hiff).
    rewrite Hv in Hb. injection Hb as <-. apply Hiff. reflexivity.
  - destruct (row_matches fo cl cs n c mode after x0 g0 sv s0 Hmk' Hrows k r Hk) as (row & Hrow & Hrel).
    intros v Hvr. apply (Hkeep row Hrow v). intros Hin. apply Hvr. clear -Hrel Hin.
    induction Hrel as [|p e row els Hp HF IH]; [exact Hin|]. destruct Hin as [<-|Hin].
    + left. symmetry. apply Hp.
    + right. apply IH, Hin.
Qed.
End Safe.
