(** Property theorem C123 (the choice made by a row update with arbitrary integer coefficients). *)
From Coq Require Import Permutation.
From Verif Require Import Base Problem_model Problem_spec Merged_model Merged_spec Merged_proofs Classify_model Matrix_model
  Rows_model Rows_spec Rows_proofs Rows_props Subsolver_model Subsolver_spec Subsolver_props BranchBound_model ZRow_model ZRow_spec ZRow_props
  Greedy_spec Solver_model Solver_spec Solver_proofs2 Solver_proofs3 ZBest_spec ZBest_proofs.
Open Scope Z_scope.

(** C123. Whenever the update (or the push) of a tabled row returns, the assignment satisfies the
    row, and no assignment that satisfies the row has a better sum of reduced costs over its
    variables at 1; with a push each reduced cost is increased by the amplifier times the cost
    of the same variable. Arbitrary floats whose comparison is a weak order, costs, multipliers,
    preferences, history; minimisation and maximisation. *)
Theorem C123_tabled_row_update_is_best :
  forall (F G : Type) (fo : fops F) (ro : rops G) std_sort,
  permutes std_sort -> sorts std_sort -> weak_order (fl_lt fo) ->
  forall cs n c mode after x0 (g0 : G) sv s0,
  make_any_solver fo S_inequalities_Z cs n c mode after x0 g0 = Ok (sv, s0) ->
  (forall r, In r cs -> row_ok n r) ->
  cost_defined n c ->
  forall push kappa delta theta k r s s' b val,
  nth_error cs k = Some r -> tabled_row r -> buffer_one_more cs after r -> sized cs n s ->
  (forall i e, nth_error (m_elements r) i = Some e -> exists cost, c (f_var e) (s_x s) = Some cost /\
     val i = amplified fo push (z_reduced_cost fo cs theta k (s_P s) (s_pi s) (f_var e) cost) cost) ->
  any_update_row fo ro std_sort sv push kappa delta theta k s = Some (s', b) ->
  row_satisfied (s_x s') r /\
  forall y, m_min r <= lhs y (m_elements r) <= m_max r ->
    cheaper fo mode (sum_at_1 fo r val y) (sum_at_1 fo r val (as_assignment (s_x s'))) = false.
Proof.
  intros F G fo ro std_sort Hp Hs Hw cs n c mode after x0 g0 sv s0 Hmk Hrows Hcost push kappa delta theta k r s s' b val Hk Ht Hbuf Hsz Hval Hup.
  destruct (make_any_make fo _ cs n c mode after x0 g0 sv s0 Hmk) as [H Hz]. destruct (Hz eq_refl) as [zs Ezs].
  unfold any_update_row in Hup. rewrite (sv_class_cl fo _ cs n c mode after x0 g0 sv s0 Hmk), Ezs in Hup. cbn [bind] in Hup.
  assert (Hrw : sv_rows sv = cs) by (destruct (mk_fields fo _ cs n c mode after x0 g0 sv s0 H) as (ap & b' & _ & _ & -> & _); reflexivity).
  unfold zsolver_of in Ezs. rewrite Hrw in Ezs. destruct (build_tables 0 cs (sv_b sv) ex_new) as [ex|] eqn:Eb; cbn [bind] in Ezs; [|discriminate].
  injection Ezs as <-.
  eapply (zupdate_best fo ro std_sort _ Hp Hs Hw cs n c mode after x0 g0 _ s0); try eassumption.
  unfold make_zsolver. rewrite H. cbn [obind]. rewrite Eb. reflexivity.
Qed.
Print Assumptions C123_tabled_row_update_is_best.

(** Concrete case: 2x0 + 3x1 + 2x2 + x3 = 3 and x0 + x1 >= 1, costs 5, 7, 4, 2. The choices for
    the first row are x1 (7), x0 and x3 (7), x2 and x3 (6); with the amplifier -2 each value
    changes sign and x1, or x0 and x3, are best. *)
Definition ex_best_rows : list merged :=
  [mk_merged [mk_felem 2 0; mk_felem 3 1; mk_felem 2 2; mk_felem 1 3] 3 3 0;
   mk_merged [mk_felem 1 0; mk_felem 1 1] 1 int_max 1].
Example C123_hyps : exists sv s0 s1 b1 s2 b2,
  make_any_solver ex_fo S_inequalities_Z ex_best_rows 4 (ex_cost [5; 7; 4; 2]) minimize ex_after [true; false; false; false] tt = Ok (sv, s0) /\
  (forall r, In r ex_best_rows -> row_ok 4 r) /\ cost_defined 4 (ex_cost [5; 7; 4; 2]) /\ sized ex_best_rows 4 s0 /\
  (exists r, nth_error ex_best_rows 0 = Some r /\ tabled_row r /\ buffer_one_more ex_best_rows ex_after r /\ row_satisfiable r) /\
  map (fun v => z_reduced_cost ex_fo ex_best_rows 1 0 (s_P s0) (s_pi s0) v (nth v [5; 7; 4; 2] 0)) [0; 1; 2; 3]%nat = [5; 7; 4; 2] /\
  any_update_row ex_fo ex_rops insertion_sort sv None 0 1 1 0 s0 = Some (s1, b1) /\ s_x s1 = [false; false; true; true] /\
  any_update_row ex_fo ex_rops insertion_sort sv (Some (-2)) 0 1 1 0 s0 = Some (s2, b2) /\ s_x s2 <> s_x s1.
Proof.
  eexists _, _, _, _, _, _. split; [vm_compute; reflexivity|]. split; [|split; [|split; [|split; [|split; [vm_compute; reflexivity|]]]]].
  - intros r [<-|[<-|[]]]; split; cbn; try (repeat constructor; cbn; intuition discriminate);
      intros e He; repeat (destruct He as [<-|He]; [cbn; lia|]); destruct He.
  - intros v x Hv _. unfold ex_cost. destruct (nth_error [5; 7; 4; 2] v) eqn:E; [eauto|]. apply nth_error_None in E. cbn in E. lia.
  - unfold sized. cbn. auto.
  - eexists. split; [reflexivity|]. split; [|split; [left; discriminate|]].
    + split; [intros H; specialize (H (mk_felem 2 0) (or_introl eq_refl)); cbn in H; lia|]. split; [cbn; lia|]. left. reflexivity.
    + exists (fun v => Nat.eqb v 1). vm_compute. split; discriminate.
  - split; [vm_compute; reflexivity|]. split; [vm_compute; reflexivity|]. split; [vm_compute; reflexivity|]. vm_compute. discriminate.
Qed.
