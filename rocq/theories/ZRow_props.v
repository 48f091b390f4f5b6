(** Property theorem C62 (updating a row with arbitrary integer coefficients). *)
From Coq Require Import Permutation.
From Verif Require Import Base Problem_model Problem_spec Merged_model Merged_spec Merged_proofs Classify_model Matrix_model
  Rows_model Rows_spec Rows_props Solver_spec BranchBound_spec Subsolver_props ZRow_model ZRow_spec ZRow_proofs.
Open Scope Z_scope.

(** C62. From any solver built from any list of rows, in any state, updating (or pushing) any
    supported row succeeds, keeps the size of every array, makes the assignment satisfy the row,
    and changes no variable outside the row. Floats, shuffles and sorts are arbitrary, except that
    for the rows given to branch-and-bound the sums of reduced costs are finite. Missing: the
    satisfiable rows that are not [supported] (C62_refuted_order, C62_refuted_table), and the
    rows as long as the buffer when a read after it is an error (C62_refuted_buffer). *)
Theorem C62_row_update_satisfies_row_partial :
  forall (F G : Type) (fo : fops F) (ro : rops G) std_sort init_z,
  permutes std_sort -> sorts std_sort -> weak_order (fl_lt fo) -> shuffles ro ->
  forall cs n c mode after x0 (g0 : G) zs s0,
  make_zsolver fo cs n c mode after x0 g0 = Ok (zs, s0) ->
  (forall r, In r cs -> row_ok n r) ->
  cost_defined n c ->
  forall push kappa delta theta k r s,
  nth_error cs k = Some r -> supported r -> buffer_one_more cs after r -> sized cs n s ->
  (forall row P R sz, ~ unit_row r -> (10 <= length (m_elements r))%nat -> mx_row (sv_ap (zs_sv zs)) k = Some row ->
     zprepare fo (zs_sv zs) push theta row s = Some (P, R, sz) -> sums_finite fo mode init_z (firstn sz R)) ->
  exists s' b,
    zupdate_row fo ro std_sort init_z zs push kappa delta theta k s = Some (s', b) /\
    sized cs n s' /\ row_satisfied (s_x s') r /\
    (forall v, ~ In v (map f_var (m_elements r)) -> nth_error (s_x s') v = nth_error (s_x s) v).
Proof. intros. eapply zupdate_row_ok; eassumption. Qed.
Print Assumptions C62_row_update_satisfies_row_partial.

(** Concrete case: x0 - x1 + x2 >= 1, 2x0 + 3x1 - x3 = 4 and a row of ten variables. *)
Definition ex_zrows : list merged :=
  [mk_merged [mk_felem 1 0; mk_felem (-1) 1; mk_felem 1 2] 1 int_max 0;
   mk_merged [mk_felem 2 0; mk_felem 3 1; mk_felem (-1) 3] 4 4 1;
   mk_merged (map (fun i => mk_felem (if Nat.even i then 2 else -1) i) (seq 0 10)) 5 6 2].
Definition ex_zcost := ex_cost [3; -2; 5; 1; -4; 2; -7; 1; 1; -3].
Definition ex_zx := [false; true; false; false; true; true; false; false; false; true].
Definition ex_after : list (rc Z) := [mk_rc 0 0 0%nat].
Lemma ex_zrow_ok : forall r, In r ex_zrows -> row_ok 10 r.
Proof.
  intros r [<-|[<-|[<-|[]]]]; split; cbn;
    try (repeat constructor; cbn; intuition discriminate);
    intros e He; repeat (destruct He as [<-|He]; [cbn; lia|]); destruct He.
Qed.
Example C62_hyps : exists zs s0,
  make_zsolver ex_fo ex_zrows 10 ex_zcost minimize ex_after ex_zx tt = Ok (zs, s0) /\
  cost_defined 10 ex_zcost /\
  (forall r, In r ex_zrows -> row_ok 10 r /\ supported r /\ buffer_one_more ex_zrows ex_after r) /\
  sized ex_zrows 10 s0 /\
  (forall row P R sz, mx_row (sv_ap (zs_sv zs)) 2 = Some row ->
     zprepare ex_fo (zs_sv zs) (Some 2) 1 row s0 = Some (P, R, sz) -> sums_finite ex_fo minimize 1000 (firstn sz R)) /\
  (exists s1 b1 s2 b2 s3 b3,
    zupdate_row ex_fo ex_rops insertion_sort 1000 zs (Some 2) 0 1 1 2 s0 = Some (s1, b1) /\
    zupdate_row ex_fo ex_rops insertion_sort 1000 zs None 0 1 1 1 s0 = Some (s2, b2) /\
    zupdate_row ex_fo ex_rops insertion_sort 1000 zs None 0 1 1 0 s0 = Some (s3, b3) /\ s_x s1 <> s_x s0 /\ s_x s2 <> s_x s0 /\ s_x s3 <> s_x s0).
Proof.
  eexists _, _. split; [vm_compute; reflexivity|]. split; [|split; [|split; [|split]]].
  - intros v x Hv _. unfold ex_zcost, ex_cost. destruct (nth_error _ v) eqn:E; [eauto|]. apply nth_error_None in E. cbn in E. lia.
  - intros r Hr. split; [apply ex_zrow_ok; assumption|]. split; [|left; discriminate]. destruct Hr as [<-|[<-|[<-|[]]]].
    + right. left. vm_compute. split; discriminate.
    + right. right. right. right. split; [intros H; specialize (H (mk_felem 2 0) (or_introl eq_refl)); cbn in H; lia|].
      split; [|left; reflexivity]. exists (fun v => negb (Nat.eqb v 2)). vm_compute. split; discriminate.
    + right. right. right. left. split; [intros H; specialize (H (mk_felem 2 0) (or_introl eq_refl)); cbn in H; lia|].
      split; [|cbn; lia]. exists (fun v => Nat.even v && Nat.ltb v 5). vm_compute. split; discriminate.
  - unfold sized. cbn. auto.
  - intros row P R sz Hrow Hp. vm_compute in Hrow. inversion Hrow; subst row. vm_compute in Hp. inversion Hp; subst. apply ex_sums_finite. vm_compute. reflexivity.
  - do 6 eexists. split; [vm_compute; reflexivity|]. split; [vm_compute; reflexivity|]. split; [vm_compute; reflexivity|].
    repeat split; vm_compute; discriminate.
Qed.

(** What the refutations share: a satisfiable row whose update fails (the contract at the end of
    the update, or a read out of the buffer). *)
Definition update_fails (after : list (rc Z)) (r : merged) (costs : list Z) : Prop :=
  exists zs s0, make_zsolver ex_fo [r] 2 (ex_cost costs) minimize after [false; false] tt = Ok (zs, s0) /\
    row_ok 2 r /\ row_satisfiable r /\
    zupdate_row ex_fo ex_rops insertion_sort 1000 zs None 0 1 1 0 s0 = None.
(** x0 - x1 = 1: when x1 has the smaller reduced cost no prefix of the order has the sum 1. *)
Theorem C62_refuted_order : exists r costs, unit_row r /\ update_fails ex_after r costs.
Proof.
  exists (mk_merged [mk_felem 1 0; mk_felem (-1) 1] 1 1 0), [5; 3]. split; [intros e [<-|[<-|[]]]; cbn; auto|].
  eexists _, _. split; [vm_compute; reflexivity|]. split; [|split; [|vm_compute; reflexivity]].
  - split; cbn; [repeat constructor; cbn; intuition discriminate|]. intros e [<-|[<-|[]]]; cbn; lia.
  - exists (fun v => Nat.eqb v 0). vm_compute. split; discriminate.
Qed.
Print Assumptions C62_refuted_order.
(** 3x0 - 2x1 >= 3: the table of the exhaustive sub-solver is in the order of the row but is read
    with the reduced costs in sorted order. *)
Theorem C62_refuted_table : exists r costs, ~ unit_row r /\ update_fails ex_after r costs.
Proof.
  exists (mk_merged [mk_felem 3 0; mk_felem (-2) 1] 3 int_max 0), [5; 3].
  split; [intros H; specialize (H (mk_felem 3 0) (or_introl eq_refl)); cbn in H; lia|].
  eexists _, _. split; [vm_compute; reflexivity|]. split; [|split; [|vm_compute; reflexivity]].
  - split; cbn; [repeat constructor; cbn; intuition discriminate|]. intros e [<-|[<-|[]]]; cbn; lia.
  - exists (fun v => Nat.eqb v 0). vm_compute. split; discriminate.
Qed.
Print Assumptions C62_refuted_table.
(** 2x0 + 3x1 = 5: the exhaustive sub-solver selects everything and answers 2; R[2] is read. *)
Theorem C62_refuted_buffer : exists r costs, supported r /\ update_fails [] r costs.
Proof.
  exists (mk_merged [mk_felem 2 0; mk_felem 3 1] 5 5 0), [5; 3]. split; [right; left; vm_compute; split; discriminate|].
  eexists _, _. split; [vm_compute; reflexivity|]. split; [|split; [|vm_compute; reflexivity]].
  - split; cbn; [repeat constructor; cbn; intuition discriminate|]. intros e [<-|[<-|[]]]; cbn; lia.
  - exists (fun v => true). vm_compute. split; discriminate.
Qed.
Print Assumptions C62_refuted_buffer.
