(** Property theorem C76 (a row update that returns has done its job). *)
From Verif Require Import Base Problem_model Problem_spec Merged_model Merged_spec Classify_model Matrix_model
  Rows_model Subsolver_model BranchBound_model ZRow_model RandomRow_model Rows_spec Rows_proofs Rows_props Validate_model Solver_model Solver_spec
  Update_proofs.
Open Scope Z_scope.

(** C76. For each of the six solver classes, any rows, any state, any floats, random numbers and
    sort: a row update (or push) that returns leaves an assignment of the same size that satisfies the
    row and that differs from the previous one only on the variables of the row. *)
Theorem C76_returned_update_satisfies_row :
  forall (F G : Type) (fo : fops F) (ro : rops G) std_sort cl cs n c mode after x0 (g0 : G) sv s0,
  make_any_solver fo cl cs n c mode after x0 g0 = Ok (sv, s0) ->
  (forall r, In r cs -> row_ok n r) ->
  forall push kappa delta theta k r s s' b,
  nth_error cs k = Some r -> length (s_x s) = n ->
  any_update_row fo ro std_sort sv push kappa delta theta k s = Some (s', b) ->
  length (s_x s') = n /\ row_satisfied (s_x s') r /\
  (forall v, ~ In v (map f_var (m_elements r)) -> nth_error (s_x s') v = nth_error (s_x s) v).
Proof. intros. eapply any_update_safe; eassumption. Qed.
Print Assumptions C76_returned_update_satisfies_row.

(** Concrete case: three classes accept the two rows of [ex_rows]; their updates of the second row return. *)
Example C76_hyps : forall cl, In cl [S_inequalities_101; S_inequalities_Z; S_random] ->
  exists sv s0 s' b,
  make_any_solver ex_fops cl ex_rows 5 (ex_cost [3; -2; 5; 1; -4]) minimize [mk_rc 0 0 0%nat] [false; true; false; false; true] tt = Ok (sv, s0) /\
  length (s_x s0) = 5%nat /\
  any_update_row ex_fops ex_rops insertion_sort sv None 0 1 1 1 s0 = Some (s', b) /\ s_x s' <> s_x s0.
Proof.
  intros cl [<-|[<-|[<-|[]]]]; eexists _, _, _, _; (split; [vm_compute; reflexivity|]); (split; [reflexivity|]);
    (split; [vm_compute; reflexivity|]); vm_compute; discriminate.
Qed.
