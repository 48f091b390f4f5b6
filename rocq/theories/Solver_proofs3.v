(** The row updates of every solver class succeed on the rows they support. *)
From Coq Require Import Permutation.
From Verif Require Import Base Problem_model Problem_spec Merged_model Merged_spec Classify_model Matrix_model
  Rows_model Rows_spec Rows_proofs Subsolver_model BranchBound_model ZRow_model ZRow_spec ZRow_proofs Solver_model Solver_spec Solver_proofs2.
Open Scope Z_scope.

Section Update.
Context {F G : Type} (fo : fops F) (ro : rops G)
        (std_sort : forall A : Type, (A -> A -> bool) -> list A -> list A).
Hypothesis Hperm : permutes std_sort.
Hypothesis Hshuf : shuffles ro.
Variables (cl : solver_class) (cs : list merged) (n : nat) (c : nat -> list bool -> option F)
          (mode : objective_type) (after : list (rc F)) (x0 : list bool) (g0 : G) (sv : solver F) (s0 : state F G).
Hypothesis Hmk : make_any_solver fo cl cs n c mode after x0 g0 = Ok (sv, s0).
Hypothesis Hrows : forall r, In r cs -> row_ok n r.
Hypothesis Hcost : cost_defined n c.

Lemma sv_class_cl : sv_class sv = cl.
Proof.
  destruct (make_any_make fo cl cs n c mode after x0 g0 sv s0 Hmk) as [H _].
  destruct (mk_fields fo cl cs n c mode after x0 g0 sv s0 H) as (ap & b & _ & _ & -> & _). reflexivity.
Qed.
Lemma any_update_unit push kappa delta theta k r s : shares_affect cl -> nth_error cs k = Some r -> row_satisfiable r ->
  buffer_long_enough cs after r -> sized cs n s ->
  exists s' b, any_update_row fo ro std_sort sv push kappa delta theta k s = Some (s', b) /\
    sized cs n s' /\ row_satisfied (s_x s') r /\
    (forall v, ~ In v (map f_var (m_elements r)) -> nth_error (s_x s') v = nth_error (s_x s) v).
Proof.
  intros Hcl. destruct (make_any_make fo cl cs n c mode after x0 g0 sv s0 Hmk) as [H _]. unfold any_update_row. rewrite sv_class_cl.
  intros Hk H1 H2 H3. pose proof (update_row_ok fo ro std_sort Hperm Hshuf cl cs n c mode after x0 g0 sv s0 H Hcl Hrows Hcost push kappa delta theta k r s Hk H1 H2 H3) as K.
  destruct cl; first [exact K | destruct Hcl].
Qed.
Hypothesis Hsort : sorts std_sort.
Hypothesis Hw : weak_order (fl_lt fo).
Lemma any_update_Z push kappa delta theta k r s : cl = S_inequalities_Z -> nth_error cs k = Some r -> supported r ->
  buffer_one_more cs after r -> unit_row r \/ (length (m_elements r) < 10)%nat -> sized cs n s ->
  exists s' b, any_update_row fo ro std_sort sv push kappa delta theta k s = Some (s', b) /\
    sized cs n s' /\ row_satisfied (s_x s') r /\
    (forall v, ~ In v (map f_var (m_elements r)) -> nth_error (s_x s') v = nth_error (s_x s) v).
Proof.
  intros Hcl Hk H1 H2 Hnbb H3. destruct (make_any_make fo cl cs n c mode after x0 g0 sv s0 Hmk) as [H Hz]. destruct (Hz Hcl) as [zs Ezs].
  unfold any_update_row. rewrite sv_class_cl, Hcl, Ezs. cbn [bind]. rewrite Hcl in H.
  assert (Hrw : sv_rows sv = cs) by (destruct (mk_fields fo _ cs n c mode after x0 g0 sv s0 H) as (ap & b & _ & _ & -> & _); reflexivity).
  unfold zsolver_of in Ezs. rewrite Hrw in Ezs. destruct (build_tables 0 cs (sv_b sv) ex_new) as [ex|] eqn:Eb; cbn [bind] in Ezs; [|discriminate].
  injection Ezs as <-.
  apply (zupdate_row_ok fo ro std_sort (fl_worst fo (sv_mode sv)) Hperm Hsort Hw Hshuf cs n c mode after x0 g0 _ s0); try assumption.
  - unfold make_zsolver. rewrite H. cbn [obind]. rewrite Eb. reflexivity.
  - intros row P R sz Hnu Hl. destruct Hnbb as [Hu|Hlt]; [contradiction|lia].
Qed.
End Update.
