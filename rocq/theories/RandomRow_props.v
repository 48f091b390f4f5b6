(** Property theorem C75 (the row update of the random solver). *)
From Verif Require Import Base Problem_model Problem_spec Merged_model Merged_spec Classify_model Matrix_model
  Rows_model RandomRow_model Rows_spec Rows_proofs Rows_props RandomRow_spec RandomRow_proofs.
Open Scope Z_scope.

(** C75. From any random solver built from any list of rows with coefficients in {-1, 1}, in any
    state, updating a row succeeds, leaves every array with its size, makes the assignment satisfy the
    row and changes no variable outside the row, whatever the floats, the shuffles and the sort.
    Missing: rows whose upper bound is negative (the update then always aborts,
    C75_negative_row_aborts) and rows with a positive lower bound greater than the sum of the
    coefficients (C75_refuted). *)
Theorem C75_random_row_update_partial :
  forall (F G : Type) (fo : fops F) (ro : rops G) std_sort,
  permutes std_sort -> shuffles ro ->
  forall cs n c mode after x0 (g0 : G) sv s0,
  make_solver fo S_random cs n c mode after x0 g0 = Ok (sv, s0) ->
  (forall r, In r cs -> row_ok n r) ->
  cost_defined n c ->
  forall kappa delta theta k r s,
  nth_error cs k = Some r -> sized cs n s ->
  0 <= m_max r -> m_min r <= Z.max 0 (coefficient_sum r) ->
  exists s',
    random_update_row fo ro std_sort sv kappa delta theta k s = Some (s', false) /\
    sized cs n s' /\ row_satisfied (s_x s') r /\
    (forall v, ~ In v (map f_var (m_elements r)) -> nth_error (s_x s') v = nth_error (s_x s) v).
Proof. intros. eapply random_update_ok; eassumption. Qed.
Print Assumptions C75_random_row_update_partial.

(** The hypotheses on the bounds hold of every satisfiable row whose coefficients are all 1. *)
Theorem C75_positive_rows :
  forall r, (forall e, In e (m_elements r) -> f_factor e = 1) -> row_satisfiable r ->
  0 <= m_max r /\ m_min r <= Z.max 0 (coefficient_sum r).
Proof.
  intros r Hf [x Hx].
  assert (H : 0 <= lhs x (m_elements r) <= coefficient_sum r).
  { unfold coefficient_sum. revert Hf. generalize (m_elements r) as l. clear. induction l as [|e l IH]; intros Hf; cbn [lhs map fold_right]; [lia|].
    specialize (IH (fun e' He => Hf e' (or_intror He))). rewrite (Hf e (or_introl eq_refl)). destruct (x (f_var e)); cbn [bz]; lia. }
  lia.
Qed.
Print Assumptions C75_positive_rows.

(** Whatever the state, the floats and the random numbers, the update of a row whose upper bound is
    negative, such as -x0 - x1 <= -1, aborts. *)
Theorem C75_negative_row_aborts :
  forall (F G : Type) (fo : fops F) (ro : rops G) std_sort,
  permutes std_sort -> shuffles ro ->
  forall cs n c mode after x0 (g0 : G) sv s0,
  make_solver fo S_random cs n c mode after x0 g0 = Ok (sv, s0) ->
  (forall r, In r cs -> row_ok n r) ->
  cost_defined n c ->
  forall kappa delta theta k r s,
  nth_error cs k = Some r -> sized cs n s -> m_max r < 0 ->
  random_update_row fo ro std_sort sv kappa delta theta k s = None.
Proof. intros. eapply random_update_negative; eassumption. Qed.
Print Assumptions C75_negative_row_aborts.

(** x0 + x1 - x2 in [0, 1], -x1 + x2 + x3 + x4 = 2 and -x0 - x2 <= -1 *)
Definition ex_random_rows : list merged := ex_rows ++ [mk_merged [mk_felem (-1) 0; mk_felem (-1) 2] (-2) (-1) 2].
Example C75_hyps : exists sv s0,
  make_solver ex_fops S_random ex_random_rows 5 (ex_cost [3; -2; 5; 1; -4]) minimize [] [false; true; true; false; false] tt = Ok (sv, s0) /\
  (forall r, In r ex_random_rows -> row_ok 5 r) /\
  cost_defined 5 (ex_cost [3; -2; 5; 1; -4]) /\ sized ex_random_rows 5 s0 /\
  (forall r, In r ex_rows -> 0 <= m_max r /\ m_min r <= Z.max 0 (coefficient_sum r)) /\
  (exists s', random_update_row ex_fops ex_rops insertion_sort sv 0 1 1 1 s0 = Some (s', false) /\ s_x s' <> s_x s0) /\
  random_update_row ex_fops ex_rops insertion_sort sv 0 1 1 2 s0 = None.
Proof.
  eexists _, _. split; [vm_compute; reflexivity|]. split; [|split; [|split; [|split; [|split]]]].
  - intros r Hr. apply in_app_or in Hr. destruct Hr as [Hr|[<-|[]]]; [apply ex_row_ok, Hr|]. split; cbn.
    + repeat constructor; cbn; intuition discriminate.
    + intros e He; repeat (destruct He as [<-|He]; [cbn; lia|]); destruct He.
  - intros v x Hv _. unfold ex_cost. destruct (nth_error [3; -2; 5; 1; -4] v) eqn:E; [eauto|]. apply nth_error_None in E. cbn in E. lia.
  - unfold sized. cbn. auto.
  - intros r [<-|[<-|[]]]; cbn; lia.
  - eexists. split; [vm_compute; reflexivity|]. vm_compute. discriminate.
  - vm_compute. reflexivity.
Qed.

(** C75 is false of the code: with the single row x0 - x1 = 1, which x0 = 1, x1 = 0 satisfies, the
    reduced costs may order x1 before x0: the do-while loop then sets both variables and the last test
    aborts. *)
Definition ex_diff : list merged := [mk_merged [mk_felem 1 0; mk_felem (-1) 1] 1 1 0].
Theorem C75_refuted :
  exists (F : Type) (fo : fops F) (ro : rops unit) std_sort cs n c sv s0,
    permutes std_sort /\ shuffles ro /\
    make_solver fo S_random cs n c minimize [] [false; false] tt = Ok (sv, s0) /\
    (forall r, In r cs -> row_ok n r /\ row_satisfiable r /\ 0 <= m_max r) /\ cost_defined n c /\ sized cs n s0 /\
    random_update_row fo ro std_sort sv (fl_of_Z fo 0) (fl_of_Z fo 1) (fl_of_Z fo 1) 0 s0 = None.
Proof.
  exists Z, ex_fops, ex_rops, insertion_sort, ex_diff, 2%nat, (ex_cost [1; 1]).
  eexists _, _. split; [exact ex_sort_permutes|]. split; [exact ex_shuffles|]. split; [vm_compute; reflexivity|].
  split; [|split; [|split; [unfold sized; cbn; auto|vm_compute; reflexivity]]].
  - intros r [<-|[]]. split; [split; cbn|split].
    + repeat constructor; cbn; intuition discriminate.
    + intros e He; repeat (destruct He as [<-|He]; [cbn; lia|]); destruct He.
    + exists (fun v => Nat.eqb v 0). vm_compute. split; discriminate.
    + vm_compute. discriminate.
  - intros v x Hv _. unfold ex_cost. destruct (nth_error [1; 1] v) eqn:E; [eauto|]. apply nth_error_None in E. cbn in E. lia.
Qed.
Print Assumptions C75_refuted.
