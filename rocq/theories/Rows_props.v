(** Property theorem C30 (updating a row satisfies it). *)
From Verif Require Import Base Problem_model Problem_spec Merged_model Merged_spec Classify_model Matrix_model
  Rows_model Rows_spec Rows_proofs.
Open Scope Z_scope.

(** C30. From any solver built from any list of rows with coefficients in {-1, 1}, in any
    state, updating (or pushing) any satisfiable row succeeds, leaves every array with its
    size, makes the assignment satisfy the row, and changes no variable outside the row.
    Floats, shuffles and sorts are arbitrary. Missing: rows for which the selection loop reads
    one reduced cost after the end of its buffer when that read is treated as an error
    ([after] = []; see C30_refuted). *)
Theorem C30_row_update_satisfies_row_partial :
  forall (F G : Type) (fo : fops F) (ro : rops G) std_sort,
  permutes std_sort -> shuffles ro ->
  forall cl cs n c mode after x0 (g0 : G) sv s0,
  make_solver fo cl cs n c mode after x0 g0 = Ok (sv, s0) ->
  shares_affect cl ->
  (forall r, In r cs -> row_ok n r) ->
  cost_defined n c ->
  forall push kappa delta theta k r s,
  nth_error cs k = Some r -> row_satisfiable r -> buffer_long_enough cs after r -> sized cs n s ->
  exists s' b,
    update_row fo ro std_sort sv push kappa delta theta k s = Some (s', b) /\
    sized cs n s' /\ row_satisfied (s_x s') r /\
    (forall v, ~ In v (map f_var (m_elements r)) -> nth_error (s_x s') v = nth_error (s_x s) v).
Proof. intros. eapply update_row_ok; eassumption. Qed.
Print Assumptions C30_row_update_satisfies_row_partial.

(** The test the solver uses decides whether the assignment satisfies the row as given. *)
Theorem C30_row_check_exact :
  forall (F G : Type) (fo : fops F) cl cs n c mode after x0 (g0 : G) sv s0,
  make_solver fo cl cs n c mode after x0 g0 = Ok (sv, s0) ->
  (forall r, In r cs -> row_ok n r) ->
  forall x k r, length x = n -> nth_error cs k = Some r ->
  exists b, is_valid_constraint sv k x = Some b /\ (b = true <-> row_satisfied x r).
Proof. intros. eapply is_valid_constraint_ok; eassumption. Qed.
Print Assumptions C30_row_check_exact.

(** Concrete case: integers for floats, no randomness, insertion sort. *)
Definition ex_fops : fops Z :=
  mk_fops Z (fun z => z) Z.add Z.sub Z.mul Z.div Z.opp Z.ltb Z.eqb (fun z => z <? 0) Z.pow (fun m => match m with minimize => 1000000 | maximize => -1000000 end).
Definition ex_rops : rops unit :=
  mk_rops unit (fun A g l => (rev l, g)) (fun g => (false, g)) (fun g => (false, g)) (fun g => (false, g)).
Definition ex_cost (l : list Z) : nat -> list bool -> option Z := fun v _ => nth_error l v.

(** x0 + x1 - x2 <= 1 and -x1 + x2 + x3 + x4 = 2 *)
Definition ex_rows : list merged :=
  [mk_merged [mk_felem 1 0; mk_felem 1 1; mk_felem (-1) 2] 0 1 0;
   mk_merged [mk_felem (-1) 1; mk_felem 1 2; mk_felem 1 3; mk_felem 1 4] 2 2 1].
Lemma ex_shuffles : shuffles ex_rops.
Proof. intros A g l. cbn. symmetry. apply Permutation_rev. Qed.
Lemma ex_sort_permutes : permutes insertion_sort.
Proof.
  intros A lt l. induction l as [|a l IH]; [constructor|]. change (insertion_sort A lt (a :: l)) with (insert lt a (insertion_sort A lt l)).
  etransitivity; [|apply perm_skip, IH]. generalize (insertion_sort A lt l) as m. clear. induction m as [|b m IH]; cbn; [reflexivity|].
  destruct (lt b a); [|reflexivity]. etransitivity; [apply perm_skip, IH|]. apply perm_swap.
Qed.
Lemma ex_row_ok : forall r, In r ex_rows -> row_ok 5 r.
Proof.
  intros r [<-|[<-|[]]]; split; cbn;
    try (repeat constructor; cbn; intuition discriminate);
    intros e He; repeat (destruct He as [<-|He]; [cbn; lia|]); destruct He.
Qed.
Example C30_hyps : exists sv s0,
  make_solver ex_fops S_inequalities_101 ex_rows 5 (ex_cost [3; -2; 5; 1; -4]) minimize [] [false; true; false; false; true] tt = Ok (sv, s0) /\
  cost_defined 5 (ex_cost [3; -2; 5; 1; -4]) /\
  (forall r, In r ex_rows -> row_satisfiable r /\ buffer_long_enough ex_rows (@nil (rc Z)) r) /\
  sized ex_rows 5 s0 /\
  (exists s', update_row ex_fops ex_rops insertion_sort sv None 0 1 1 1 s0 = Some (s', false) /\ s_x s' = [false; false; false; true; true]).
Proof.
  eexists _, _. split; [vm_compute; reflexivity|]. split; [|split; [|split]].
  - intros v x Hv _. unfold ex_cost. destruct (nth_error [3; -2; 5; 1; -4] v) eqn:E; [eauto|]. apply nth_error_None in E. cbn in E. lia.
  - intros r [<-|[<-|[]]]; split.
    + exists (fun v => Nat.eqb v 0). cbn. lia.
    + right. right. left. cbn. lia.
    + exists (fun v => Nat.leb 3 v). cbn. lia.
    + right. left. reflexivity.
  - unfold sized. cbn. auto.
  - eexists. split; vm_compute; reflexivity.
Qed.

(** C30 is false of the code as it is: with the single row x0 + x1 >= 1, which every solver
    keeps as 1 <= x0 + x1 <= 2, the selection loop compares the reduced cost number 2 of a
    buffer of two: a read out of bounds. *)
Definition ex_ge : list merged := [mk_merged [mk_felem 1 0; mk_felem 1 1] 1 int_max 0].
Theorem C30_refuted :
  exists (F : Type) (fo : fops F) (ro : rops unit) std_sort cs n c sv s0,
    permutes std_sort /\ shuffles ro /\
    make_solver fo S_inequalities_01 cs n c minimize [] [false; false] tt = Ok (sv, s0) /\
    (forall r, In r cs -> row_ok n r /\ row_satisfiable r) /\ cost_defined n c /\
    update_row fo ro std_sort sv None (fl_of_Z fo 0) (fl_of_Z fo 1) (fl_of_Z fo 1) 0 s0 = None.
Proof.
  exists Z, ex_fops, ex_rops, insertion_sort, ex_ge, 2%nat, (ex_cost [-3; -2]).
  eexists _, _. split; [exact ex_sort_permutes|]. split; [exact ex_shuffles|]. split; [vm_compute; reflexivity|].
  split; [|split; [|vm_compute; reflexivity]].
  - intros r [<-|[]]. split; [split; cbn|].
    + repeat constructor; cbn; intuition discriminate.
    + intros e He; repeat (destruct He as [<-|He]; [cbn; lia|]); destruct He.
    + exists (fun _ => true). vm_compute. split; discriminate.
  - intros v x Hv _. unfold ex_cost. destruct (nth_error [-3; -2] v) eqn:E; [eauto|]. apply nth_error_None in E. cbn in E. lia.
Qed.
Print Assumptions C30_refuted.
