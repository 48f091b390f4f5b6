(** Property theorems C59 (push) and C60 (greedy choice). *)
From Verif Require Import Base Problem_model Problem_spec Merged_model Merged_spec Merged_proofs Classify_model Matrix_model
  Rows_model Rows_spec Rows_proofs Rows_props Greedy_spec Greedy_proofs.
Open Scope Z_scope.

(** C60. Whenever the update of a satisfiable row (coefficients in {-1, 1}) returns, its choice is
    greedy for the reduced costs at the start of the update. Arbitrary floats (with a strict weak
    order), costs, preferences, multipliers, shuffles and sorts, history; equalities and
    inequalities; minimisation and maximisation. *)
Theorem C60_row_update_is_greedy :
  forall (F G : Type) (fo : fops F) (ro : rops G) std_sort,
  permutes std_sort -> sorts std_sort -> shuffles ro -> ordered_floats fo ->
  forall cl cs n c mode after x0 (g0 : G) sv s0,
  make_solver fo cl cs n c mode after x0 g0 = Ok (sv, s0) ->
  shares_affect cl ->
  (forall r, In r cs -> row_ok n r) ->
  cost_defined n c ->
  forall kappa delta theta k r s s' b val,
  nth_error cs k = Some r -> row_satisfiable r -> sized cs n s ->
  (forall i e, nth_error (m_elements r) i = Some e -> exists cost, c (f_var e) (s_x s) = Some cost /\
     val i = term_cost fo (f_factor e) (reduced_cost fo cs theta k (s_P s) (s_pi s) (f_var e) cost)) ->
  update_row fo ro std_sort sv None kappa delta theta k s = Some (s', b) ->
  greedy fo mode r val (s_x s').
Proof.
  intros F G fo ro std_sort Hp Hso Hsh Hfl cl cs n c mode after x0 g0 sv s0 Hmk Hcl Hr Hc kappa delta theta k r s s' b val Hk Hsat Hs Hval Hup.
  eapply (update_greedy fo ro std_sort Hp Hso Hsh Hfl cl cs n c mode after x0 g0 sv s0 Hmk Hcl Hr Hc None); try eassumption.
  intros i e He. destruct (Hval i e He) as (cost & Hcost & ->). eexists. split; [|reflexivity]. exists cost. auto.
Qed.
Print Assumptions C60_row_update_is_greedy.

(** C59. With a push, and rows whose coefficients are all 1, the solvers for coefficients in
    {-1, 1} choose greedily for the reduced costs increased by the amplifier times the cost of
    the same variable. Missing: rows with a coefficient -1 and the solvers for coefficients in
    {0, 1} (see the refutations). *)
Theorem C59_push_uses_own_cost_partial :
  forall (F G : Type) (fo : fops F) (ro : rops G) std_sort,
  permutes std_sort -> sorts std_sort -> shuffles ro -> ordered_floats fo ->
  forall cl cs n c mode after x0 (g0 : G) sv s0,
  make_solver fo cl cs n c mode after x0 g0 = Ok (sv, s0) ->
  cl = S_equalities_101 \/ cl = S_inequalities_101 ->
  (forall r, In r cs -> row_ok n r) ->
  cost_defined n c ->
  forall amp kappa delta theta k r s s' b val,
  nth_error cs k = Some r -> row_satisfiable r -> sized cs n s ->
  (forall e, In e (m_elements r) -> f_factor e = 1) ->
  (forall i e, nth_error (m_elements r) i = Some e -> exists cost, c (f_var e) (s_x s) = Some cost /\
     val i = term_cost fo (f_factor e)
               (fl_add fo (reduced_cost fo cs theta k (s_P s) (s_pi s) (f_var e) cost) (fl_mul fo amp cost))) ->
  update_row fo ro std_sort sv (Some amp) kappa delta theta k s = Some (s', b) ->
  greedy fo mode r val (s_x s').
Proof.
  intros F G fo ro std_sort Hp Hso Hsh Hfl cl cs n c mode after x0 g0 sv s0 Hmk Hcl Hr Hc amp kappa delta theta k r s s' b val Hk Hsat Hs H1 Hval Hup.
  assert (Hz : shares_affect cl) by (destruct Hcl as [->| ->]; exact I).
  eapply (update_greedy fo ro std_sort Hp Hso Hsh Hfl cl cs n c mode after x0 g0 sv s0 Hmk Hz Hr Hc (Some amp)); try eassumption.
  intros i e He. destruct (Hval i e He) as (cost & Hcost & ->). unfold term_cost. rewrite (H1 e (nth_error_In _ _ He)).
  cbn [Z.ltb Z.compare]. eexists. split.
  - exists cost. split; [eassumption|]. reflexivity.
  - exists cost. split; [|unfold term_cost; rewrite (H1 e (nth_error_In _ _ He)); reflexivity].
    unfold pushed_variable. destruct Hcl as [->| ->]; exact Hcost.
Qed.
Print Assumptions C59_push_uses_own_cost_partial.

(** ** Concrete cases *)
Lemma ex_ordered : ordered_floats ex_fops.
Proof.
  constructor; cbn [ex_fops fl_lt fl_eqb fl_mul fl_of_Z]; intros; rewrite ?Z.ltb_lt, ?Z.ltb_ge, ?Z.eqb_eq in *; try lia.
Qed.
(** The rows of C30_hyps: x0 + x1 - x2 <= 1 and -x1 + x2 + x3 + x4 = 2; row 1 after row 0. *)
Example C60_hyps : sorts insertion_sort /\ ordered_floats ex_fops /\ exists sv s0 s1 s2,
  make_solver ex_fops S_inequalities_101 ex_rows 5 (ex_cost [3; -2; 5; 1; -4]) minimize [] [false; true; false; false; true] tt = Ok (sv, s0) /\
  update_row ex_fops ex_rops insertion_sort sv None 0 1 1 0 s0 = Some (s1, false) /\
  update_row ex_fops ex_rops insertion_sort sv None 0 1 1 1 s1 = Some (s2, false) /\
  s_x s1 = [false; true; false; false; true] /\ s_x s2 = [false; false; false; true; true] /\
  map (fun v => reduced_cost ex_fops ex_rows 1 1%nat (s_P s1) (s_pi s1) v (nth v [3; -2; 5; 1; -4] 0)) [1; 2; 3; 4]%nat = [-3; 4; 1; -4].
Proof.
  split; [exact insertion_sort_sorts|]. split; [exact ex_ordered|]. eexists _, _, _, _.
  split; [vm_compute; reflexivity|]. split; [vm_compute; reflexivity|]. split; [vm_compute; reflexivity|]. repeat split; vm_compute; reflexivity.
Qed.

(** Row x0 + x1 + x2 = 1, costs 4, 1, 3, amplifier 10: x1 is chosen, 11 is less than 33 and 44. *)
Definition ex_one_of : list merged := [mk_merged [mk_felem 1 0; mk_felem 1 1; mk_felem 1 2] 1 1 0].
Example C59_hyps : exists sv s0 s1,
  make_solver ex_fops S_equalities_101 ex_one_of 3 (ex_cost [4; 1; 3]) minimize [] [false; false; true] tt = Ok (sv, s0) /\
  sized ex_one_of 3 s0 /\
  update_row ex_fops ex_rops insertion_sort sv (Some 10) 0 1 1 0 s0 = Some (s1, false) /\
  s_x s1 = [false; true; false].
Proof.
  eexists _, _, _. split; [vm_compute; reflexivity|]. split; [unfold sized; cbn; auto|]. split; vm_compute; reflexivity.
Qed.

(** C59 is false of the solvers for coefficients in {0, 1}: they add the cost of the variable whose
    index is the position in the row. Row x1 + x2 = 1, costs 100, 1, 2: own costs give 11 for x1 and
    22 for x2, the code computes 1001 and 12 and chooses x2. *)
Definition ex_pair : list merged := [mk_merged [mk_felem 1 1; mk_felem 1 2] 1 1 0].
Theorem C59_01_refuted :
  exists (F : Type) (fo : fops F) (ro : rops unit) std_sort cs n c sv s0 r val amp s' b,
    permutes std_sort /\ sorts std_sort /\ shuffles ro /\ ordered_floats fo /\
    make_solver fo S_equalities_01 cs n c minimize [] [false; false; false] tt = Ok (sv, s0) /\
    (forall q, In q cs -> row_ok n q) /\ cost_defined n c /\ nth_error cs 0 = Some r /\ row_satisfiable r /\ sized cs n s0 /\
    (forall i e, nth_error (m_elements r) i = Some e -> exists cost, c (f_var e) (s_x s0) = Some cost /\
       val i = term_cost fo (f_factor e)
                 (fl_add fo (reduced_cost fo cs (fl_of_Z fo 1) 0 (s_P s0) (s_pi s0) (f_var e) cost) (fl_mul fo amp cost))) /\
    update_row fo ro std_sort sv (Some amp) (fl_of_Z fo 0) (fl_of_Z fo 1) (fl_of_Z fo 1) 0 s0 = Some (s', b) /\
    ~ greedy fo minimize r val (s_x s').
Proof.
  exists Z, ex_fops, ex_rops, insertion_sort, ex_pair, 3%nat, (ex_cost [100; 1; 2]). eexists _, _, _.
  exists (fun i => match i with O => 11 | _ => 22 end), 10. eexists _, _.
  split; [exact ex_sort_permutes|]. split; [exact insertion_sort_sorts|]. split; [exact ex_shuffles|]. split; [exact ex_ordered|].
  split; [vm_compute; reflexivity|]. split; [|split; [|split; [reflexivity|split; [|split; [|split; [|split; [vm_compute; reflexivity|]]]]]]].
  - intros q [<-|[]]. split; cbn.
    + repeat constructor; cbn; intuition discriminate.
    + intros e He; repeat (destruct He as [<-|He]; [cbn; lia|]); destruct He.
  - intros v x Hv _. unfold ex_cost. destruct (nth_error [100; 1; 2] v) eqn:E; [eauto|]. apply nth_error_None in E. cbn in E. lia.
  - exists (fun v => Nat.eqb v 1). cbn. lia.
  - unfold sized. cbn. auto.
  - intros [|[|[|i]]] e He; cbn in He; inversion He; subst e; eexists; (split; [reflexivity|]); vm_compute; reflexivity.
  - intros (H & _). specialize (H 1%nat _ 0%nat _ eq_refl eq_refl). vm_compute in H. specialize (H eq_refl).
    enough (true = false) by discriminate. apply H. discriminate.
Qed.
Print Assumptions C59_01_refuted.
(** It is also false for a coefficient -1: the amplified cost is added to the opposite of the reduced
    cost. Row x0 - x1 = 0, costs 1, 2, minimisation: pushing the costs chooses x0 = x1 = 1. *)
Definition ex_same : list merged := [mk_merged [mk_felem 1 0; mk_felem (-1) 1] 0 0 0].
Theorem C59_101_refuted :
  exists (F : Type) (fo : fops F) (ro : rops unit) std_sort cs n c sv s0 r val amp s' b,
    permutes std_sort /\ sorts std_sort /\ shuffles ro /\ ordered_floats fo /\
    make_solver fo S_equalities_101 cs n c minimize [] [false; false] tt = Ok (sv, s0) /\
    (forall q, In q cs -> row_ok n q) /\ cost_defined n c /\ nth_error cs 0 = Some r /\ row_satisfiable r /\ sized cs n s0 /\
    (forall i e, nth_error (m_elements r) i = Some e -> exists cost, c (f_var e) (s_x s0) = Some cost /\
       val i = term_cost fo (f_factor e)
                 (fl_add fo (reduced_cost fo cs (fl_of_Z fo 1) 0 (s_P s0) (s_pi s0) (f_var e) cost) (fl_mul fo amp cost))) /\
    update_row fo ro std_sort sv (Some amp) (fl_of_Z fo 0) (fl_of_Z fo 1) (fl_of_Z fo 1) 0 s0 = Some (s', b) /\
    ~ greedy fo minimize r val (s_x s').
Proof.
  exists Z, ex_fops, ex_rops, insertion_sort, ex_same, 2%nat, (ex_cost [1; 2]). eexists _, _, _.
  exists (fun i => match i with O => 11 | _ => -22 end), 10. eexists _, _.
  split; [exact ex_sort_permutes|]. split; [exact insertion_sort_sorts|]. split; [exact ex_shuffles|]. split; [exact ex_ordered|].
  split; [vm_compute; reflexivity|]. split; [|split; [|split; [reflexivity|split; [|split; [|split; [|split; [vm_compute; reflexivity|]]]]]]].
  - intros q [<-|[]]. split; cbn.
    + repeat constructor; cbn; intuition discriminate.
    + intros e He; repeat (destruct He as [<-|He]; [cbn; lia|]); destruct He.
  - intros v x Hv _. unfold ex_cost. destruct (nth_error [1; 2] v) eqn:E; [eauto|]. apply nth_error_None in E. cbn in E. lia.
  - exists (fun v => false). cbn. lia.
  - unfold sized. cbn. auto.
  - intros [|[|[|i]]] e He; cbn in He; inversion He; subst e; eexists; (split; [reflexivity|]); vm_compute; reflexivity.
  - intros (H & _). specialize (H 0%nat _ 1%nat _ eq_refl eq_refl). vm_compute in H. specialize (H eq_refl).
    enough (true = false) by discriminate. apply H. discriminate.
Qed.
Print Assumptions C59_101_refuted.
