(** Property theorems C146 (a row update settles its row) and C147 (updating a row again changes nothing). *)
From Coq Require Import Permutation QArith SpecFloat Lqa.
From Verif Require Import Base Problem_model Problem_spec Merged_model Merged_spec Merged_proofs Classify_model Matrix_model
  Rows_model Rows_spec Rows_proofs Rows_props Greedy_spec Greedy_proofs Double_model Budget_props Delta_spec Settle_spec Settle_proofs.
Open Scope Z_scope.

(** C146. Minimisation, exact arithmetic, linear objective, a row whose coefficients are 1, kappa in [0, 1[:
    after the update the reduced cost of every variable of the row that was given 1 is at most -delta and
    that of every variable that was given 0 is at least delta. Any other rows, costs, multipliers and
    preferences, any tie-breaking, any theta. Missing: rows where every variable is chosen or where none may
    be, coefficients -1, maximisation (see the refutations). *)
Theorem C146_update_settles_row_partial :
  forall (G : Type) (ro : rops G) std_sort,
  permutes std_sort -> sorts std_sort -> shuffles ro ->
  forall cl cs n c after x0 (g0 : G) sv s0,
  make_solver q_fops cl cs n c minimize after x0 g0 = Ok (sv, s0) ->
  shares_affect cl -> (forall r, In r cs -> row_ok n r) -> cost_defined n c -> linear_cost c ->
  forall kappa delta theta k r (s s' : state Q G) b,
  (0 <= kappa < 1)%Q ->
  nth_error cs k = Some r -> row_satisfiable r -> sized cs n s -> (forall e, In e (m_elements r) -> f_factor e = 1) ->
  update_row q_fops ro std_sort sv None kappa delta theta k s = Some (s', b) ->
  free_choice r (s_x s') ->
  forall e v, In e (m_elements r) -> nth_error (s_x s') (f_var e) = Some v ->
  exists cost, c (f_var e) (s_x s') = Some cost /\
    let q := current_cost cs (s_P s') (s_pi s') (f_var e) cost in
    (if v then q <= - delta else delta <= q)%Q.
Proof.
  intros G ro std_sort Hp Hso Hsh cl cs n c after x0 g0 sv s0 Hmk Hcl Hr Hc Hlin kappa delta theta k r s s' b Hkap Hk Hsat Hs H1 Hup [Hz Ho] e v He Hv.
  destruct (settled ro std_sort Hp Hso Hsh cl cs n c minimize after x0 g0 sv s0 Hmk Hcl Hr Hc Hlin kappa delta theta k r s s' b e v Hkap Hk Hsat Hs H1 Hup Hz Ho He Hv)
    as (cost & Hcost & Hq). exists cost. split; [exact Hcost|]. destruct v; exact Hq.
Qed.
Print Assumptions C146_update_settles_row_partial.

(** With the same hypotheses the values agree with the reduced costs as soon as delta is not negative. *)
Theorem C146_values_agree_partial :
  forall (G : Type) (ro : rops G) std_sort,
  permutes std_sort -> sorts std_sort -> shuffles ro ->
  forall cl cs n c after x0 (g0 : G) sv s0,
  make_solver q_fops cl cs n c minimize after x0 g0 = Ok (sv, s0) ->
  shares_affect cl -> (forall r, In r cs -> row_ok n r) -> cost_defined n c -> linear_cost c ->
  forall kappa delta theta k r (s s' : state Q G) b,
  (0 <= kappa < 1)%Q -> (0 <= delta)%Q ->
  nth_error cs k = Some r -> row_satisfiable r -> sized cs n s -> (forall e, In e (m_elements r) -> f_factor e = 1) ->
  update_row q_fops ro std_sort sv None kappa delta theta k s = Some (s', b) ->
  free_choice r (s_x s') ->
  forall e v, In e (m_elements r) -> nth_error (s_x s') (f_var e) = Some v ->
  exists cost, c (f_var e) (s_x s') = Some cost /\ agrees minimize v (current_cost cs (s_P s') (s_pi s') (f_var e) cost).
Proof.
  intros. edestruct C146_update_settles_row_partial as (cost & Hcost & Hq); try eassumption. exists cost. split; [exact Hcost|].
  destruct v; cbv beta zeta iota delta [agrees] in *; lra.
Qed.
Print Assumptions C146_values_agree_partial.

(** When maximising, delta works against the choice: the reduced costs agree up to delta only. *)
Theorem C146_maximise_up_to_delta :
  forall (G : Type) (ro : rops G) std_sort,
  permutes std_sort -> sorts std_sort -> shuffles ro ->
  forall cl cs n c after x0 (g0 : G) sv s0,
  make_solver q_fops cl cs n c maximize after x0 g0 = Ok (sv, s0) ->
  shares_affect cl -> (forall r, In r cs -> row_ok n r) -> cost_defined n c -> linear_cost c ->
  forall kappa delta theta k r (s s' : state Q G) b,
  (0 <= kappa < 1)%Q ->
  nth_error cs k = Some r -> row_satisfiable r -> sized cs n s -> (forall e, In e (m_elements r) -> f_factor e = 1) ->
  update_row q_fops ro std_sort sv None kappa delta theta k s = Some (s', b) ->
  free_choice r (s_x s') ->
  forall e v, In e (m_elements r) -> nth_error (s_x s') (f_var e) = Some v ->
  exists cost, c (f_var e) (s_x s') = Some cost /\
    let q := current_cost cs (s_P s') (s_pi s') (f_var e) cost in
    (if v then - delta <= q else q <= delta)%Q.
Proof.
  intros G ro std_sort Hp Hso Hsh cl cs n c after x0 g0 sv s0 Hmk Hcl Hr Hc Hlin kappa delta theta k r s s' b Hkap Hk Hsat Hs H1 Hup [Hz Ho] e v He Hv.
  destruct (settled ro std_sort Hp Hso Hsh cl cs n c maximize after x0 g0 sv s0 Hmk Hcl Hr Hc Hlin kappa delta theta k r s s' b e v Hkap Hk Hsat Hs H1 Hup Hz Ho He Hv)
    as (cost & Hcost & Hq). exists cost. split; [exact Hcost|]. destruct v; exact Hq.
Qed.
Print Assumptions C146_maximise_up_to_delta.

(** C147. With the same hypotheses and a positive delta, a second update of the row with theta = 1 (any kappa
    and delta) leaves the assignment as it is. Missing: as for C146. *)
Theorem C147_second_update_keeps_partial :
  forall (G : Type) (ro : rops G) std_sort,
  permutes std_sort -> sorts std_sort -> shuffles ro ->
  forall cl cs n c after x0 (g0 : G) sv s0,
  make_solver q_fops cl cs n c minimize after x0 g0 = Ok (sv, s0) ->
  shares_affect cl -> (forall r, In r cs -> row_ok n r) -> cost_defined n c -> linear_cost c ->
  forall kappa delta theta kappa2 delta2 theta2 k r (s s1 s2 : state Q G) b1 b2,
  (0 <= kappa < 1)%Q -> (0 < delta)%Q -> (theta2 == 1)%Q ->
  nth_error cs k = Some r -> row_satisfiable r -> sized cs n s -> (forall e, In e (m_elements r) -> f_factor e = 1) ->
  update_row q_fops ro std_sort sv None kappa delta theta k s = Some (s1, b1) ->
  free_choice r (s_x s1) ->
  update_row q_fops ro std_sort sv None kappa2 delta2 theta2 k s1 = Some (s2, b2) ->
  s_x s2 = s_x s1.
Proof.
  intros G ro std_sort Hp Hso Hsh cl cs n c after x0 g0 sv s0 Hmk Hcl Hr Hc Hlin kappa delta theta kappa2 delta2 theta2 k r s s1 s2 b1 b2
    Hkap Hdel Hth Hk Hsat Hs H1 Hup [Hz Ho] Hup2.
  exact (repeated ro std_sort Hp Hso Hsh cl cs n c minimize after x0 g0 sv s0 Hmk Hcl Hr Hc Hlin kappa delta theta kappa2 delta2 theta2 k r s s1 s2 b1 b2
    eq_refl Hkap Hdel Hth Hk Hsat Hs H1 Hup Hz Ho Hup2).
Qed.
Print Assumptions C147_second_update_keeps_partial.

(** ** Concrete cases *)
Definition q_cost (l : list Q) : nat -> list bool -> option Q := fun v _ => nth_error l v.
Lemma q_cost_linear l : linear_cost (q_cost l).
Proof. intros v x y. reflexivity. Qed.
Lemma q_cost_defined l : cost_defined (length l) (q_cost l).
Proof. intros v x Hv _. unfold q_cost. destruct (nth_error l v) eqn:E; [eauto|]. apply nth_error_None in E. lia. Qed.

(** x0 + x1 + x2 = 1 and x1 + x2 + x3 <= 2. *)
Definition ex_two_rows : list merged :=
  [mk_merged [mk_felem 1 0; mk_felem 1 1; mk_felem 1 2] 1 1 0; mk_merged [mk_felem 1 1; mk_felem 1 2; mk_felem 1 3] 0 2 1].
Lemma ex_two_ok : forall r, In r ex_two_rows -> row_ok 4 r.
Proof.
  intros r [<-|[<-|[]]]; (split; cbn; [repeat constructor; cbn; intuition discriminate|]);
    intros e He; repeat (destruct He as [<-|He]; [cbn; lia|]); destruct He.
Qed.
(** Costs 3, 1, -2, 5: the update of the first row chooses x2, then that of the second row keeps x2 alone;
    both have a free choice, and updating the second row again keeps the assignment. *)
Example C146_hyps : exists sv s0 s1 s2 s3 b1 b2 b3,
  make_solver q_fops S_inequalities_01 ex_two_rows 4 (q_cost [3; 1; -2; 5]%Q) minimize [] [true; true; false; true] tt = Ok (sv, s0) /\
  sized ex_two_rows 4 s0 /\
  update_row q_fops ex_rops insertion_sort sv None (1 # 10)%Q (1 # 100)%Q 1%Q 0 s0 = Some (s1, b1) /\ s_x s1 = [false; false; true; true] /\
  update_row q_fops ex_rops insertion_sort sv None (1 # 10)%Q (1 # 100)%Q 1%Q 1 s1 = Some (s2, b2) /\ s_x s2 = [false; false; true; false] /\
  update_row q_fops ex_rops insertion_sort sv None (1 # 10)%Q (1 # 100)%Q 1%Q 1 s2 = Some (s3, b3) /\ s_x s3 = [false; false; true; false] /\
  (forall r, In r ex_two_rows -> row_satisfiable r /\ free_choice r (s_x s2)).
Proof.
  eexists _, _, _, _, _, _, _, _. split; [vm_compute; reflexivity|]. split; [unfold sized; cbn; auto|].
  do 3 (split; [vm_compute; reflexivity|]; split; [vm_compute; reflexivity|]).
  intros r Hr. assert (Hx : row_satisfiable r) by (exists (fun v => Nat.eqb v 2); destruct Hr as [<-|[<-|[]]]; cbn; lia). split; [exact Hx|].
  destruct Hr as [<-|[<-|[]]]; (split; [exists (mk_felem 1 1); vm_compute; auto|left; exists (mk_felem 1 2); vm_compute; auto]).
Qed.

(** ** Refutations *)
(** A coefficient -1 reverses the preference: after an update of - x0 - x1 = -1 (costs 1, 2, minimisation) x0
    is at 1 with a positive reduced cost. *)
Definition ex_minus : list merged := [mk_merged [mk_felem (-1) 0; mk_felem (-1) 1] (-1) (-1) 0].
(** Every variable chosen: x0 + x1 <= 2 beside a longer row. *)
Definition ex_all : list merged :=
  [mk_merged [mk_felem 1 0; mk_felem 1 1] 0 2 0; mk_merged [mk_felem 1 0; mk_felem 1 1; mk_felem 1 2] 0 2 1].

(** What C146 claims of one update, without the restrictions. *)
Notation update_disagrees cl cs costs mode kappa delta :=
  (exists (sv : solver Q) (s0 s' : state Q unit) b e v cost,
    make_solver q_fops cl cs (length costs) (q_cost costs) mode [] (repeat false (length costs)) tt = Ok (sv, s0) /\
    (forall r, In r cs -> row_ok (length costs) r) /\ sized cs (length costs) s0 /\
    (exists r, nth_error cs 0 = Some r /\ row_satisfiable r /\ In e (m_elements r)) /\
    update_row q_fops ex_rops insertion_sort sv None kappa delta 1%Q 0 s0 = Some (s', b) /\
    nth_error (s_x s') (f_var e) = Some v /\ q_cost costs (f_var e) (s_x s') = Some cost /\
    ~ agrees mode v (current_cost cs (s_P s') (s_pi s') (f_var e) cost)).

Ltac ex_rows_ok := let r := fresh "r" in let Hr := fresh "Hr" in intros r Hr; cbn in Hr;
  repeat (destruct Hr as [<-|Hr]; [split; cbn; [repeat constructor; cbn; intuition discriminate|];
    let e := fresh "e" in let He := fresh "He" in intros e He; repeat (destruct He as [<-|He]; [cbn; lia|]); destruct He|]); destruct Hr.

(** C146 is false of a row with coefficients -1 (here with kappa = 0 and delta = 1, and with kappa = 1/2 and
    delta = 0), of a maximisation, and of a row of which every variable is chosen. *)
Theorem C146_negative_coefficients_refuted :
  update_disagrees S_equalities_101 ex_minus [1; 2]%Q minimize 0%Q 1%Q /\
  update_disagrees S_equalities_101 ex_minus [1; 2]%Q minimize (1 # 2)%Q 0%Q.
Proof.
  split; (eexists _, _, _, _, (mk_felem (-1) 0), _, _; split; [vm_compute; reflexivity|]; split; [ex_rows_ok|]; split; [unfold sized; cbn; auto|];
    split; [eexists; split; [reflexivity|]; split; [exists (fun v => Nat.eqb v 0); cbn; lia|left; reflexivity]|];
    split; [vm_compute; reflexivity|]; split; [vm_compute; reflexivity|]; split; [vm_compute; reflexivity|]; vm_compute; intros K; apply K; reflexivity).
Qed.
Print Assumptions C146_negative_coefficients_refuted.
Definition ex_plus : list merged := [mk_merged [mk_felem 1 0; mk_felem 1 1] 1 1 0].
Theorem C146_maximise_refuted : update_disagrees S_equalities_01 ex_plus [2; 1]%Q maximize 0%Q 1%Q.
Proof.
  eexists _, _, _, _, (mk_felem 1 0), _, _; split; [vm_compute; reflexivity|]; split; [ex_rows_ok|]; split; [unfold sized; cbn; auto|];
    split; [eexists; split; [reflexivity|]; split; [exists (fun v => Nat.eqb v 0); cbn; lia|left; reflexivity]|];
    split; [vm_compute; reflexivity|]; split; [vm_compute; reflexivity|]; split; [vm_compute; reflexivity|]; vm_compute; intros K; apply K; reflexivity.
Qed.
Print Assumptions C146_maximise_refuted.
Theorem C146_all_chosen_refuted : update_disagrees S_inequalities_01 ex_all [-1; -1; 0]%Q minimize (1 # 2)%Q (1 # 100)%Q.
Proof.
  eexists _, _, _, _, (mk_felem 1 0), _, _; split; [vm_compute; reflexivity|]; split; [ex_rows_ok|]; split; [unfold sized; cbn; auto|];
    split; [eexists; split; [reflexivity|]; split; [exists (fun v => false); cbn; lia|left; reflexivity]|];
    split; [vm_compute; reflexivity|]; split; [vm_compute; reflexivity|]; split; [vm_compute; reflexivity|]; vm_compute; intros K; apply K; reflexivity.
Qed.
Print Assumptions C146_all_chosen_refuted.

(** C147 in binary64. After an update of - x0 - x1 = -1 (costs 1, 2, minimisation, kappa = 0, delta = 1, theta = 1)
    every further update exchanges the two variables: for every number of updates. *)
Definition b_cost (l : list double) : nat -> list bool -> option double := fun v _ => nth_error l v.
Lemma updates_S {F G} (fo : fops F) (ro : rops G) sort (sv : solver F) kappa delta theta k m (s s1 : state F G) b :
  update_row fo ro sort sv None kappa delta theta k s = Some (s1, b) ->
  updates fo ro sort sv kappa delta theta k (S m) s = updates fo ro sort sv kappa delta theta k m s1.
Proof. intros H. cbn [updates]. rewrite H. reflexivity. Qed.
Lemma updates_period {F G} (fo : fops F) (ro : rops G) sort (sv : solver F) kappa delta theta k (s1 s2 : state F G) b1 b2 :
  update_row fo ro sort sv None kappa delta theta k s1 = Some (s2, b1) ->
  update_row fo ro sort sv None kappa delta theta k s2 = Some (s1, b2) ->
  forall m, updates fo ro sort sv kappa delta theta k m s1 = Some (if Nat.even m then s1 else s2).
Proof.
  intros H1 H2. assert (H : forall m, updates fo ro sort sv kappa delta theta k m s1 = Some (if Nat.even m then s1 else s2) /\
    updates fo ro sort sv kappa delta theta k m s2 = Some (if Nat.even m then s2 else s1)).
  { induction m as [|m [IH1 IH2]]; [split; reflexivity|]. rewrite (updates_S _ _ _ _ _ _ _ _ _ _ _ _ H1), (updates_S _ _ _ _ _ _ _ _ _ _ _ _ H2), IH1, IH2.
    rewrite Nat.even_succ, <- Nat.negb_even. destruct (Nat.even m); auto. }
  intros m. apply H.
Qed.
Notation exchanges cl cs costs mode :=
  (exists (sv : solver double) (s0 : state double unit),
    make_solver b_fops cl cs 2 (b_cost costs) mode [] [false; false] tt = Ok (sv, s0) /\
    forall m, exists s, updates b_fops ex_rops insertion_sort sv (b_of_Z 0) (b_of_Z 1) (b_of_Z 1) 0 (S m) s0 = Some s /\
      s_x s = if Nat.even m then [true; false] else [false; true]).
Lemma exchange (sv : solver double) (s0 s1 s2 s3 : state double unit) b1 b2 b3 b4 :
  let up := update_row b_fops ex_rops insertion_sort sv None (b_of_Z 0) (b_of_Z 1) (b_of_Z 1) 0 in
  up s0 = Some (s1, b1) -> up s1 = Some (s2, b2) -> up s2 = Some (s3, b3) -> up s3 = Some (s2, b4) ->
  s_x s1 = [true; false] -> s_x s2 = [false; true] -> s_x s3 = [true; false] ->
  forall m, exists s, updates b_fops ex_rops insertion_sort sv (b_of_Z 0) (b_of_Z 1) (b_of_Z 1) 0 (S m) s0 = Some s /\
      s_x s = if Nat.even m then [true; false] else [false; true].
Proof.
  intros up H0 H1 H2 H3 X1 X2 X3 m. rewrite (updates_S _ _ _ _ _ _ _ _ _ _ _ _ H0). destruct m as [|m]; [exists s1; auto|].
  rewrite (updates_S _ _ _ _ _ _ _ _ _ _ _ _ H1), (updates_period _ _ _ _ _ _ _ _ _ _ _ _ H2 H3). eexists. split; [reflexivity|].
  rewrite Nat.even_succ, <- Nat.negb_even. destruct (Nat.even m); assumption.
Qed.
Theorem C147_negative_coefficients_refuted : exchanges S_equalities_101 ex_minus [b_of_Z 1; b_of_Z 2] minimize.
Proof.
  eexists _, _. split; [vm_compute; reflexivity|].
  eapply exchange; [vm_compute; reflexivity|vm_compute; reflexivity|vm_compute; reflexivity|vm_compute; reflexivity|reflexivity|reflexivity|reflexivity].
Qed.
Print Assumptions C147_negative_coefficients_refuted.
(** Maximisation of 2 x0 + x1 with x0 + x1 = 1: the same. *)
Theorem C147_maximise_refuted : exchanges S_equalities_01 ex_plus [b_of_Z 2; b_of_Z 1] maximize.
Proof.
  eexists _, _. split; [vm_compute; reflexivity|].
  eapply exchange; [vm_compute; reflexivity|vm_compute; reflexivity|vm_compute; reflexivity|vm_compute; reflexivity|reflexivity|reflexivity|reflexivity].
Qed.
Print Assumptions C147_maximise_refuted.
(** Every variable chosen: x0 + x1 <= 2, costs -1, -1, kappa = 1/2: the second update sets both to 0. *)
Theorem C147_all_chosen_refuted : exists (sv : solver Q) (s0 s1 s2 : state Q unit) b1 b2,
  make_solver q_fops S_inequalities_01 ex_all 3 (q_cost [-1; -1; 0]%Q) minimize [] [false; false; false] tt = Ok (sv, s0) /\
  update_row q_fops ex_rops insertion_sort sv None (1 # 2)%Q (1 # 100)%Q 1%Q 0 s0 = Some (s1, b1) /\ s_x s1 = [true; true; false] /\
  update_row q_fops ex_rops insertion_sort sv None (1 # 2)%Q (1 # 100)%Q 1%Q 0 s1 = Some (s2, b2) /\ s_x s2 = [false; false; false].
Proof. eexists _, _, _, _, _, _. do 4 (split; [vm_compute; reflexivity|]). vm_compute. reflexivity. Qed.
Print Assumptions C147_all_chosen_refuted.
