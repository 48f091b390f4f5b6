(** Property theorems C41 (norms) and C44 (quadratic marginal costs). *)
From Coq Require Import QArith Lqa.
From Verif Require Import Base Problem_model Problem_spec Params_model Merged_spec Merged_proofs Cost_model Cost_spec Cost_proofs.
Open Scope Z_scope.

(** C44. For every objective whose terms name one of the n variables, the cost of a variable
    under an assignment is the objective with the variable at 1 minus the objective with it
    at 0. Partial: when the objective has a term with the square of the variable, only under
    the assignments where the variable is 1. *)
Theorem C44_marginal_partial :
  forall o n v x, objective_in n o -> (v < n)%nat -> length x = n ->
  (forall e, In e (o_qelements o) -> q_vara e = v -> q_varb e = v -> of_list x v = true) ->
  exists c q, make_costs o n = Some c /\ cost_at c v x = Some q /\ (q == inject_Z (marginal o (of_list x) v))%Q.
Proof. exact marginal_ok. Qed.
Print Assumptions C44_marginal_partial.
(** The cost used before there is an assignment: the same, with every variable at 1. *)
Theorem C44_cost_of_partial :
  forall o n v, objective_in n o -> (v < n)%nat ->
  exists c q, make_costs o n = Some c /\ cost_of c v = Some q /\ (q == inject_Z (marginal o (fun _ => true) v))%Q.
Proof. exact cost_of_ok. Qed.
Print Assumptions C44_cost_of_partial.
(** The costs can be built exactly when the terms name variables. *)
Theorem C44_costs_defined :
  forall o n, (0 < n)%nat -> ((exists c, make_costs o n = Some c) <-> objective_in n o).
Proof.
  intros o n Hn. split; [intros (c & E); eapply make_costs_dom; eassumption|apply make_costs_some].
Qed.
Print Assumptions C44_costs_defined.

(** 3x + 2y - z + 4xy - 5yz *)
Definition ex_obj : objective :=
  mk_objective [mk_oelem 3 0; mk_oelem 1 1; mk_oelem (-1) 2; mk_oelem 1 1] [mk_qelem 4 0 1; mk_qelem (-5) 1 2] 7.
Example C44_hyps :
  objective_in 3 ex_obj /\ marginal ex_obj (of_list [true; false; true]) 1 = 1 /\
  exists c q, make_costs ex_obj 3 = Some c /\ cost_at c 1 [true; false; true] = Some q /\ (q == 1)%Q.
Proof.
  split; [split; cbn; intuition (subst; cbn; lia)|]. split; [reflexivity|]. do 2 eexists. split; [reflexivity|]. split; [vm_compute; reflexivity|]. reflexivity.
Qed.
(** A square at 0: the term is not counted (x*x with factor 4: the change is 4, the cost 0). *)
Theorem C44_refuted :
  exists o n v x c q, objective_in n o /\ (v < n)%nat /\ length x = n /\ make_costs o n = Some c /\ cost_at c v x = Some q /\
    ~ (q == inject_Z (marginal o (of_list x) v))%Q.
Proof.
  exists (mk_objective [] [mk_qelem 4 0 0] 0), 1%nat, 0%nat, [false]. do 2 eexists.
  split; [split; cbn; intuition (subst; cbn; lia)|]. split; [lia|]. split; [reflexivity|]. split; [reflexivity|]. split; [vm_compute; reflexivity|].
  vm_compute. discriminate.
Qed.
Print Assumptions C44_refuted.

(** C41. Without norm and with the norms l1 and l2, and with the infinity norm when one
    coefficient is not negative, normalising keeps the order of the costs (strictly, and
    ties), and their signs, under every assignment. The generator is not used. *)
Theorem C41_order_and_sign_partial :
  forall {G} std_sort (uniform : G -> Q -> Q -> Q * G) o n norm c g,
  (0 < n)%nat -> make_costs o n = Some c -> norm <> cn_random -> (norm = cn_loo -> has_nonneg n o) ->
  exists c', normalize std_sort uniform norm c g = Some (c', g) /\
    keeps_order n c c' /\ keeps_ties n c c' /\ keeps_sign n c c' /\ readable n c'.
Proof.
  intros G std_sort uniform o n norm c g Hn E Hr Hloo. pose proof (make_costs_readable o n c Hn E) as Hre.
  destruct norm; cbn [normalize]; try congruence.
  - exists c. split; [reflexivity|]. apply scaled_keeps; [apply scaled_refl|exact Hre].
  - exists (l1_norm c). split; [reflexivity|]. apply scaled_keeps; [|exact Hre]. apply divide_scaled, sum_abs_nonneg. apply Qle_refl.
  - exists (l2_norm c). split; [reflexivity|]. apply scaled_keeps; [|exact Hre]. apply divide_scaled, sum_sq_nonneg. apply Qle_refl.
  - destruct (loo_norm_scaled n c) as (c' & Ec & Hs).
    + rewrite (make_costs_linear o n c E). exact Hn.
    + apply (has_nonneg_factor o n c Hn E). apply Hloo. reflexivity.
    + exists c'. rewrite Ec. split; [reflexivity|]. apply scaled_keeps; assumption.
Qed.
Print Assumptions C41_order_and_sign_partial.
(** The random norm, for a linear objective with one cost not negative: whatever the draws,
    the order between different costs is kept; the draws never ask for an empty interval. *)
Theorem C41_random_order_partial :
  forall {G} std_sort (uniform : G -> Q -> Q -> Q * G) o n c g,
  draws_between uniform -> permutes std_sort -> sorts std_sort ->
  (0 < n)%nat -> make_costs o n = Some c -> o_qelements o = [] -> (exists v, (v < n)%nat /\ 0 <= linear_coef o v) ->
  exists c' g', normalize std_sort uniform cn_random c g = Some (c', g') /\ keeps_order n c c' /\ readable n c'.
Proof. intros G s u o n c g Hu Hp Hs Hn E Hq Hv. eapply random_norm_ok; eassumption. Qed.
Print Assumptions C41_random_order_partial.

Definition ex_lin (l : list Z) : objective := mk_objective (map (fun p => mk_oelem (fst p) (snd p)) (combine l (seq 0 (length l)))) [] 0.
(** A generator that gives the middle of the interval. *)
Definition ex_mid (g : unit) (lo hi : Q) : Q * unit := (((lo + hi) / 2)%Q, g).
Lemma ex_mid_between : draws_between ex_mid.
Proof.
  intros g lo hi H. unfold ex_mid. cbn [fst]. split; [apply Qle_shift_div_l; lra|apply Qlt_shift_div_r; lra].
Qed.
Example C41_hyps :
  exists c c1 c2, make_costs (ex_lin [2; -3; 2; 8; -3; 8]) 6 = Some c /\
    normalize insertion_sort ex_mid cn_l1 c tt = Some (c1, tt) /\ map Qred (co_linear c1) = [1 # 13; -3 # 26; 1 # 13; 4 # 13; -3 # 26; 4 # 13]%Q /\
    normalize insertion_sort ex_mid cn_random c tt = Some (c2, tt) /\ map Qred (co_linear c2) = [10 # 21; -1 # 21; 10 # 21; 1; -1 # 21; 1]%Q.
Proof. do 3 eexists. split; [vm_compute; reflexivity|]. split; [vm_compute; reflexivity|]. split; [vm_compute; reflexivity|]. split; [vm_compute; reflexivity|]. vm_compute. reflexivity. Qed.

(** The infinity norm divides by the largest cost, not by the largest absolute value: when
    every cost is negative, the order and the signs are reversed. *)
Theorem C41_refuted :
  exists o n c c', (0 < n)%nat /\ make_costs o n = Some c /\ normalize insertion_sort ex_mid cn_loo c tt = Some (c', tt) /\
    ~ keeps_order n c c' /\ ~ keeps_sign n c c'.
Proof.
  exists (ex_lin [-1; -2]), 2%nat. do 2 eexists. split; [lia|]. split; [vm_compute; reflexivity|]. split; [vm_compute; reflexivity|]. split.
  - intros H. specialize (H [false; false] 1%nat 0%nat _ _ _ _ eq_refl ltac:(lia) ltac:(lia) eq_refl eq_refl eq_refl eq_refl eq_refl). vm_compute in H. discriminate.
  - intros H. specialize (H [false; false] 0%nat _ _ eq_refl ltac:(lia) eq_refl eq_refl). destruct H as (_ & H & _). specialize (H eq_refl). vm_compute in H. discriminate.
Qed.
Print Assumptions C41_refuted.
(** The random norm can change the sign of a cost: two costs -1 are drawn between -1 and 5. *)
Theorem C41_refuted_random_sign :
  exists o n c c', (0 < n)%nat /\ make_costs o n = Some c /\ normalize insertion_sort ex_mid cn_random c tt = Some (c', tt) /\ ~ keeps_sign n c c'.
Proof.
  exists (ex_lin [-1; -1; 5]), 3%nat. do 2 eexists. split; [lia|]. split; [vm_compute; reflexivity|]. split; [vm_compute; reflexivity|].
  intros H. specialize (H [false; false; false] 0%nat _ _ eq_refl ltac:(lia) eq_refl eq_refl). destruct H as (_ & H & _). specialize (H eq_refl). vm_compute in H. discriminate.
Qed.
Print Assumptions C41_refuted_random_sign.
