(** C158: the integer sums stay in the range of [int]. *)
From Coq Require Import String Permutation QArith.
From Verif Require Import Base Problem_model Classify_model Merged_model Preprocess_model Validate_model
  Rows_model Solver_model Subsolver_model BranchBound_model Matrix_model Merged_spec Merged_proofs Rows_spec Rows_proofs Rows_props Scale_spec Int_model Int_spec Int_proofs Int_proofs2 Int_proofs3.
Open Scope Z_scope.
Open Scope list_scope.
Open Scope Z_scope.

(** C158. Preprocessing, and the assignment of a variable, with every [int] operation checked does what it does with unbounded
    integers, for every problem whose constraints each have absolute values that sum to at most 2147483647; the problem it makes
    has the same property. *)
Theorem C158_preprocessing_partial :
  forall pb, problem_fits pb ->
  (forall fuel, int_preprocess fuel pb = preprocess fuel pb) /\
  (forall fuel v b, int_affect fuel pb v b = Preprocess_model.affect fuel pb v b) /\
  (forall fuel q, preprocess fuel pb = Ok (Some q) -> problem_fits q) /\
  (forall fuel v b q, Preprocess_model.affect fuel pb v b = Ok (Some q) -> problem_fits q).
Proof.
  intros pb H. split; [intros; now apply int_preprocess_ok|]. split; [intros; now apply int_affect_ok|].
  split; [intros fuel q; now apply preprocess_fits|intros fuel v b q; now apply affect_fits].
Qed.
Print Assumptions C158_preprocessing_partial.

(** The solver made for such a problem, with every class, pre-order and assignment: the tests of the rows, the distances of the
    infeasible rows, the sums of the constructor for arbitrary coefficients, the tables of the exhaustive solver and the
    branch-and-bound on the coefficients of a row in any order. *)
Theorem C158_solver_partial :
  forall (F G : Type) (fo : fops F) std_sort ddiv po pb cs cl n c mode after x0 (g : G) sv s,
  permutes std_sort -> problem_fits pb -> make_merged std_sort ddiv po pb = Ok cs -> (forall r, In r cs -> row_ok n r) ->
  make_solver fo cl cs n c mode after x0 g = Ok (sv, s) ->
  (forall x k, List.length x = n -> (k < List.length cs)%nat -> int_is_valid_constraint sv k x = is_valid_constraint sv k x) /\
  (forall x, List.length x = n -> int_infeasibility sv x = infeasibility sv x) /\
  (forall r, In r cs -> int_z_sums (m_elements r) 0 0 = Some (sum_neg (m_elements r), sum_pos (m_elements r))) /\
  (forall r ex k lo hi, In r cs -> int_ex_build ex k (m_elements r) lo hi = ex_build ex k (m_elements r) lo hi) /\
  (forall r k lo hi init_z R, nth_error cs k = Some r -> nth_error (sv_b sv) k = Some (lo, hi) ->
     Permutation (map rc_f R) (map f_factor (m_elements r)) ->
     int_bb_solve fo std_sort init_z mode R lo hi = bb_solve fo std_sort init_z mode R lo hi).
Proof.
  intros F G fo std_sort ddiv po pb cs cl n c mode after x0 g sv s Hperm Hp Hm Hr Hk.
  pose proof (merged_fits std_sort ddiv po pb cs Hperm Hp Hm) as Hf.
  split; [intros x k; exact (int_is_valid_constraint_ok fo cl cs n c mode after x0 g sv s Hk Hr Hf x k)|].
  split.
  { intros x Hx. apply (int_infeasibility_from_ok fo cl cs n c mode after x0 g sv s Hk Hr Hf x _ Hx).
    intros k Hin. apply in_seq in Hin. destruct (mk_fields fo cl cs n c mode after x0 g sv s Hk) as (ap & b & _ & _ & -> & _). exact (proj2 Hin). }
  split; [intros r Hin; apply int_z_sums_eq, Hf, Hin|].
  split; [intros r ex k lo hi Hin; apply int_ex_build_ok, (Hf r Hin)|].
  intros r k lo hi init_z R Hn Hb HR. destruct (bounds_at fo cl cs n c mode after x0 g sv s Hk k r Hn) as (lo' & hi' & Hb' & Hc).
  rewrite Hb in Hb'. inversion Hb'; subst lo' hi'.
  eapply int_bb_row; [exact Hperm|apply Hf; eapply nth_error_In; exact Hn|exact Hc|exact HR].
Qed.
Print Assumptions C158_solver_partial.

(** ** A problem that fits exactly: 2000000000 a - 147483642 b + 2 c + 2 d <= 1, a = 1 in the bounds. *)
Definition ex_int_pb (f : Z) (v : Z) (amin : Z) : problem :=
  mk_problem (mk_objective [mk_oelem 1 0; mk_oelem 1 1; mk_oelem 1 2; mk_oelem 1 3] [] 0) [] []
    [mk_constraint (str "l") [mk_felem 2000000000 0; mk_felem f 1; mk_felem 2 2; mk_felem 2 3] v 0]
    (mk_variables [str "a"; str "b"; str "c"; str "d"] (mk_variable_value amin 1 vt_binary :: repeat (mk_variable_value 0 1 vt_binary) 3)) (mk_affected [] []) minimize inequalities_Z.
Example C158_ex_fits : problem_fits (ex_int_pb (-147483642) (-1) 1) /\ problem_fits (ex_int_pb (-147483642) 1 0).
Proof. split; intros c [<-|[]]; unfold constraint_fits; vm_compute; discriminate. Qed.
(** The preprocessor moves the coefficient of a to the right-hand side. *)
Example C158_ex : int_preprocess 9 (ex_int_pb (-147483642) (-1) 1) = preprocess 9 (ex_int_pb (-147483642) (-1) 1) /\
  exists q c, preprocess 9 (ex_int_pb (-147483642) (-1) 1) = Ok (Some q) /\ p_less q = [c] /\ c_value c = -2000000001 /\ map f_factor (c_elements c) = [-147483642; 2; 2].
Proof.
  split; [apply (proj1 (C158_preprocessing_partial _ (proj1 C158_ex_fits)))|].
  eexists. eexists. split; [vm_compute; reflexivity|]. split; [reflexivity|]. split; reflexivity.
Qed.
(** A solver for the other one; the infeasible row is at the distance 2000000003 from its bound when all but b are 1. *)
Example C158_ex_solver : exists cs sv s,
  make_merged insertion_sort Z.div po_none (ex_int_pb (-147483642) 1 0) = Ok cs /\ (forall r, In r cs -> row_ok 4 r) /\
  make_solver exact_fops S_inequalities_Z cs 4 (fun _ _ => Some 1%Q) minimize [] [] tt = Ok (sv, s) /\
  infeasibility sv [true; false; true; true] = Some [(0%nat, 2000000003)] /\
  int_infeasibility sv [true; false; true; true] = Some [(0%nat, 2000000003)].
Proof.
  eexists. eexists. eexists. split; [vm_compute; reflexivity|]. split.
  { intros r [<-|[]]. split; cbn [map m_elements f_var].
    - repeat constructor; cbn [In]; intuition discriminate.
    - intros e He. cbn [In] in He. intuition (subst e; cbn; lia). }
  split; [vm_compute; reflexivity|]. split; vm_compute; reflexivity.
Qed.

(** ** Without the bound: one more is too much *)
(** 2147483647 x + y = 0: all the numbers are [int]s, the absolute values sum to 2147483648 and the sum of the coefficients
    (preprocessor.cpp:70) is undefined. *)
Definition ex_over_pb (v : Z) (f : list Z) : problem :=
  mk_problem (mk_objective [mk_oelem 1 0; mk_oelem 1 1] [] 0) [mk_constraint (str "e") (map (fun p => mk_felem (snd p) (fst p)) (combine (seq 0 (List.length f)) f)) v 0] [] []
    (mk_variables [str "x"; str "y"; str "z"] (repeat (mk_variable_value 0 1 vt_binary) 3)) (mk_affected [] []) minimize equalities_Z.
Theorem C158_refuted :
  (exists pb q, (forall c, In c (p_equal pb ++ p_greater pb ++ p_less pb) -> weight (c_elements c) + Z.abs (c_value c) = 2147483648) /\
     preprocess 9 pb = Ok (Some q) /\ int_preprocess 9 pb = Crash) /\
  (exists pb, (forall c e, In c (p_equal pb) -> In e (c_elements c) -> int_ok (f_factor e) = true) /\
     (exists q, preprocess 9 pb = Ok (Some q)) /\ int_preprocess 9 pb = Crash /\
     exists c, In c (p_equal pb) /\ sum_factor c - 2 ^ 32 = c_value c).
Proof.
  split.
  - exists (ex_over_pb 0 [2147483647; 1]). eexists. split; [intros c [<-|[]]; reflexivity|]. split; [vm_compute; reflexivity|vm_compute; reflexivity].
  - exists (ex_over_pb 1 [2000000000; 2000000000; 294967297]). split.
    { intros c e [<-|[]] He. cbn [c_elements] in He. cbn in He. intuition (subst e; reflexivity). }
    split; [eexists; vm_compute; reflexivity|]. split; [vm_compute; reflexivity|]. eexists. split; [left; reflexivity|]. vm_compute. reflexivity.
Qed.
Print Assumptions C158_refuted.
