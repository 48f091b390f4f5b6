(** Property theorems C06, C07, C49, C50 (constraint merging). *)
From Coq Require Import String.
From Verif Require Import Base Problem_model Problem_spec Merged_model Merged_spec Merged_proofs.
Open Scope Z_scope.

(** C06. [std_sort] is any behaviour of std::sort, [ddiv] any double division. *)
Theorem C06_merge_preserves_meaning :
  forall (std_sort : forall A : Type, (A -> A -> bool) -> list A -> list A) (ddiv : Z -> Z -> Z),
  permutes std_sort ->
  forall (po : pre_order) (pb : problem) (cs : list merged) (x : assignment),
  make_merged std_sort ddiv po pb = Ok cs -> fits_int x pb ->
  (sat_merged x cs <-> feasible x pb).
Proof. exact merged_meaning. Qed.
Print Assumptions C06_merge_preserves_meaning.

(** ... and on a problem whose indices are valid, merging never crashes. *)
Theorem C06_merge_no_crash :
  forall (std_sort : forall A : Type, (A -> A -> bool) -> list A -> list A) (ddiv : Z -> Z -> Z),
  permutes std_sort ->
  forall (po : pre_order) (pb : problem), indices_ok pb -> make_merged std_sort ddiv po pb <> Crash.
Proof. exact merged_no_crash. Qed.
Print Assumptions C06_merge_no_crash.

(** C07 *)
Theorem C07_merge_failure_means_infeasible :
  forall (std_sort : forall A : Type, (A -> A -> bool) -> list A -> list A) (ddiv : Z -> Z -> Z),
  permutes std_sort ->
  forall (po : pre_order) (pb : problem) (x : assignment),
  make_merged std_sort ddiv po pb = Throw -> fits_int x pb -> ~ feasible x pb.
Proof. exact merged_throw. Qed.
Print Assumptions C07_merge_failure_means_infeasible.

(** C49 *)
Theorem C49_no_duplicate_lhs :
  forall (std_sort : forall A : Type, (A -> A -> bool) -> list A -> list A) (ddiv : Z -> Z -> Z)
    (pb : problem) (cs : list merged),
  permutes std_sort -> make_merged std_sort ddiv po_none pb = Ok cs -> NoDup (map m_elements cs).
Proof. exact none_distinct. Qed.
Print Assumptions C49_no_duplicate_lhs.

(** C49, for every option: each constraint of the problem has a row with the same terms, and
    each row has the terms of a constraint. *)
Theorem C49_rows_are_the_constraints :
  forall (std_sort : forall A : Type, (A -> A -> bool) -> list A -> list A) (ddiv : Z -> Z -> Z)
    (po : pre_order) (pb : problem) (cs : list merged),
  permutes std_sort -> make_merged std_sort ddiv po pb = Ok cs ->
  (forall c, In c (all_constraints pb) -> exists m, In m cs /\ Permutation (m_elements m) (c_elements c)) /\
  (forall m, In m cs -> exists c, In c (all_constraints pb) /\ Permutation (m_elements m) (c_elements c)).
Proof. exact merged_rows. Qed.
Print Assumptions C49_rows_are_the_constraints.

(** C50: with `none` the merged constraints come in file order (increasing id) ... *)
Theorem C50_none_keeps_file_order :
  forall (std_sort : forall A : Type, (A -> A -> bool) -> list A -> list A) (ddiv : Z -> Z -> Z)
    (pb : problem) (cs : list merged),
  sorts std_sort -> make_merged std_sort ddiv po_none pb = Ok cs ->
  StronglySorted (fun a b => m_id a <= m_id b) cs.
Proof. exact none_sorted. Qed.
Print Assumptions C50_none_keeps_file_order.

(** ... and with the six type orders, they come type by type as requested, each
    left-hand side at its first occurrence, with its variables sorted by index. *)
Theorem C50_type_orders :
  forall (std_sort : forall A : Type, (A -> A -> bool) -> list A -> list A) (ddiv : Z -> Z -> Z)
    (po : pre_order) (pb : problem) (cs : list merged),
  permutes std_sort -> sorts std_sort -> by_type po -> make_merged std_sort ddiv po pb = Ok cs ->
  Forall2 (fun m k => Permutation (m_elements m) (fst k) /\ m_id m = snd k /\
                      StronglySorted (fun a b => (f_var a <= f_var b)%nat) (m_elements m))
          cs (firsts [] (type_order po pb)).
Proof. exact by_type_order. Qed.
Print Assumptions C50_type_orders.

(** Hypotheses are met: insertion sort is a possible std::sort, and a problem with
    constraints to merge. *)
Definition ex_pb : problem :=
  let l1 := [mk_felem 1 0; mk_felem 1 1] in
  let l2 := [mk_felem 1 2; mk_felem (-1) 0] in
  mk_problem (mk_objective [mk_oelem 3 0; mk_oelem 5 2] [] 0)
    [mk_constraint (str "a") l1 1 2] [mk_constraint (str "b") l1 0 0; mk_constraint (str "c") l2 0 3]
    [mk_constraint (str "d") l1 5 1]
    (mk_variables [str "x"; str "y"; str "z"]
       (repeat (mk_variable_value 0 1 vt_binary) 3))
    (mk_affected [] []) minimize inequalities_101.

Example C06_nonvacuous :
  permutes insertion_sort /\ sorts insertion_sort /\ indices_ok ex_pb /\
  make_merged insertion_sort Z.div po_p1 ex_pb =
    Ok [mk_merged [mk_felem 1 2; mk_felem (-1) 0] 0 int_max 0;
        mk_merged [mk_felem 1 0; mk_felem 1 1] 1 1 1] /\
  feasible (fun v => Nat.eqb v 1) ex_pb /\ fits_int (fun v => Nat.eqb v 1) ex_pb.
Proof.
  split; [exact insertion_sort_permutes|]. split; [exact insertion_sort_sorts|].
  split; [|split; [vm_compute; reflexivity|]].
  - unfold indices_ok, ex_pb; cbn. repeat split.
    + intros c [<-|[<-|[<-|[<-|[]]]]]; cbn; discriminate.
    + intros c e [<-|[<-|[<-|[<-|[]]]]] [<-|[<-|[]]]; cbn; lia.
    + intros e [<-|[<-|[]]]; cbn; lia.
  - split.
    + unfold feasible, sat_equal, sat_greater, sat_less; cbn. repeat split.
      * intros c [<-|[]]; cbn; lia.
      * intros c [<-|[<-|[]]]; cbn; lia.
      * intros c [<-|[]]; cbn; lia.
    + intros c [<-|[<-|[<-|[<-|[]]]]]; vm_compute; split; discriminate.
Qed.

Example C07_nonvacuous :
  make_merged insertion_sort Z.div po_none
    (mk_problem (mk_objective [] [] 0)
      [mk_constraint [] [mk_felem 1 0] 1 0; mk_constraint [] [mk_felem 1 0] 0 1] [] []
      (mk_variables [str "x"] [mk_variable_value 0 1 vt_binary])
      (mk_affected [] []) minimize equalities_01) = Throw.
Proof. vm_compute. reflexivity. Qed.
