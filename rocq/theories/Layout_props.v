(** C156, C157: the same constraints laid out in another way. *)
From Coq Require Import String Permutation.
From Verif Require Import Base Problem_model Merged_model Merged_spec Merged_proofs Merged_props Classify_model Preprocess_model Validate_model Rows_model Rows_spec Rows_props
  Params_model Solver_model Solver_spec Solver_props EndToEnd_model Push_props Rewrite_spec Rewrite_props Layout_spec Layout_proofs3.
Open Scope Z_scope.
Open Scope list_scope.

(** C156. With a pre-order by type of constraint, mixing the lines with =, >= and <= in another way changes nothing in solve(): the same end, the same
    result. For every problem, with or without preprocessing, all other parameters, random numbers and clocks. *)
Theorem C156_mixed_lines_partial :
  forall (F G : Type) (fo : fops F) (ro : rops G) std_sort ddiv random_optimizer craw cnorm pfuel fuel pp buffered po pa after (g : G) pb pb',
  by_type po = true -> line_by_line (moved any_place) pb pb' ->
  let solve := user_solve fo ro std_sort ddiv random_optimizer (by_terms craw) (by_terms cnorm) pfuel fuel pp false buffered po pa after g in
  solve pb' = solve pb.
Proof. intros until pb'. intros T H. exact (solve_by_type fo ro std_sort ddiv random_optimizer craw cnorm pfuel fuel buffered po pa after g any_place pb pb' pp T H). Qed.
Print Assumptions C156_mixed_lines_partial.

(** With every pre-order, only the order of the lines counts, not their numbers. *)
Theorem C156_numbers_partial :
  forall (F G : Type) (fo : fops F) (ro : rops G) std_sort ddiv random_optimizer craw cnorm pfuel fuel pp buffered po pa after (g : G) (I : Z -> Z -> Prop) pb pb',
  permutes std_sort -> sorts std_sort -> same_order I -> places_differ pb -> line_by_line (moved I) pb pb' ->
  let solve := user_solve fo ro std_sort ddiv random_optimizer (by_terms craw) (by_terms cnorm) pfuel fuel pp false buffered po pa after g in
  solve pb' = solve pb.
Proof. intros until pb'. intros. now apply (solve_renumbered fo ro std_sort ddiv random_optimizer craw cnorm pfuel fuel buffered po pa after g I pb pb' pp). Qed.
Print Assumptions C156_numbers_partial.

(** C157. With the pre-orders that sort the terms by variable, and without preprocessing, writing the terms of the constraints in another order changes
    nothing in solve(). *)
Theorem C157_order_of_the_terms_partial :
  forall (F G : Type) (fo : fops F) (ro : rops G) std_sort ddiv random_optimizer craw cnorm pfuel fuel buffered po pa after (g : G) tau pb pb',
  permutes std_sort -> sorts std_sort -> turns tau pb -> by_variable po = true -> (po = po_memory -> places_differ pb) -> line_by_line (turned tau) pb pb' ->
  let solve := user_solve fo ro std_sort ddiv random_optimizer (by_terms craw) (by_terms cnorm) pfuel fuel pp_none false buffered po pa after g in
  solve pb' = solve pb.
Proof. intros until pb'. intros. now apply (solve_turned fo ro std_sort ddiv random_optimizer craw cnorm pfuel fuel buffered po pa after g tau pb pb'). Qed.
Print Assumptions C157_order_of_the_terms_partial.

(** minimize x + y + z with one equality on x, y and one constraint y + z >= 1. *)
Definition ex_layout_pb (terms : list nat) (i j : Z) : problem :=
  mk_problem (mk_objective [mk_oelem 1 0; mk_oelem 1 1; mk_oelem 1 2] [] 0) [mk_constraint (str "e") (map (mk_felem 1) terms) 1 i]
    [mk_constraint (str "g") [mk_felem 1 1; mk_felem 1 2] 1 j] []
    (mk_variables [str "x"; str "y"; str "z"] (repeat (mk_variable_value 0 1 vt_binary) 3)) (mk_affected [] []) minimize equalities_01.
Definition ex_layout_solve (pp : preprocessor_opt) (po : pre_order) (pb : problem) : run_result (outcome sresult) :=
  user_solve ex_fops ex_rops insertion_sort Z.div (fun _ => Aborted) (by_terms ex_rewrite_raw) (by_terms (fun l q n v _ => ex_rewrite_raw l q n v))
    20 60 pp false false po (push_params co_none 1 5 0 4) [mk_rc 0 0 0%nat] tt pb.

Example C156_ex :
  by_type po_equal_less_greater = true /\ line_by_line (moved any_place) (ex_layout_pb [0; 1]%nat 0 1) (ex_layout_pb [0; 1]%nat 1 0) /\
  (exists r, ex_layout_solve pp_all po_equal_less_greater (ex_layout_pb [0; 1]%nat 1 0) = Finished (Ok r) /\ sr_status r = st_success /\
     sr_solutions r = [([false; true; false], Some 1)]) /\
  permutes insertion_sort /\ sorts insertion_sort /\ same_order (fun i i' => i' = 3 * i) /\ places_differ (ex_layout_pb [0; 1]%nat 0 1) /\
  line_by_line (moved (fun i i' => i' = 3 * i)) (ex_layout_pb [0; 1]%nat 0 1) (ex_layout_pb [0; 1]%nat 0 3).
Proof.
  split; [reflexivity|]. split.
  { unfold line_by_line, moved, any_place. cbn. repeat split; repeat constructor. }
  split; [eexists; split; [vm_compute; reflexivity|split; reflexivity]|]. split; [exact ex_sort_permutes|]. split; [exact insertion_sort_sorts|].
  split; [intros i i' j j' -> ->; lia|]. split; [unfold places_differ; cbn; repeat constructor; cbn; intuition lia|].
  unfold line_by_line, moved. cbn. repeat split; repeat constructor.
Qed.

Example C157_ex :
  turns (@rev felem) (ex_layout_pb [0; 1]%nat 0 1) /\ by_variable po_memory = true /\ places_differ (ex_layout_pb [0; 1]%nat 0 1) /\
  (let pb' := mk_problem (p_objective (ex_layout_pb [0; 1]%nat 0 1)) [mk_constraint (str "e") [mk_felem 1 1; mk_felem 1 0] 1 0]
      [mk_constraint (str "g") [mk_felem 1 2; mk_felem 1 1] 1 1] [] (p_vars (ex_layout_pb [0; 1]%nat 0 1)) (mk_affected [] []) minimize equalities_01 in
   line_by_line (turned (@rev felem)) (ex_layout_pb [0; 1]%nat 0 1) pb' /\
   exists r, ex_layout_solve pp_none po_memory pb' = Finished (Ok r) /\ sr_status r = st_success /\ sr_solutions r = [([false; true; false], Some 1)]).
Proof.
  split.
  { split.
    - intros c Hc. split; [apply Permutation_sym, Permutation_rev|]. cbn in Hc. destruct Hc as [<-|[<-|[]]]; cbn; repeat constructor; cbn; intuition lia.
    - intros c d _ _ E. rewrite <- (rev_involutive (c_elements c)), E. apply rev_involutive. }
  split; [reflexivity|]. split; [unfold places_differ; cbn; repeat constructor; cbn; intuition lia|]. cbv zeta. split.
  - unfold line_by_line, turned. cbn. repeat split; repeat constructor.
  - eexists; split; [vm_compute; reflexivity|split; reflexivity].
Qed.

(** With the default pre-order the same file with two lines exchanged, one with = and one with >=, is answered with another value. *)
Theorem C156_refuted :
  line_by_line (moved any_place) (ex_layout_pb [0; 1]%nat 0 1) (ex_layout_pb [0; 1]%nat 1 0) /\
  exists r r', ex_layout_solve pp_none po_none (ex_layout_pb [0; 1]%nat 0 1) = Finished (Ok r) /\
    ex_layout_solve pp_none po_none (ex_layout_pb [0; 1]%nat 1 0) = Finished (Ok r') /\ sr_status r = st_success /\ sr_status r' = st_success /\
    sr_solutions r = [([false; true; false], Some 1)] /\ sr_solutions r' = [([false; true; true], Some 2)].
Proof.
  split; [unfold line_by_line, moved, any_place; cbn; repeat split; repeat constructor|].
  eexists _, _. split; [vm_compute; reflexivity|]. split; [vm_compute; reflexivity|]. repeat split.
Qed.
Print Assumptions C156_refuted.

(** With the default pre-order x + y = 1 and y + x = 1 are answered with other values. *)
Theorem C157_refuted :
  exists r r', ex_layout_solve pp_none po_none (ex_layout_pb [0; 1]%nat 0 1) = Finished (Ok r) /\
    ex_layout_solve pp_none po_none (ex_layout_pb [1; 0]%nat 0 1) = Finished (Ok r') /\ sr_status r = st_success /\ sr_status r' = st_success /\
    sr_solutions r = [([false; true; false], Some 1)] /\ sr_solutions r' = [([true; false; true], Some 2)].
Proof. eexists _, _. split; [vm_compute; reflexivity|]. split; [vm_compute; reflexivity|]. repeat split. Qed.
Print Assumptions C157_refuted.
