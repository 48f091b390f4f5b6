(** C140: another constant in the objective. C141: other names. *)
From Coq Require Import String SpecFloat.
From Verif Require Import Base Problem_model Merged_model Merged_spec Classify_model Preprocess_model Validate_model Rows_model Rows_spec Rows_props
  Params_model Solver_model Solver_spec Solver_props EndToEnd_model Push_props Double_model Budget_props Rewrite_spec Rewrite_proofs.
Open Scope Z_scope.
Open Scope list_scope.

(** C140. With a constant added to the objective solve() ends the same way, with the same status and the same solution; the constant is added to
    its value. For every problem, preprocessed or not, all parameters, random numbers and clocks; the values are exact numbers here (C127 says when
    those of the code are). *)
Theorem C140_constant_of_the_objective_partial :
  forall (F G : Type) (fo : fops F) (ro : rops G) std_sort ddiv random_optimizer craw cnorm pfuel fuel pp buffered po pa after (g : G) d pb,
  let solve := user_solve fo ro std_sort ddiv random_optimizer (by_terms craw) (by_terms cnorm) pfuel fuel pp false buffered po pa after g in
  solve (shift_problem d pb) = run_map (outcome_map (shift_result d)) (solve pb).
Proof.
  intros until pb. cbv zeta. rewrite <- shift_only, user_solve_change by (intros a b _ _ E; exact E). apply run_map_ext, shift_result_only.
Qed.
Print Assumptions C140_constant_of_the_objective_partial.

(** In binary64 a large constant hides the costs: with the constant 0 the solution [true; false] (cost 1) replaces [true; true] (cost 2), with the
    constant 2^60 it does not, and both have the value 2^60. *)
Definition ex_hidden (constant : double) : dobjective := mk_dobjective [mk_delem f_one 0; mk_delem f_one 1] [] constant.
Theorem C140_constant_refuted :
  (exists v w, dresults (ex_hidden f_zero) [true; false] = Some v /\ dresults (ex_hidden f_zero) [true; true] = Some w /\ f_is_better minimize v w = true) /\
  (exists v, dresults (ex_hidden (b_of_Z (2 ^ 60))) [true; false] = Some v /\ dresults (ex_hidden (b_of_Z (2 ^ 60))) [true; true] = Some v /\
     v = b_of_Z (2 ^ 60) /\ f_is_better minimize v v = false).
Proof.
  split.
  - eexists _, _. split; [vm_compute; reflexivity|]. split; [vm_compute; reflexivity|]. reflexivity.
  - eexists. split; [vm_compute; reflexivity|]. split; [vm_compute; reflexivity|]. split; vm_compute; reflexivity.
Qed.
Print Assumptions C140_constant_refuted.

(** C141. The names of the variables and the labels of the constraints do not matter: with other names (different variables keep different names)
    solve() ends the same way, with the same status, the same values of the same variables, under the other names. *)
Theorem C141_names :
  forall (F G : Type) (fo : fops F) (ro : rops G) std_sort ddiv random_optimizer craw cnorm pfuel fuel pp buffered po pa after (g : G) rho sg pb,
  renames rho pb ->
  let solve := user_solve fo ro std_sort ddiv random_optimizer (by_terms craw) (by_terms cnorm) pfuel fuel pp false buffered po pa after g in
  solve (rename_problem rho sg pb) = run_map (outcome_map (rename_result rho)) (solve pb).
Proof.
  intros until pb. intros Hr. cbv zeta. rewrite <- rename_only, user_solve_change by exact Hr. apply run_map_ext, rename_result_only.
Qed.
Print Assumptions C141_names.

(** A problem with a variable fixed by the preprocessor: the equation z = 1 in front of x + y = 1. *)
Definition ex_rewrite_pb : problem :=
  mk_problem (mk_objective [mk_oelem 5 0; mk_oelem 3 1; mk_oelem 4 2] [] 10)
    [mk_constraint (str "a") [mk_felem 1 2] 1 0; mk_constraint (str "b") [mk_felem 1 0; mk_felem 1 1] 1 1] [] []
    (mk_variables [str "x"; str "y"; str "z"] (repeat (mk_variable_value 0 1 vt_binary) 3)) (mk_affected [] []) minimize equalities_01.
Definition ex_rewrite_rho (a : text) : text := str "new_" ++ a.
Definition ex_rewrite_raw (l : list oelem) (_ : list qelem) (_ v : nat) : option Z := option_map o_factor (nth_error l v).
Definition ex_rewrite_solve (pb : problem) : run_result (outcome sresult) :=
  user_solve ex_fops ex_rops insertion_sort Z.div (fun _ => Aborted) (by_terms ex_rewrite_raw) (by_terms (fun l q n v _ => ex_rewrite_raw l q n v))
    20 60 pp_all false false po_none (push_params co_none 1 5 0 4) [mk_rc 0 0 0%nat] tt pb.
Example C141_ex : renames ex_rewrite_rho ex_rewrite_pb /\
  exists r, ex_rewrite_solve ex_rewrite_pb = Finished (Ok r) /\ sr_status r = st_success /\ sr_solutions r = [([false; true], Some 17)] /\
    sr_names r = [str "x"; str "y"] /\ sr_affected r = mk_affected [str "z"] [true] /\
    ex_rewrite_solve (rename_problem ex_rewrite_rho (fun _ => []) ex_rewrite_pb) = Finished (Ok (rename_result ex_rewrite_rho r)) /\
    sr_names (rename_result ex_rewrite_rho r) = [str "new_x"; str "new_y"].
Proof.
  split; [intros a b _ _ E; unfold ex_rewrite_rho in E; now apply app_inv_head in E|].
  eexists. split; [vm_compute; reflexivity|]. do 4 (split; [reflexivity|]). split; [vm_compute; reflexivity|reflexivity].
Qed.
Example C140_ex : exists r, ex_rewrite_solve ex_rewrite_pb = Finished (Ok r) /\
  ex_rewrite_solve (shift_problem 100 ex_rewrite_pb) = Finished (Ok (shift_result 100 r)) /\ sr_solutions (shift_result 100 r) = [([false; true], Some 117)].
Proof. eexists. split; [vm_compute; reflexivity|]. split; [vm_compute; reflexivity|reflexivity]. Qed.
