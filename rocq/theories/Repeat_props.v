(** C155: constraints that say nothing new. *)
From Coq Require Import String.
From Verif Require Import Base Problem_model Merged_model Merged_spec Classify_model Preprocess_model Validate_model Rows_model Rows_spec Rows_props
  Params_model Solver_model Solver_spec Solver_props Pool_model EndToEnd_model Tuning_model Optimize_model Push_props Rewrite_spec Rewrite_props
  Repeat_spec Repeat_proofs Repeat_proofs2.
Open Scope Z_scope.
Open Scope list_scope.

(** C155. With constraints repeated (any number, anywhere after the first, under any label) solve() ends the same way with the same result; without
    preprocessing the constraints added can also be looser than the ones they repeat. For every problem, all parameters, random numbers and clocks. *)
Theorem C155_repeated_constraints_partial :
  forall (F G : Type) (fo : fops F) (ro : rops G) std_sort ddiv random_optimizer craw cnorm pfuel fuel pp buffered po pa after (g : G) pb pb',
  more_constraints (addition pp) pb pb' ->
  let solve := user_solve fo ro std_sort ddiv random_optimizer (by_terms craw) (by_terms cnorm) pfuel fuel pp false buffered po pa after g in
  solve pb' = solve pb.
Proof.
  intros until pb'. intros H. cbv zeta.
  match goal with |- ?f pb' = ?r => apply (more_steps (addition pp) (fun q => f q = r) pb pb' H); [|reflexivity] end.
  intros op a b R. cbv beta. now rewrite (user_solve_related fo ro std_sort ddiv random_optimizer craw cnorm op pfuel fuel buffered po pa after g a b pp R).
Qed.
Print Assumptions C155_repeated_constraints_partial.

(** optimize() can return the same results for both problems: for every number of threads and every set of schedules; every mode but branch. *)
Theorem C155_repeated_in_optimize_partial :
  forall (F G D : Type) (fo : fops F) (ro : rops G) std_sort ddiv hash hardware (Q : sys F G -> Prop) (lib : option (library D)) c pb pb' r,
  has_mode (oc_mode c) 4 = false -> more_constraints (addition (oc_pp c)) pb pb' ->
  user_optimize fo ro std_sort ddiv hash hardware Q lib c pb' r <-> user_optimize fo ro std_sort ddiv hash hardware Q lib c pb r.
Proof.
  intros until r. intros M H. apply (more_steps (addition (oc_pp c)) (fun q => user_optimize fo ro std_sort ddiv hash hardware Q lib c q r) pb pb' H).
  intros op a b R. symmetry. eapply user_optimize_related; eauto.
Qed.
Print Assumptions C155_repeated_in_optimize_partial.

(** z = 1, x + y = 1, x + y >= 0 and, repeated, x + y = 1 under another label. *)
Definition ex_repeat_pb (equal greater : list constraint) : problem :=
  mk_problem (mk_objective [mk_oelem 5 0; mk_oelem 3 1; mk_oelem 4 2] [] 10) equal greater []
    (mk_variables [str "x"; str "y"; str "z"] (repeat (mk_variable_value 0 1 vt_binary) 3)) (mk_affected [] []) minimize equalities_01.
Definition ex_z : constraint := mk_constraint (str "a") [mk_felem 1 2] 1 0.
Definition ex_xy (label : text) (id : Z) : constraint := mk_constraint label [mk_felem 1 0; mk_felem 1 1] 1 id.
Definition ex_repeat_solve (pp : preprocessor_opt) (pb : problem) : run_result (outcome sresult) :=
  user_solve ex_fops ex_rops insertion_sort Z.div (fun _ => Aborted) (by_terms ex_rewrite_raw) (by_terms (fun l q n v _ => ex_rewrite_raw l q n v))
    20 60 pp false false po_none (push_params co_none 1 5 0 4) [mk_rc 0 0 0%nat] tt pb.
Example C155_ex :
  more_constraints (addition pp_all) (ex_repeat_pb [ex_z; ex_xy (str "b") 1] []) (ex_repeat_pb [ex_z; ex_xy (str "b") 1; ex_xy (str "c") 2] []) /\
  exists r, ex_repeat_solve pp_all (ex_repeat_pb [ex_z; ex_xy (str "b") 1; ex_xy (str "c") 2] []) = Finished (Ok r) /\ sr_status r = st_success /\
    sr_solutions r = [([false; true], Some 17)] /\ sr_affected r = mk_affected [str "z"] [true] /\ sr_constraints r = 1%nat.
Proof.
  split.
  - apply (mc_equal _ _ [ex_z; ex_xy (str "b") 1]); [apply mc_same|]. exists [ex_z], (ex_xy (str "b") 1), [], (ex_xy (str "c") 2), []. repeat split.
  - eexists. split; [vm_compute; reflexivity|]. repeat split.
Qed.

(** With preprocessing a looser constraint can remain where the other one was dropped: x + y >= 0 is removed, and with it the variables, x + y >= -1
    is not. Written with its terms in another order, a repeated constraint is a second row of the solver. *)
Theorem C155_refuted :
  (let ge v id := mk_constraint (str "g") [mk_felem 1 0; mk_felem 1 1] v id in
   more_constraints looser (ex_repeat_pb [ex_z] [ge 0 1]) (ex_repeat_pb [ex_z] [ge 0 1; ge (-1) 2]) /\
   exists r r', ex_repeat_solve pp_all (ex_repeat_pb [ex_z] [ge 0 1]) = Finished (Ok r) /\
     ex_repeat_solve pp_all (ex_repeat_pb [ex_z] [ge 0 1; ge (-1) 2]) = Finished (Ok r') /\
     sr_constraints r = 0%nat /\ sr_variables r = 0%nat /\ sr_constraints r' = 1%nat /\ sr_variables r' = 2%nat) /\
  (let xy l id := mk_constraint (str "e") l 1 id in
   exists r r', ex_repeat_solve pp_none (ex_repeat_pb [xy [mk_felem 1 0; mk_felem 1 1] 0] []) = Finished (Ok r) /\
     ex_repeat_solve pp_none (ex_repeat_pb [xy [mk_felem 1 0; mk_felem 1 1] 0; xy [mk_felem 1 1; mk_felem 1 0] 1] []) = Finished (Ok r') /\
     sr_constraints r = 1%nat /\ sr_constraints r' = 2%nat).
Proof.
  split.
  - cbv zeta. split.
    + apply (mc_greater _ _ _ [mk_constraint (str "g") [mk_felem 1 0; mk_felem 1 1] 0 1]); [apply mc_same|].
      eexists [], _, [], _, []. split; [reflexivity|]. split; [reflexivity|]. split; [reflexivity|cbn; lia].
    + eexists _, _. split; [vm_compute; reflexivity|]. split; [vm_compute; reflexivity|]. repeat split.
  - cbv zeta. eexists _, _. split; [vm_compute; reflexivity|]. split; [vm_compute; reflexivity|]. repeat split.
Qed.
Print Assumptions C155_refuted.
