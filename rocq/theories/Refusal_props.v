(** Property theorem C125: the problems that the random solver refuses. *)
From Coq Require Import String QArith.
From Verif Require Import Base Problem_model Problem_spec Merged_model Merged_spec Merged_proofs Classify_model Preprocess_model
  Validate_model Params_model Rows_model Rows_spec Rows_props Solver_model Solver_spec Solver_props Pool_model Pool_props
  EndToEnd_model EndToEnd_props Optimize_model Cli_model RInterface_model Refusal_spec Refusal_proofs Optimize_props Callback_props.
Open Scope Z_scope.

(** C125. The problem handed to the solver is the preprocessed one, or the one given when there is no preprocessing. If the solver selected is the
    random one and some coefficient is not -1, 0 or 1, solve() and optimize() return an internal error and no solution; and the
    random solver on such a problem is the only reason for an internal error (for solve(), the only solver). For every mode, schedule of
    the threads and random choices. *)
Theorem C125_random_solver_refuses :
  forall (F G L : Type) (fo : fops F) (ro : rops G) std_sort ddiv hash hardware (lib : option (library L)) (p : params) (pb : problem) (r : sresult),
  (solve_with fo ro std_sort ddiv p pb (Ok r) ->
    exists q, handed p pb q /\
      (pm_solver p = so_random /\ large_coefficient q -> sr_status r = st_internal_error /\ sr_solutions r = []) /\
      (sr_status r = st_internal_error -> pm_solver p = so_random)) /\
  (optimize_with fo ro std_sort ddiv hash hardware lib p pb (Ok r) ->
    exists q, handed p pb q /\
      (sr_status r = st_internal_error <-> pm_solver p = so_random /\ large_coefficient q) /\
      (sr_status r = st_internal_error -> sr_solutions r = [])).
Proof.
  intros F G L fo ro std_sort ddiv hash hardware lib p pb r. split; intros H.
  - apply solve_refuses in H. destruct H as (q & H1 & H2 & H3). exists q. split; [assumption|]. split.
    + intros K. rewrite (H2 K). split; reflexivity.
    + intros K. destruct (pm_solver p) eqn:E; [exfalso; exact (H3 eq_refl K)|reflexivity].
  - apply optimize_refuses in H. destruct H as (q & H1 & H2 & H3). exists q. split; [assumption|]. split.
    + split; [assumption|]. intros K. rewrite (H2 K). reflexivity.
    + intros K. rewrite (H2 (H3 K)). reflexivity.
Qed.
Print Assumptions C125_random_solver_refuses.

(** The random solver and the other one on a problem with the coefficient 2, without preprocessing. *)
Definition random_params : params := set_preprocessor pp_none (set_solver so_random default_params).
Definition plain_params : params := set_preprocessor pp_none default_params.
Example C125_hyps :
  large_coefficient ex_Z_pb /\ handed random_params ex_Z_pb ex_Z_pb /\
  (exists r, solve_with ex_fops ex_rops insertion_sort Z.div random_params ex_Z_pb (Ok r) /\ sr_status r = st_internal_error) /\
  (exists r, optimize_with ex_fops ex_rops insertion_sort Z.div (fun _ => 0) 1 (None : option (library Z)) random_params ex_Z_pb (Ok r) /\ sr_status r = st_internal_error) /\
  (exists r, solve_with ex_fops ex_rops insertion_sort Z.div plain_params ex_Z_pb (Ok r) /\ sr_status r = st_success).
Proof.
  split; [exists (mk_constraint (str "a") [mk_felem 2 0; mk_felem 1 1; mk_felem 1 2] 2 0), (mk_felem 2 0); repeat split; left; reflexivity|].
  split; [reflexivity|]. split; [|split].
  - exists (failed_result st_internal_error). split; [|reflexivity].
    apply (sw_run _ _ _ _ _ _ _ (fun _ => Aborted) (fun _ => ex_c0 [1; 2; 3]) (fun _ => ex_cost [1; 2; 3]) 10%nat 20%nat (ex_params 10 0 100 co_none) [] tt). reflexivity.
  - exists (failed_result st_internal_error). split; [|reflexivity]. apply (ow_run _ _ _ _ _ _ _ _ _ _ (ex_oparams false sto_one)); [reflexivity|].
    apply uo_unpreprocessed; [reflexivity|]. apply io_random_Z; [reflexivity|]. left. reflexivity.
  - destruct (user_solve ex_fops ex_rops insertion_sort Z.div (fun _ => Aborted) (fun _ => ex_c0 [1; 2; 3]) (fun _ => ex_cost [1; 2; 3]) 10 20 pp_none false false
      po_none (ex_params 10 0 100 co_none) [mk_rc 0 0 0%nat; mk_rc 0 0 0%nat; mk_rc 0 0 0%nat] tt ex_Z_pb) as [[r| |]| |] eqn:Er; [|vm_compute in Er; discriminate..].
    exists r. split; [econstructor; exact Er|]. vm_compute in Er. injection Er as <-. reflexivity.
Qed.
