(** Property theorems C17 and C18 (checking and evaluating a result). *)
From Coq Require Import String.
From Verif Require Import Base Problem_model Problem_spec Preprocess_spec Preprocess_props Classify_model
  Validate_model Validate_spec Validate_proofs.
Open Scope Z_scope.

(** C17. The verdict on a successful result is exactly the satisfaction of every constraint. *)
Theorem C17_is_valid_solution_exact :
  forall (pb : problem) (r : result) (x : assignment),
  well_formed pb -> small_sums pb -> v_names (p_vars pb) <> [] ->
  proper_result r -> describes r pb x ->
  exists b, is_valid_solution pb r = Ok b /\ (b = true <-> feasible x pb).
Proof. exact is_valid_solution_exact. Qed.
Print Assumptions C17_is_valid_solution_exact.

(** C17. A result without solution, or whose status is not success, is never called valid. *)
Theorem C17_failures_are_not_valid :
  forall (pb : problem) (r : result),
  r_solutions r = [] \/ r_status r <> st_success -> is_valid_solution pb r = Ok false.
Proof.
  intros pb r [H|H]; unfold is_valid_solution, r_last, r_ok.
  - rewrite H. reflexivity.
  - destruct (last _ None); [|reflexivity]. destruct (r_status r); try reflexivity. contradiction.
Qed.
Print Assumptions C17_failures_are_not_valid.

(** C18. The value computed for a result is the value of the objective function. *)
Theorem C18_compute_solution_exact :
  forall (pb : problem) (r : result) (x : assignment),
  well_formed pb -> v_names (p_vars pb) <> [] -> proper_result r -> describes r pb x ->
  compute_solution pb r = Ok (objective_value x (p_objective pb)).
Proof. exact compute_solution_exact. Qed.
Print Assumptions C18_compute_solution_exact.

(** ** Examples: the result of the preprocessed problem [ex_q] seen on the user's [ex_pb]. *)
Definition ex_r (b c : bool) : result :=
  mk_result (p_affected ex_q) (v_names (p_vars ex_q)) [mk_solution [b; c] 0] st_success.
Definition ex_r_x (b c : bool) : assignment :=
  fun i => match i with 0 => true | 1 => b | 2 => c | 5 => true | _ => false end%nat.
Example ex_r_proper b c : proper_result (ex_r b c).
Proof.
  split; [reflexivity|]. split; [eexists; split; reflexivity|]. split; [reflexivity|].
  eapply (nodupb_ok Preprocess_props.text_eqb); [|vm_compute; reflexivity].
  intros u v ->. unfold Preprocess_props.text_eqb. destruct (list_eq_dec Ascii.ascii_dec v v); congruence.
Qed.
Example ex_r_describes b c : describes (ex_r b c) ex_pb (ex_r_x b c).
Proof.
  split; [reflexivity|]. intros i nm H. unfold called in H.
  do 6 (destruct i as [|i]; [inversion H; subst nm; cbn; try (right; (exists 0%nat + exists 1%nat + exists 2%nat + exists 3%nat); split; reflexivity);
                              left; eexists; (exists 0%nat + exists 1%nat); repeat split|]).
  destruct i; discriminate.
Qed.
Example ex_small : small_sums ex_pb.
Proof. intros c H. unfold all_constraints in H. in_cases; vm_compute; congruence. Qed.
Example C17_valid : is_valid_solution ex_pb (ex_r true false) = Ok true /\ is_valid_solution ex_pb (ex_r false false) = Ok false.
Proof. split; vm_compute; reflexivity. Qed.
Example C17_hyps : exists r x, well_formed ex_pb /\ small_sums ex_pb /\ v_names (p_vars ex_pb) <> [] /\
  proper_result r /\ describes r ex_pb x.
Proof.
  exists (ex_r true false), (ex_r_x true false).
  split; [apply ex_wf|]. split; [apply ex_small|]. split; [discriminate|]. split; [apply ex_r_proper|apply ex_r_describes].
Qed.
Example C18_value : compute_solution ex_pb (ex_r true false) = Ok 1 /\ compute_solution ex_pb (ex_r true true) = Ok 4.
Proof. split; vm_compute; reflexivity. Qed.
