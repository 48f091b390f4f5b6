(** C143: solution files are stored without loss. *)
From Coq Require Import Ascii Lia.
From Verif Require Import Base Problem_model Classify_model Validate_model ResultIO_model Utils_model Utils_props StringBuffer_model StringBuffer_spec StringBuffer_proofs.
Open Scope nat_scope.
Open Scope list_scope.

(** At most half of the memory is lost, the last block apart. *)
Theorem C143_memory : forall cap l b ws, sb_append_all cap sb_new l = Some (b, ws) -> (size b - 1) * (cap + 1) <= 2 * total l.
Proof.
  intros cap l b ws H. rewrite size_length. pose proof (append_all_memory cap l sb_new b ws 0 H) as K. cbn [sb_new sb_nodes sb_position length] in K.
  specialize (K ltac:(lia) (fun _ => eq_refl)). lia.
Qed.
Print Assumptions C143_memory.
(** A block has 1 MiB. *)
Lemma node_length_Z : Z.of_nat node_length = 1048576%Z.
Proof. unfold node_length. rewrite Z2Nat.id by lia. reflexivity. Qed.
(** A solution file whose names fit in a block is read as C77 says of texts: the views of the result show the names of the file. *)
Theorem C143_solution_file_partial : forall input r, read_result input = Ok r ->
  Forall (fun s => (Z.of_nat (length s) <= 1048576)%Z) (r_names r) ->
  exists b ws vs, store_result node_length input = Ok (b, ws, vs) /\ show b (r_names r) ws /\ r_solutions r = [mk_solution vs 0].
Proof.
  intros input r H F. assert (F' : Forall (fun s => length s <= node_length) (r_names r)) by (revert F; apply Forall_impl; intros s K; pose proof node_length_Z; lia).
  clear F; rename F' into F. unfold read_result in H. destruct (read_loop input [] ([], [])) as [[ns vs]| |] eqn:E; cbn [obind] in H; try discriminate. injection H as <-.
  cbn [r_names r_solutions fst snd] in *. destruct (store_result_spec node_length input) as [K|[_ K]].
  - rewrite E in K. destruct (store_result node_length input) as [[[b ws] vs']| |]; cbn [agree] in K; try contradiction. destruct K as [K1 K2]. cbn [fst snd] in K1, K2. subst vs'.
    exists b, ws, vs. split; [reflexivity|]. split; [|reflexivity]. destruct (C25_views_are_stable node_length ns F) as (b1 & ws1 & E1 & E2). assert (Q : (b, ws) = (b1, ws1)) by congruence. injection Q as <- <-. exact E2.
  - destruct (K _ E) as [s [I L]]. rewrite Forall_forall in F. specialize (F s I). lia.
Qed.
Print Assumptions C143_solution_file_partial.
(** A solution file with a longer name writes past the end of a block. *)
Theorem C143_solution_file_refuted : forall n, (1048576 < Z.of_nat n)%Z ->
  (exists r, read_result (long_line n) = Ok r) /\ store_result node_length (long_line n) = Crash.
Proof. intros n H. apply long_line_crash. pose proof node_length_Z. lia. Qed.
Print Assumptions C143_solution_file_refuted.

(** Blocks of 4 characters: abc, d, ef (new block), ghij (new block). *)
Definition ex_letters (l : list nat) : text := map ascii_of_nat l.
Example C143_ex : exists b ws, sb_append_all 4 sb_new [ex_letters [97; 98; 99]; ex_letters [100]; ex_letters [101; 102]; ex_letters [103; 104; 105; 106]] = Some (b, ws) /\
  ws = [mk_view 0 0 3; mk_view 0 3 1; mk_view 1 0 2; mk_view 2 0 4] /\ size b = 3 /\ sb_append 4 b (ex_letters [97; 98; 99; 100; 101]) = None.
Proof. eexists _, _. split; [vm_compute; reflexivity|]. split; [reflexivity|]. split; reflexivity. Qed.
Example C143_file_ex : exists r b ws, read_result (long_line 3) = Ok r /\ r_names r = [ex_letters [97; 97; 97]] /\
  store_result 4 (long_line 3) = Ok (b, ws, [true]) /\ ws = [mk_view 0 0 3] /\ store_result 2 (long_line 3) = Crash.
Proof. eexists _, _, _. split; [vm_compute; reflexivity|]. split; [reflexivity|]. split; [vm_compute; reflexivity|]. split; reflexivity. Qed.
