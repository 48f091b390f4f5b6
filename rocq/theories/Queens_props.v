(** Property theorem C43: the n-queens generator encodes n-queens. *)
From Verif Require Import Base Queens_model Queens_spec Queens_proofs.
Open Scope Z_scope.

(** C43. For every size, the 0/1 solutions of the generated lines are exactly the placements
    of n queens no two of which attack each other; the objective and the section "binary"
    list every cell of the board once. Sizes below 3 are refused, the others accepted. *)
Theorem C43_n_queens_exact :
  forall n m q, n_queens n = Ok m -> (satisfies_model q m <-> n_queens_placement n q).
Proof. exact n_queens_ok. Qed.
Print Assumptions C43_n_queens_exact.
Theorem C43_all_cells_once :
  forall n m, n_queens n = Ok m ->
  NoDup (qm_objective m) /\ NoDup (qm_binary m) /\
  (forall c, In c (qm_objective m) <-> on_board n c) /\ (forall c, In c (qm_binary m) <-> on_board n c).
Proof.
  intros n m. unfold n_queens. destruct (n <? 3); [discriminate|]. intros H. inversion H; subst m. cbn.
  split; [apply (rows_nodup n), range_nodup|]. split; [apply (rows_nodup n), range_nodup|]. split; apply (rows_all n).
Qed.
Print Assumptions C43_all_cells_once.
Theorem C43_sizes : forall n, n_queens n = Throw <-> n < 3.
Proof. intros n. unfold n_queens. destruct (Z.ltb_spec n 3); split; try discriminate; try lia; reflexivity. Qed.
Print Assumptions C43_sizes.

(** A solution for four queens and a board that is not one. *)
Definition ex_board (l : list cell) : board := fun i j => existsb (fun c => (fst c =? i) && (snd c =? j)) l.
Fixpoint line_ok (q : board) (l : list qline) : bool :=
  match l with
  | [] => true
  | c :: l' => (if ql_equal c then line_sum q (ql_cells c) =? ql_value c else line_sum q (ql_cells c) <=? ql_value c) && line_ok q l'
  end.
Lemma line_ok_spec q l : line_ok q l = true -> forall c, In c l -> satisfies_line q c.
Proof.
  induction l as [|d l IH]; cbn; [intros _ c []|]. intros H c. apply andb_true_iff in H. destruct H as [H1 H2]. intros [<-|Hc]; [|auto].
  unfold satisfies_line. destruct (ql_equal d); lia.
Qed.
Example C43_hyps : exists m, n_queens 4 = Ok m /\ length (qm_lines m) = 18%nat /\
  satisfies_model (ex_board [(0, 1); (1, 3); (2, 0); (3, 2)]) m /\
  ~ satisfies_model (ex_board [(0, 1); (1, 2); (2, 0); (3, 3)]) m.
Proof.
  eexists. split; [reflexivity|]. split; [reflexivity|]. split; [refine (line_ok_spec _ _ _); vm_compute; reflexivity|].
  intros H. specialize (H (mk_qline [(0, 1); (1, 2); (2, 3)] false 1)). assert (Hin : In (mk_qline [(0, 1); (1, 2); (2, 3)] false 1) (qm_lines (n_queens_body 4))).
  { vm_compute. repeat (try (left; reflexivity); right). }
  specialize (H Hin). vm_compute in H. apply H. reflexivity.
Qed.
