(** Property theorems C19 and C56 (solution files). *)
From Coq Require Import String Ascii.
From Verif Require Import Base Problem_model Problem_spec Preprocess_spec Preprocess_props Classify_model
  Validate_model Validate_spec Validate_proofs Validate_props ResultIO_model ResultIO_spec ResultIO_proofs.
Open Scope Z_scope.

(** C19. Writing a successful result and reading the file gives every name its value. *)
Theorem C19_solution_file_round_trip :
  forall (header : list text) (r : result),
  Forall comment_line header -> proper_result r ->
  Forall writable_name (a_names (r_affected r)) -> Forall writable_name (r_names r) ->
  exists out r', write_result header r = Ok out /\ read_result out = Ok r' /\ proper_result r' /\
    r_names r' = a_names (r_affected r) ++ r_names r /\
    forall nm b, gives r nm b <-> gives r' nm b.
Proof.
  intros header r Hh Hp Ha Hn. destruct (round_trip header r Hh Hp Ha Hn) as (out & s & Hw & Hs & Hr).
  eexists _, _. split; [exact Hw|]. split; [exact Hr|]. destruct Hp as (Hst & (s' & Hs' & Hl) & Hla & Hnd).
  rewrite Hs in Hs'. inversion Hs'; subst s'. split.
  - split; [reflexivity|]. split; [|split; [reflexivity|]].
    + eexists. split; [reflexivity|]. cbn. rewrite !app_length. lia.
    + cbn. rewrite app_nil_r. eapply Permutation_NoDup; [apply Permutation_app_comm|assumption].
  - split; [reflexivity|]. intros nm b. unfold gives. cbn [r_affected a_names a_values r_names]. split.
    + intros H. left. exists (mk_solution (a_values (r_affected r) ++ sl_variables s) 0).
      destruct H as [(s' & k & Hs2 & Hk & Hb)|(k & Hk & Hb)].
      * rewrite Hs in Hs2. inversion Hs2; subst s'. exists (List.length (a_names (r_affected r)) + k)%nat.
        split; [reflexivity|]. cbn [sl_variables]. rewrite !nth_error_app2 by lia. rewrite Hla.
        replace (List.length (a_values (r_affected r)) + k - List.length (a_values (r_affected r)))%nat with k by lia. auto.
      * exists k. split; [reflexivity|]. cbn [sl_variables]. rewrite !nth_error_app1; auto; apply nth_error_Some; congruence.
    + intros [(s' & k & Hs2 & Hk & Hb)|(k & Hk & _)]; [|destruct k; discriminate].
      unfold r_last in Hs2. cbn in Hs2. inversion Hs2; subst s'. cbn [sl_variables] in Hb.
      destruct (Nat.lt_ge_cases k (List.length (a_names (r_affected r)))) as [Hlt|Hge].
      * right. exists k. rewrite nth_error_app1 in Hk by lia. rewrite nth_error_app1 in Hb by lia. auto.
      * left. exists s, (k - List.length (a_names (r_affected r)))%nat. split; [assumption|].
        rewrite nth_error_app2 in Hk by lia. rewrite nth_error_app2 in Hb by lia. rewrite Hla in *. auto.
Qed.
Print Assumptions C19_solution_file_round_trip.

(** C19. A result read back is judged as the result that was written. *)
Theorem C19_read_back_same_verdict :
  forall (header : list text) (r : result) (pb : problem) (x : assignment),
  Forall comment_line header -> proper_result r ->
  Forall writable_name (a_names (r_affected r)) -> Forall writable_name (r_names r) ->
  well_formed pb -> small_sums pb -> v_names (p_vars pb) <> [] -> describes r pb x ->
  exists out r', write_result header r = Ok out /\ read_result out = Ok r' /\
    is_valid_solution pb r' = is_valid_solution pb r /\ compute_solution pb r' = compute_solution pb r.
Proof.
  intros header r pb x Hh Hp Ha Hn Hwf Hs Hne Hd. destruct (round_trip header r Hh Hp Ha Hn) as (out & s & Hw & Hl & Hr).
  destruct (read_describes r s pb x Hp Hl Hd) as [Hp' Hd'].
  eexists _, _. split; [exact Hw|]. split; [exact Hr|]. split.
  - destruct (is_valid_solution_exact pb _ x Hwf Hs Hne Hp' Hd') as (b & -> & Hb).
    destruct (is_valid_solution_exact pb r x Hwf Hs Hne Hp Hd) as (b' & -> & Hb').
    f_equal. apply Bool.eq_iff_eq_true. tauto.
  - rewrite (compute_solution_exact pb _ x), (compute_solution_exact pb r x) by assumption. reflexivity.
Qed.
Print Assumptions C19_read_back_same_verdict.
Example C19_hyps : Forall comment_line [str "\ solver baryonyx"; str "   \ value 3"] /\ proper_result (ex_r true false) /\
  Forall writable_name (a_names (r_affected (ex_r true false))) /\ Forall writable_name (r_names (ex_r true false)).
Proof.
  split; [|split; [apply ex_r_proper|]].
  - repeat constructor.
    + intros H. vm_compute in H. repeat (destruct H as [H|H]; [discriminate H|]). exact H.
    + exists [], (str " solver baryonyx"). split; [reflexivity|constructor].
    + intros H. vm_compute in H. repeat (destruct H as [H|H]; [discriminate H|]). exact H.
    + exists (str "   "), (str " value 3"). split; [reflexivity|]. repeat constructor.
  - assert (H : forall c, (c = "a" \/ c = "b" \/ c = "c" \/ c = "d" \/ c = "e" \/ c = "f")%char -> writable_name [c]).
    { intros c H. assert (c <> newline /\ c <> ascii_of_nat 61 /\ c <> ascii_of_nat 92) as (H1 & H2 & H3)
        by (repeat (destruct H as [->|H]; [repeat split; discriminate|]); subst; repeat split; discriminate).
      split; [intros [G|[]]; congruence|]. split; [intros [G|[]]; congruence|].
      intros (b & r & G & _). destruct b as [|? [|? ?]]; inversion G; congruence. }
    split; repeat constructor; apply H; tauto.
Qed.
Example C19_text : write_result [str "\ s"] (ex_r true false) =
  Ok (str "\ s" ++ [nl] ++ str "a=1" ++ [nl] ++ str "d=0" ++ [nl] ++ str "e=0" ++ [nl] ++ str "f=1" ++ [nl] ++
      str "b=1" ++ [nl] ++ str "c=0" ++ [nl]).
Proof. vm_compute. reflexivity. Qed.

(** C56. A file with a line that is neither a comment nor an assignment is rejected with an
    exception. Missing: what the reader accepts beyond (see [C56_refuted]). *)
Theorem C56_malformed_file_rejected_partial :
  forall (before line after : text),
  (before = [] \/ exists p, before = p ++ [newline]) ->
  ~ In newline line -> ~ In (ascii_of_nat 61) line -> ~ comment_line line ->
  read_result (before ++ line ++ newline :: after) = Throw.
Proof.
  intros before line after Hb Hn He Hc. unfold read_result. destruct Hb as [->|Hb].
  - cbn [app]. rewrite (read_loop_line line [] after) by assumption. cbn [app]. rewrite read_bad_line by assumption. reflexivity.
  - rewrite read_loop_app_throw by assumption. reflexivity.
Qed.
Print Assumptions C56_malformed_file_rejected_partial.
Example C56_hyps : read_result (str "a=1" ++ [newline] ++ str "b 1" ++ [newline] ++ str "c=1") = Throw.
Proof. vm_compute. reflexivity. Qed.

(** C56 is false of the code: a file that cannot be opened is a success (and the validity
    check then ends the program), and "a=" is read as "a=0". *)
Theorem C56_refuted :
  (exists r, make_result None = Ok r /\ r_status r = st_success /\ is_valid_solution ex_pb r = Crash) /\
  (exists r, make_result (Some (str "a=")) = Ok r /\ r_status r = st_success /\ gives r (str "a") false).
Proof.
  split; (eexists; split; [vm_compute; reflexivity|]); (split; [reflexivity|]); [vm_compute; reflexivity|].
  left. eexists _, 0%nat. split; [reflexivity|]. split; reflexivity.
Qed.
Print Assumptions C56_refuted.
