(** Property theorems C121, C122: the generated n-queens file. *)
From Coq Require Import Ascii String.
From Verif Require Import Base Problem_model Problem_spec Merged_model Merged_spec Classify_model Preprocess_model Preprocess_spec Preprocess_props
  Validate_model Validate_spec Params_model ResultIO_model ResultIO_spec
  Lexer_model Lexer_spec Parser_model Parser_spec Parser_concrete Lexer_props Parser_props
  Writer_model Writer_proofs3 Rows_model Rows_spec Rows_props Solver_model Solver_spec Solver_props EndToEnd_model EndToEnd_spec EndToEnd_props
  Main_model Main_spec Main_proofs Main_props
  Queens_model Queens_spec Queens_proofs QueensFile_model QueensFile_spec QueensFile_proofs QueensExist_proofs.
Open Scope string_scope.
Open Scope list_scope.
Open Scope Z_scope.

(** C121. For every size an int can have, the generated file is read without error, as: minimize
    the sum of all variables; the variable of the cell (i, j) is named x_i_j, numbered row by row,
    and is binary; an assignment satisfies the constraints exactly when the cells at 1 are n queens
    no two of which attack each other. *)
Theorem C121_generated_file_is_n_queens :
  forall (D : Type) (dn : dops D) (cost : D -> Z) (n : Z) (t : text) (fuel : nat), dops_ok dn -> reads_one dn ->
  n <= int_max -> n_queens_text n = Ok t -> (List.length (file_tokens t) <= fuel)%nat ->
  exists p, make_problem dn fuel t = P_ok p /\ rw_type p = minimize /\
    Z.of_nat (List.length (v_names (rw_vars p))) = n * n /\
    (forall i j, 0 <= i < n -> 0 <= j < n ->
       nth_error (v_names (rw_vars p)) (cell_number n i j) = Some (queen_name i j) /\
       nth_error (v_values (rw_vars p)) (cell_number n i j) = Some (mk_variable_value 0 1 vt_binary)) /\
    rw_objective p = map (fun k => (d_one dn, k)) (seq 0 (Z.to_nat (n * n))) /\ rw_quadratic p = [] /\ rw_value p = d_zero dn /\
    forall X : assignment, feasible X (to_problem cost p) <-> n_queens_placement n (fun i j => X (cell_number n i j)).
Proof.
  intros D dn cost n t fuel H1 H2 Hn Ht Hf. unfold n_queens_text in Ht. destruct (Z.ltb_spec n 3); [discriminate|]. injection Ht as <-.
  exists (meaning dn minimize (doc n)). destruct (text_read dn H1 H2 n fuel ltac:(lia) Hf) as (_ & _ & _ & Hm). split; [exact Hm|]. split; [reflexivity|].
  assert (En : v_names (rw_vars (meaning dn minimize (doc n))) = board_names n) by (unfold meaning; cbn [rw_vars v_names]; apply doc_names; lia).
  split; [rewrite En; apply names_length; lia|]. split.
  - intros i j Hi Hj. rewrite En. split; [apply names_nth; assumption|].
    unfold meaning. cbn [rw_vars v_values]. rewrite doc_names by lia. pose proof (names_nth n i j Hi Hj) as E. rewrite (map_nth_error _ _ _ E). f_equal.
    apply doc_variable. apply (nth_error_In _ _ E).
  - split; [apply objective_meaning; lia|]. split; [reflexivity|]. split; [apply value_meaning|]. intros X. apply (doc_feasible dn H2). lia.
Qed.
Print Assumptions C121_generated_file_is_n_queens.
(** The sizes that are refused; from 4 on, there is a placement. *)
Theorem C121_sizes : forall n, (n_queens_text n = Throw <-> n < 3) /\ (4 <= n -> exists q, n_queens_placement n q) /\ (forall q, ~ n_queens_placement 3 q).
Proof.
  intros n. split; [|split; [apply queens_exist|]].
  - unfold n_queens_text. destruct (Z.ltb_spec n 3); split; try discriminate; try lia; reflexivity.
  - intros q H. apply (n_queens_ok 3 (n_queens_body 3) q eq_refl) in H.
    assert (K : forall l, In l (qm_lines (n_queens_body 3)) -> satisfies_line q l) by exact H. clear H.
    assert (K' : Forall (satisfies_line q) (qm_lines (n_queens_body 3))) by (apply Forall_forall; exact K). clear K.
    change (qm_lines (n_queens_body 3)) with
      [mk_qline [(0,0);(0,1);(0,2)] true 1; mk_qline [(1,0);(1,1);(1,2)] true 1; mk_qline [(2,0);(2,1);(2,2)] true 1;
       mk_qline [(0,0);(1,0);(2,0)] true 1; mk_qline [(0,1);(1,1);(2,1)] true 1; mk_qline [(0,2);(1,2);(2,2)] true 1;
       mk_qline [(1,0);(2,1)] false 1; mk_qline [(0,0);(1,1);(2,2)] false 1; mk_qline [(0,1);(1,2)] false 1;
       mk_qline [(1,0);(0,1)] false 1; mk_qline [(2,0);(1,1);(0,2)] false 1; mk_qline [(2,1);(1,2)] false 1] in K'.
    repeat match goal with H : Forall _ (_ :: _) |- _ => inversion H; clear H; subst end.
    unfold satisfies_line in *. cbn [ql_equal ql_cells ql_value line_sum fst snd] in *.
    destruct (q 0 0), (q 0 1), (q 0 2), (q 1 0), (q 1 1), (q 1 2), (q 2 0), (q 2 1), (q 2 2); lia.
Qed.
Print Assumptions C121_sizes.
Lemma xdops_reads_one : reads_one xdops.
Proof. split; [intros t; reflexivity|]. split; [exists (X_num (QArith_base.inject_Z 1)); split; vm_compute; reflexivity|vm_compute; reflexivity]. Qed.
Example C121_hyps : dops_ok xdops /\ reads_one xdops /\ 4 <= int_max /\ exists t, n_queens_text 4 = Ok t /\ (List.length (file_tokens t) <= 300)%nat /\
  t = text_of
    ["minimize"; " + x_0_0 + x_0_1 + x_0_2 + x_0_3"; " + x_1_0 + x_1_1 + x_1_2 + x_1_3"; " + x_2_0 + x_2_1 + x_2_2 + x_2_3"; " + x_3_0 + x_3_1 + x_3_2 + x_3_3"; "";
     "subject to"; "+ x_0_0 + x_0_1 + x_0_2 + x_0_3  = 1"; "+ x_1_0 + x_1_1 + x_1_2 + x_1_3  = 1"; "+ x_2_0 + x_2_1 + x_2_2 + x_2_3  = 1"; "+ x_3_0 + x_3_1 + x_3_2 + x_3_3  = 1";
     "+ x_0_0 + x_1_0 + x_2_0 + x_3_0  = 1"; "+ x_0_1 + x_1_1 + x_2_1 + x_3_1  = 1"; "+ x_0_2 + x_1_2 + x_2_2 + x_3_2  = 1"; "+ x_0_3 + x_1_3 + x_2_3 + x_3_3  = 1"; "";
     "+ x_1_0 + x_2_1 + x_3_2  <= 1"; "+ x_2_0 + x_3_1  <= 1"; "+ x_0_0 + x_1_1 + x_2_2 + x_3_3  <= 1"; "+ x_0_1 + x_1_2 + x_2_3  <= 1"; "+ x_0_2 + x_1_3  <= 1"; "";
     "+ x_1_0 + x_0_1  <= 1"; "+ x_2_0 + x_1_1 + x_0_2  <= 1"; "+ x_3_0 + x_2_1 + x_1_2 + x_0_3  <= 1"; "+ x_3_1 + x_2_2 + x_1_3  <= 1"; "+ x_3_2 + x_2_3  <= 1"; "";
     "binary"; "  x_0_0  x_0_1  x_0_2  x_0_3"; "  x_1_0  x_1_1  x_1_2  x_1_3"; "  x_2_0  x_2_1  x_2_2  x_2_3"; "  x_3_0  x_3_1  x_3_2  x_3_3"; ""; "end"].
Proof.
  split; [apply xdops_ok|]. split; [apply xdops_reads_one|]. split; [vm_compute; discriminate|]. exists (n_queens_text_body 4). split; [reflexivity|]. split; [vm_compute; lia|vm_compute; reflexivity].
Qed.

(** C122. The tool called with the generated file, with the preprocessing: for every n from 4, if
    it ends and writes a file that has the line "status: solution found", then this file gives a
    value to each cell and says nothing else of them, the cells at 1 are n queens no two of which
    attack each other, and the value of the objective that is printed is n. *)
Definition shows_queens (n : Z) (out : text) : Prop :=
  exists q : board, n_queens_placement n q /\
    (forall i j b, 0 <= i < n -> 0 <= j < n -> (has_line out (value_is (queen_name i j) b) <-> q i j = b)) /\
    (forall l, has_line out l -> comment_line l \/ exists i j, 0 <= i < n /\ 0 <= j < n /\ l = value_is (queen_name i j) (q i j)).
Lemma shows_from (D : Type) (dn : dops D) (cost : D -> Z) (show_f : option Z -> text) n out V : reads_one dn -> 3 <= n <= int_max ->
  satisfies dn V (doc n) -> (forall nm b, In nm (document_names (doc n)) -> (has_line out (value_is nm b) <-> V nm = b)) ->
  (forall l, has_line out l -> comment_line l \/ exists nm, In nm (document_names (doc n)) /\ l = value_is nm (V nm)) ->
  has_line out (str "\ Solution found: " ++ show_f (Some (objective_at dn cost V (doc n)))) ->
  shows_queens n out /\ (cost (d_one dn) = 1 -> cost (d_zero dn) = 0 -> has_line out (str "\ Solution found: " ++ show_f (Some n))).
Proof.
  intros H1 Hn Hs Hv Hl Ho.
  assert (Hp : n_queens_placement n (fun i j => V (queen_name i j))) by (apply (doc_satisfies dn H1 n V); [exact Hn|intros [i j] _; reflexivity|exact Hs]).
  rewrite doc_names in Hv, Hl by exact Hn. split.
  - exists (fun i j => V (queen_name i j)). split; [exact Hp|]. split.
    + intros i j b Hi Hj. apply Hv. apply (nth_error_In _ _ (names_nth n i j Hi Hj)).
    + intros l Hin. destruct (Hl l Hin) as [K|(nm & Hnm & ->)]; [left; exact K|right]. apply in_map_iff in Hnm. destruct Hnm as ([i j] & <- & Hc). apply rows_all in Hc. destruct Hc as [Hi Hj]. exists i, j. auto.
  - intros C1 C0. rewrite (doc_objective dn cost C1 C0 n V (fun i j => V (queen_name i j)) Hn) in Ho; [exact Ho|intros [i j] _; reflexivity|exact Hp].
Qed.
Theorem C122_tool_places_the_queens :
  forall (F G : Type) (fo : fops F) (ro : rops G) std_sort ddiv, permutes std_sort ->
  forall random_optimizer raw_costs norm_costs pfuel sfuel buffered po pa after (g : G),
  let run := user_solve fo ro std_sort ddiv random_optimizer raw_costs norm_costs pfuel sfuel pp_all false buffered po pa after g in
  forall (D : Type) (dn : dops D) (cost : D -> Z) fs pid end_time method duration loops show_f show_value,
  ~ In newline end_time -> one_line method -> one_line duration -> one_line loops -> one_line show_f -> one_line show_value ->
  forall fuel file n t e name out,
  dops_ok dn -> reads_one dn -> cost (d_one dn) = 1 -> cost (d_zero dn) = 0 ->
  4 <= n <= int_max -> n_queens_text n = Ok t -> fs file = Some t -> (List.length (file_tokens t) <= fuel)%nat ->
  main_ dn cost run fs pid end_time method duration loops show_f show_value fuel true [file] = Finished e ->
  In (name, out) (en_files e) -> has_line out (str "\ status................: solution found") ->
  shows_queens n out /\ has_line out (str "\ Solution found: " ++ show_f (Some n)).
Proof.
  intros F G fo ro ss dd Hp ropt rc nc pfuel sfuel buf po pa after g run D dn cost fs pid et me du lo sf sv E1 E2 E3 E4 E5 E6 fuel file n t e name out H1 H2 C1 C0 Hn Ht Hfs Hf Hm Hin Hst.
  assert (Et : t = n_queens_text_body n) by (unfold n_queens_text in Ht; destruct (Z.ltb_spec n 3); [discriminate|congruence]). subst t.
  destruct (text_read dn H1 H2 n fuel ltac:(lia) Hf) as (R1 & R2 & R3 & _). destruct (queens_exist n) as [q Hq]; [lia|].
  destruct (C78_tool_answers_the_file F G fo ro ss dd Hp ropt rc nc pfuel sfuel false buf po pa after g D dn cost fs pid et me du lo sf sv E1 E2 E3 E4 E5 E6
    fuel file (n_queens_text_body n) (doc n) minimize e name out H1 Hfs R1 R2 R3) as (V & A1 & _ & A3 & A4 & A5); auto.
  - apply doc_ok; [assumption|lia].
  - apply doc_small; [assumption|lia].
  - exists (board_valuation n q). split; [|apply doc_bounds; lia]. apply (doc_satisfies dn H2 n _ q); [lia| |exact Hq]. intros c Hc. apply board_valuation_at; [lia|exact Hc].
  - discriminate.
  - destruct (shows_from D dn cost sf n out V H2 ltac:(lia) A1 A3 A4 A5) as [B1 B2]. auto.
Qed.
Print Assumptions C122_tool_places_the_queens.
(** Without the preprocessing, for every n from 3. *)
Theorem C122_without_preprocessing :
  forall (F G : Type) (fo : fops F) (ro : rops G) std_sort ddiv, permutes std_sort ->
  forall random_optimizer raw_costs norm_costs pfuel sfuel buffered po pa after (g : G),
  let run := user_solve fo ro std_sort ddiv random_optimizer raw_costs norm_costs pfuel sfuel pp_none false buffered po pa after g in
  forall (D : Type) (dn : dops D) (cost : D -> Z) fs pid end_time method duration loops show_f show_value,
  ~ In newline end_time -> one_line method -> one_line duration -> one_line loops -> one_line show_f -> one_line show_value ->
  forall fuel file n t e name out,
  dops_ok dn -> reads_one dn -> cost (d_one dn) = 1 -> cost (d_zero dn) = 0 ->
  n <= int_max -> n_queens_text n = Ok t -> fs file = Some t -> (List.length (file_tokens t) <= fuel)%nat ->
  main_ dn cost run fs pid end_time method duration loops show_f show_value fuel true [file] = Finished e ->
  In (name, out) (en_files e) -> has_line out (str "\ status................: solution found") ->
  n <> 3 /\ shows_queens n out /\ has_line out (str "\ Solution found: " ++ show_f (Some n)).
Proof.
  intros F G fo ro ss dd Hp ropt rc nc pfuel sfuel buf po pa after g run D dn cost fs pid et me du lo sf sv E1 E2 E3 E4 E5 E6 fuel file n t e name out H1 H2 C1 C0 Hn Ht Hfs Hf Hm Hin Hst.
  unfold n_queens_text in Ht. destruct (Z.ltb_spec n 3); [discriminate|]. assert (Et : t = n_queens_text_body n) by congruence. subst t.
  destruct (text_read dn H1 H2 n fuel ltac:(lia) Hf) as (R1 & R2 & R3 & _).
  destruct (C82_tool_without_preprocessing F G fo ro ss dd Hp ropt rc nc pfuel sfuel false buf po pa after g D dn cost fs pid et me du lo sf sv E1 E2 E3 E4 E5 E6
    fuel file (n_queens_text_body n) (doc n) minimize e name out H1 Hfs R1 R2 R3) as (V & A1 & A3 & A4 & A5); auto.
  - apply doc_ok; [assumption|lia].
  - apply doc_small; [assumption|lia].
  - apply doc_nonempty. lia.
  - discriminate.
  - destruct (shows_from D dn cost sf n out V H2 ltac:(lia) A1 A3 A4 A5) as [B1 B2]. split; [|auto]. destruct B1 as (q & Hq & _). intros ->. apply (proj2 (proj2 (C121_sizes 3)) q). exact Hq.
Qed.
Print Assumptions C122_without_preprocessing.
(** A run on the file of four queens, with the preprocessing and without it. *)
Definition ex_queens_run (pp : preprocessor_opt) : problem -> run_result (outcome sresult) :=
  user_solve ex_fops ex_rops insertion_sort Z.div (fun _ => Aborted) (fun _ => ex_c0 (repeat 1 16)) (fun _ => ex_cost [5; 1; 5; 5;  5; 5; 5; 1;  1; 5; 5; 5;  5; 5; 1; 5]) 40 200 pp false false
    po_none (ex_params 100 0 100 co_none) [mk_rc 0 0 0%nat] tt.
Definition ex_queens_main (pp : preprocessor_opt) : run_result ending :=
  main_ xdops (int_of xdops) (ex_queens_run pp) (fun _ => Some (n_queens_text_body 4)) (str "42") (str "now") (fun _ => str "inequalities_01") (fun _ => str "0.5s") (fun _ => str "3")
    ex_show ex_show 300 true [str "q.lp"].
Definition ex_queens_out : text := file_of
  ["\ objective : minimize"; "\ mode: linear"; "\ variables: 0/0/16 (real/general/binary)"; "\ constraints: 8/0/10 (equal/greater/less)";
   "\ solver starts: "; "\ solver finishes: now"; "\ Solution found: 4"; "\ solver................: inequalities_01";
   "\ constraints...........: 18"; "\ variables.............: 16"; "\ duration..............: 0.5s"; "\ loop..................: 3";
   "\ status................: solution found"; "\ value.................: 4"; "\ other value...........: 4 "; "\ variables.............: ";
   "x_0_0=0"; "x_0_1=1"; "x_0_2=0"; "x_0_3=0"; "x_1_0=0"; "x_1_1=0"; "x_1_2=0"; "x_1_3=1";
   "x_2_0=1"; "x_2_1=0"; "x_2_2=0"; "x_2_3=0"; "x_3_0=0"; "x_3_1=0"; "x_3_2=1"; "x_3_3=0"].
Example C122_hyps : ex_queens_main pp_all = Finished (mk_ending 0 [(str "q.lp-42.sol", ex_queens_out)] []) /\
  ex_queens_main pp_none = Finished (mk_ending 0 [(str "q.lp-42.sol", ex_queens_out)] []) /\
  int_of xdops (d_one xdops) = 1 /\ int_of xdops (d_zero xdops) = 0 /\ n_queens_text 4 = Ok (n_queens_text_body 4).
Proof. repeat split; vm_compute; reflexivity. Qed.
