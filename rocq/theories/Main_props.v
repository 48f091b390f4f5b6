(** The theorems about the command line tool. *)
From Coq Require Import Ascii String.
From Verif Require Import Base Problem_model Problem_spec Merged_model Merged_spec Classify_model Preprocess_model Preprocess_spec Preprocess_props
  Validate_model Validate_spec Params_model ResultIO_model ResultIO_spec
  Lexer_model Lexer_spec Parser_model Parser_spec Parser_concrete Lexer_props Parser_props
  Writer_model Rows_model Rows_spec Rows_props Solver_model Solver_spec Solver_props EndToEnd_model EndToEnd_spec EndToEnd_props
  Main_model Main_spec Main_proofs.
Open Scope Z_scope.
Open Scope list_scope.

(** C77. When solve() has found a solution, the solution file that is written can be read back;
    what is read is judged a valid solution of the problem; for a linear objective, the value
    computed from what is read is the one printed in the file. Whatever is printed for times,
    methods and numbers (on one line). Default solver; random solver on equality problems. *)
Theorem C77_solution_file_is_valid :
  forall (F G : Type) (fo : fops F) (ro : rops G) std_sort ddiv, permutes std_sort ->
  forall random_optimizer raw_costs norm_costs pfuel fuel random buffered po pa after (g : G) pb r,
  Preprocess_spec.well_formed pb -> (exists x0, solution x0 pb) -> small_sums pb ->
  v_names (p_vars pb) <> [] -> Forall writable_name (v_names (p_vars pb)) ->
  (random = true -> forall q, preprocess pfuel pb = Ok (Some q) -> p_problem_type q <> inequalities_01 /\ p_problem_type q <> inequalities_101) ->
  user_solve fo ro std_sort ddiv random_optimizer raw_costs norm_costs pfuel fuel pp_all random buffered po pa after g pb = Finished (Ok r) ->
  sr_status r = st_success ->
  forall end_time method duration loops show_f show_value,
  ~ In newline end_time -> one_line method -> one_line duration -> one_line loops -> one_line show_f -> one_line show_value ->
  exists out r', solution_file end_time method duration loops show_f show_value pb r = Ok out /\
    read_result out = Ok r' /\ is_valid_solution pb r' = Ok true /\
    (linear_objective pb -> exists v, compute_solution pb r' = Ok v /\
       exists before after, out = before ++ str "\ Solution found: " ++ show_f (Some v) ++ [newline] ++ after).
Proof.
  intros F G fo ro std_sort ddiv Hp ropt rc nc pfuel fuel random buffered po pa after g pb r H1 H2 H3 H4 H5 H6 H7 H8 et me du lo sf sv E1 E2 E3 E4 E5 E6.
  exact (file_reads_back et me du lo sf sv E1 E2 E3 E4 E5 E6 fo ro std_sort ddiv Hp ropt rc nc pfuel fuel random buffered po pa after g pb r H1 H2 H3 H4 H5 H6 H7 H8).
Qed.
Print Assumptions C77_solution_file_is_valid.

(** C78. From the LP file to the solution file. [d] is the document that the file [file] contains:
    its constraints can be satisfied and their coefficients are small. If the tool, called with
    this file, ends and writes a file that has the line "status: solution found", then that file
    gives one value to each name of the document and nothing else; with these values every
    constraint holds as it is written, the bounds are respected when they are those of 0/1
    variables, and the value printed is that of the objective. *)
Theorem C78_tool_answers_the_file :
  forall (F G : Type) (fo : fops F) (ro : rops G) std_sort ddiv, permutes std_sort ->
  forall random_optimizer raw_costs norm_costs pfuel sfuel random buffered po pa after (g : G),
  let run := user_solve fo ro std_sort ddiv random_optimizer raw_costs norm_costs pfuel sfuel pp_all random buffered po pa after g in
  forall (D : Type) (dn : dops D) (cost : D -> Z) fs pid end_time method duration loops show_f show_value,
  ~ In newline end_time -> one_line method -> one_line duration -> one_line loops -> one_line show_f -> one_line show_value ->
  forall fuel file t d ty e name out,
  dops_ok dn -> fs file = Some t -> readable t -> ends_plain t -> file_tokens t = document_tokens d -> document_ok dn ty d ->
  (List.length (file_tokens t) <= fuel)%nat -> small_csts dn d -> (exists V, satisfies dn V d /\ within_bounds dn V d) ->
  (random = true -> forall q, preprocess pfuel (to_problem cost (meaning dn ty d)) = Ok (Some q) -> p_problem_type q <> inequalities_01 /\ p_problem_type q <> inequalities_101) ->
  main_ dn cost run fs pid end_time method duration loops show_f show_value fuel true [file] = Finished e ->
  In (name, out) (en_files e) -> has_line out (str "\ status................: solution found") ->
  exists V : valuation, satisfies dn V d /\ (zero_one_bounds dn d -> within_bounds dn V d) /\
    (forall nm b, In nm (document_names d) -> (has_line out (value_is nm b) <-> V nm = b)) /\
    (forall l, has_line out l -> comment_line l \/ exists nm, In nm (document_names d) /\ l = value_is nm (V nm)) /\
    has_line out (str "\ Solution found: " ++ show_f (Some (objective_at dn cost V d))).
Proof.
  intros F G fo ro std_sort ddiv Hp ropt rc nc pfuel sfuel random buffered po pa after g run D dn cost fs pid et me du lo sf sv E1 E2 E3 E4 E5 E6
    fuel file t d ty e name out.
  exact (one_document et me du lo sf sv E1 E2 E3 E4 E5 E6 fo ro std_sort ddiv Hp dn cost fs pid ropt rc nc pfuel sfuel random buffered po pa after g fuel file t d ty e name out).
Qed.
Print Assumptions C78_tool_answers_the_file.

(** *** Examples: an LP file, and the whole run. *)
Definition ex_main_lp : text := text_of
  ["Minimize"; "obj: x - 2 y + 3 z + 4 w + 7"; "Subject To"; "a: x + y + z = 1"; "x - y <= 0"; "w >= 1"; "Binary"; "x"; "y"; "z"; "w"; "End"].
Definition ex_main_doc : document := mk_document (str "Minimize") (Some (str "obj"))
  [O_var (un "x"); O_var (mk_term (Some Minus) (Some (str "2")) (str "y")); O_var (pl "3" "z"); O_var (pl "4" "w"); O_const (mk_signed (Some Plus) (str "7"))]
  (mk_header [str "Subject"; str "To"] false)
  [mk_cst (Some (str "a")) (un "x") [mk_term (Some Plus) None (str "y"); mk_term (Some Plus) None (str "z")] op_equal Sp1 (mk_signed None (str "1"));
   mk_cst None (un "x") [mk_term (Some Minus) None (str "y")] op_less Sp2 (mk_signed None (str "0"));
   mk_cst None (un "w") [] op_greater Sp2 (mk_signed None (str "1"))]
  None (Some (mk_header [str "Binary"] false, [str "x"; str "y"; str "z"; str "w"])) None (mk_header [str "End"] false).
Definition ex_files (nm : text) : option text := if text_eqb nm (str "a.lp") then Some ex_main_lp else None.
Definition ex_show (v : option Z) : text := match v with Some z => show_int z | None => str "nan" end.
Definition ex_run : problem -> run_result (outcome sresult) :=
  user_solve ex_fops ex_rops insertion_sort Z.div (fun _ => Aborted) (fun _ => ex_c0 [1; -2; 3]) (fun _ => ex_cost [1; -2; 3]) 10 20 pp_all false false
    po_none (ex_params 10 0 100 co_none) [mk_rc 0 0 0%nat] tt.
Definition ex_main (files : list text) : run_result ending :=
  main_ xdops (int_of xdops) ex_run ex_files (str "42") (str "now") (fun _ => str "inequalities_101") (fun _ => str "0.5s") (fun _ => str "3") ex_show ex_show 100 true files.
Definition file_of (l : list string) : text := List.concat (map (fun s => str s ++ [newline]) l).
Example ex_main_run : ex_main [str "a.lp"] = Finished (mk_ending 0 [(str "a.lp-42.sol", file_of
  ["\ objective : minimize"; "\ mode: linear"; "\ variables: 0/0/4 (real/general/binary)"; "\ constraints: 1/1/1 (equal/greater/less)";
   "\ solver starts: "; "\ solver finishes: now"; "\ Solution found: 9"; "\ solver................: inequalities_101";
   "\ constraints...........: 2"; "\ variables.............: 3"; "\ duration..............: 0.5s"; "\ loop..................: 3";
   "\ status................: solution found"; "\ value.................: 9"; "\ other value...........: 9 "; "\ variables.............: ";
   "w=1"; "x=0"; "y=1"; "z=0"])] []).
Proof. vm_compute. reflexivity. Qed.
Lemma ex_main_ok : document_ok xdops minimize ex_main_doc.
Proof. constructor; lp_check; unfold ex_main_doc; cbn [dc_binary section_ok]; lp_check. Qed.
Lemma ex_show_line : one_line ex_show.
Proof. intros [z|]; cbn [ex_show]; [apply show_int_line|vm_compute; intuition discriminate]. Qed.
Definition ex_V : valuation := fun nm => text_eqb nm (str "y") || text_eqb nm (str "w").
Example C78_ex : dops_ok xdops /\ ex_files (str "a.lp") = Some ex_main_lp /\ readable ex_main_lp /\ ends_plain ex_main_lp /\
  file_tokens ex_main_lp = document_tokens ex_main_doc /\ document_ok xdops minimize ex_main_doc /\ (List.length (file_tokens ex_main_lp) <= 100)%nat /\
  small_csts xdops ex_main_doc /\ satisfies xdops ex_V ex_main_doc /\ within_bounds xdops ex_V ex_main_doc /\ zero_one_bounds xdops ex_main_doc.
Proof.
  split; [repeat split|]. split; [reflexivity|]. split; [apply readable_check; vm_compute; reflexivity|]. split; [vm_compute; reflexivity|].
  split; [vm_compute; reflexivity|]. split; [apply ex_main_ok|]. split; [vm_compute; lia|].
  split; [repeat constructor; vm_compute; congruence|]. split; [repeat constructor; vm_compute; congruence|].
  assert (H : forall nm, In nm (document_names ex_main_doc) -> variable_of xdops ex_main_doc nm = mk_variable_value 0 1 vt_binary).
  { intros nm Hn. vm_compute in Hn. repeat (destruct Hn as [<-|Hn]; [vm_compute; reflexivity|]). destruct Hn. }
  split.
  - intros nm Hn. rewrite (H nm Hn). cbn. unfold bz. destruct (ex_V nm); lia.
  - intros nm Hn. cbv zeta. rewrite (H nm Hn). left. cbn. lia.
Qed.
(** The conclusions are not about an empty set of files: the solution file has its status line. *)
Example C78_ex_status : exists out, ex_main [str "a.lp"] = Finished (mk_ending 0 [(str "a.lp-42.sol", out)] []) /\
  has_line out (str "\ status................: solution found").
Proof.
  eexists. split; [exact ex_main_run|].
  split; [vm_compute; intuition discriminate|].
  exists (file_of ["\ objective : minimize"; "\ mode: linear"; "\ variables: 0/0/4 (real/general/binary)"; "\ constraints: 1/1/1 (equal/greater/less)";
   "\ solver starts: "; "\ solver finishes: now"; "\ Solution found: 9"; "\ solver................: inequalities_101";
   "\ constraints...........: 2"; "\ variables.............: 3"; "\ duration..............: 0.5s"; "\ loop..................: 3"]), (file_of
   ["\ value.................: 9"; "\ other value...........: 9 "; "\ variables.............: "; "w=1"; "x=0"; "y=1"; "z=0"]).
  split; [vm_compute; reflexivity|]. right. match goal with |- exists b, ?t = _ => exists (removelast t) end. vm_compute. reflexivity.
Qed.
(** The hypotheses of C77 hold for the problem of this file. *)
Example C77_ex : exists r, let pb := to_problem (int_of xdops) (meaning xdops minimize ex_main_doc) in
  ex_run pb = Finished (Ok r) /\ sr_status r = st_success /\ Preprocess_spec.well_formed pb /\ small_sums pb /\
  v_names (p_vars pb) <> [] /\ Forall writable_name (v_names (p_vars pb)) /\ linear_objective pb /\ (exists x0, solution x0 pb).
Proof.
  destruct C78_ex as (H1 & _ & H2 & H3 & H4 & H5 & H6 & H7 & H8 & H9 & _).
  eexists. cbv zeta. split; [vm_compute; reflexivity|]. split; [reflexivity|].
  split; [apply to_problem_wf; apply (C22_every_problem_is_well_formed xdops ex_main_lp 100); apply C22_documents_are_read; assumption|].
  split; [apply small_sums_document; assumption|]. split; [vm_compute; discriminate|].
  split; [|split; [reflexivity|]].
  - apply Forall_forall. intros nm Hn. apply plain_writable. apply (name_ok_plain xdops). apply (document_names_ok' xdops minimize ex_main_doc); assumption.
  - exists (fun i => ex_V (nth i (document_names ex_main_doc) [])).
    assert (Hb : by_name (document_names ex_main_doc) (fun i => ex_V (nth i (document_names ex_main_doc) [])) ex_V).
    { intros nm Hn. vm_compute in Hn. repeat (destruct Hn as [<-|Hn]; [vm_compute; reflexivity|]). destruct Hn. }
    split; [apply (feasible_satisfies xdops (int_of xdops) minimize ex_main_doc _ _ Hb); assumption|apply (bounds_within xdops (int_of xdops) minimize ex_main_doc _ _ Hb); assumption].
Qed.

(** C78 needs a document that can be satisfied (C16): x = 1 and x = 0, and the tool says that it
    found a solution. *)
Definition ex_unsat_lp : text := text_of ["Minimize"; "x"; "Subject To"; "x = 1"; "x = 0"; "Binary"; "x"; "End"].
Definition ex_unsat_doc : document := mk_document (str "Minimize") None [O_var (un "x")] (mk_header [str "Subject"; str "To"] false)
  [mk_cst None (un "x") [] op_equal Sp1 (mk_signed None (str "1")); mk_cst None (un "x") [] op_equal Sp1 (mk_signed None (str "0"))]
  None (Some (mk_header [str "Binary"] false, [str "x"])) None (mk_header [str "End"] false).
Theorem C78_refuted_unsatisfiable : exists out,
  main_ xdops (int_of xdops) ex_run (fun _ => Some ex_unsat_lp) (str "42") (str "now") (fun _ => str "") (fun _ => str "") (fun _ => str "") ex_show ex_show 100 true [str "u.lp"] =
    Finished (mk_ending 0 [(str "u.lp-42.sol", out)] []) /\
  file_tokens ex_unsat_lp = document_tokens ex_unsat_doc /\ document_ok xdops minimize ex_unsat_doc /\ (forall V, ~ satisfies xdops V ex_unsat_doc) /\
  exists before after, out = before ++ str "\ status................: solution found" ++ after.
Proof.
  eexists. split; [vm_compute; reflexivity|]. split; [vm_compute; reflexivity|].
  split; [constructor; lp_check; unfold ex_unsat_doc; cbn [dc_binary section_ok]; lp_check|]. split.
  - intros V H. unfold satisfies, ex_unsat_doc in H. cbn [dc_constraints] in H. inversion H as [|k l H1 H2]; subst. inversion H2 as [|k' l' H3 H4]; subst.
    vm_compute in H1, H3. destruct (V (str "x")) eqn:E; vm_compute in E; rewrite E in H1, H3; discriminate.
  - match goal with |- exists b a, ?t = _ => exists (firstn (List.length t - List.length (skipn (List.length (file_of ["\ objective : minimize"; "\ mode: linear"; "\ variables: 0/0/1 (real/general/binary)"; "\ constraints: 2/0/0 (equal/greater/less)"; "\ solver starts: "; "\ solver finishes: now"; "\ Solution found: 1"; "\ solver................: "; "\ constraints...........: 0"; "\ variables.............: 0"; "\ duration..............: "; "\ loop..................: "])) t)) t) end.
    eexists. vm_compute. reflexivity.
Qed.
Print Assumptions C78_refuted_unsatisfiable.

(** C82, for the tool. Without preprocessing, the document need not be known satisfiable: if the
    tool writes that it found a solution, the values it writes satisfy every constraint. *)
Theorem C82_tool_without_preprocessing :
  forall (F G : Type) (fo : fops F) (ro : rops G) std_sort ddiv, permutes std_sort ->
  forall random_optimizer raw_costs norm_costs pfuel sfuel random buffered po pa after (g : G),
  let run := user_solve fo ro std_sort ddiv random_optimizer raw_costs norm_costs pfuel sfuel pp_none random buffered po pa after g in
  forall (D : Type) (dn : dops D) (cost : D -> Z) fs pid end_time method duration loops show_f show_value,
  ~ In newline end_time -> one_line method -> one_line duration -> one_line loops -> one_line show_f -> one_line show_value ->
  forall fuel file t d ty e name out,
  dops_ok dn -> fs file = Some t -> readable t -> ends_plain t -> file_tokens t = document_tokens d -> document_ok dn ty d ->
  (List.length (file_tokens t) <= fuel)%nat -> small_csts dn d -> dc_constraints d <> [] ->
  (random = true -> which_problem_type (to_problem cost (meaning dn ty d)) <> inequalities_01 /\ which_problem_type (to_problem cost (meaning dn ty d)) <> inequalities_101) ->
  main_ dn cost run fs pid end_time method duration loops show_f show_value fuel true [file] = Finished e ->
  In (name, out) (en_files e) -> has_line out (str "\ status................: solution found") ->
  exists V : valuation, satisfies dn V d /\
    (forall nm b, In nm (document_names d) -> (has_line out (value_is nm b) <-> V nm = b)) /\
    (forall l, has_line out l -> comment_line l \/ exists nm, In nm (document_names d) /\ l = value_is nm (V nm)) /\
    has_line out (str "\ Solution found: " ++ show_f (Some (objective_at dn cost V d))).
Proof.
  intros F G fo ro std_sort ddiv Hp ropt rc nc pfuel sfuel random buffered po pa after g run D dn cost fs pid et me du lo sf sv E1 E2 E3 E4 E5 E6
    fuel file t d ty e name out.
  exact (plain_document et me du lo sf sv E1 E2 E3 E4 E5 E6 fo ro std_sort ddiv Hp dn cost fs pid ropt rc nc pfuel sfuel random buffered po pa after g fuel file t d ty e name out).
Qed.
Print Assumptions C82_tool_without_preprocessing.
Definition ex_plain_main (files : list text) : run_result ending :=
  main_ xdops (int_of xdops) (fun pb => ex_plain_solve pb [1; -2; 3; 4]) ex_files (str "42") (str "now") (fun _ => str "inequalities_101") (fun _ => str "0.5s") (fun _ => str "3") ex_show ex_show 100 true files.
Example C82_tool_ex : exists out, ex_plain_main [str "a.lp"] = Finished (mk_ending 0 [(str "a.lp-42.sol", out)] []) /\
  dc_constraints ex_main_doc <> [] /\ exists before, out = before ++ file_of ["x=0"; "y=1"; "z=0"; "w=1"].
Proof.
  eexists. split; [vm_compute; reflexivity|]. split; [discriminate|].
  match goal with |- exists b, ?t = _ => exists (firstn (List.length t - 16) t) end. vm_compute. reflexivity.
Qed.

(** C79. The exit status tells a failure. Proved: it does for the command line; for the files,
    each failure (a file that cannot be read, an exception) has its message, and only they. *)
Theorem C79_failures_have_messages_partial :
  forall (D : Type) (dn : dops D) (cost : D -> Z) run fs pid end_time method duration loops show_f show_value fuel ok files e,
  main_ dn cost run fs pid end_time method duration loops show_f show_value fuel ok files = Finished e ->
  (en_code e = 0 <-> ok = true) /\ (ok = false -> en_code e = 1 /\ en_messages e = [Bad_command_line] /\ en_files e = []) /\
  (ok = true -> forall m, In m (en_messages e) <->
    (m = No_file_name /\ files = []) \/
    exists f, In f files /\ ((m = Cannot_read f /\ unreadable dn fs fuel f) \/
      (m = Exception_ f /\ exists p, reads_as dn fs fuel f p /\ run (to_problem cost p) = Finished Throw))).
Proof. exact @main_messages. Qed.
Print Assumptions C79_failures_have_messages_partial.
(** False for the files: a file that does not exist, and the status is 0. *)
Theorem C79_refuted : exists e, ex_main [str "missing.lp"] = Finished e /\ unreadable xdops ex_files 100 (str "missing.lp") /\
  en_code e = 0 /\ en_files e = [].
Proof. eexists. split; [vm_compute; reflexivity|]. split; [left; reflexivity|]. split; reflexivity. Qed.
Print Assumptions C79_refuted.

(** C80. With several files, the results file has one line for each file, in order, that starts
    with its name and tells the value of its last solution, or that there is none. Proved when every file is
    read and solved without exception. *)
Theorem C80_one_line_per_file_partial :
  forall (D : Type) (dn : dops D) (cost : D -> Z) run fs pid end_time method duration loops show_f show_value fuel files e,
  one_line duration -> one_line show_f -> one_line show_value -> Forall (fun f => ~ In newline f) files -> (2 <= List.length files)%nat ->
  (forall f, In f files -> exists p r, reads_as dn fs fuel f p /\ run (to_problem cost p) = Finished (Ok r)) ->
  main_ dn cost run fs pid end_time method duration loops show_f show_value fuel true files = Finished e ->
  exists lines, en_files e = [(str "baryonyx-" ++ pid ++ str ".res", List.concat (map (fun l => l ++ [newline]) lines))] /\
    Forall (fun l => ~ In newline l) lines /\
    Forall2 (fun f l => exists p r t, reads_as dn fs fuel f p /\ run (to_problem cost p) = Finished (Ok r) /\ l = f ++ str " " ++ t /\
      (sr_status r = st_success -> exists t' v, t = show_f v ++ str " " ++ t' /\ snd (List.last (sr_solutions r) ([], None)) = v) /\
      (sr_status r <> st_success -> t = str "No solution found.")) files lines.
Proof. exact @main_results_file. Qed.
Print Assumptions C80_one_line_per_file_partial.
Example C80_ex : exists e, ex_main [str "a.lp"; str "a.lp"] = Finished e /\
  en_files e = [(str "baryonyx-42.res", file_of ["a.lp 9 0.5ss 9 "; "a.lp 9 0.5ss 9 "])].
Proof. eexists. split; vm_compute; reflexivity. Qed.
(** False otherwise: a file that cannot be read leaves no trace; after an exception (here from
    the preprocessor: x + y + z is 1 and 2) the line is not ended, and the next file goes on it. *)
Definition ex_bad_lp : text := text_of ["min"; "x"; "st"; "x + y + z = 1"; "x + y + z = 2"; "binary"; "x"; "y"; "z"; "end"].
Definition ex_files2 (nm : text) : option text := if text_eqb nm (str "b.lp") then Some ex_bad_lp else ex_files nm.
Definition ex_main2 (files : list text) : run_result ending :=
  main_ xdops (int_of xdops) ex_run ex_files2 (str "42") (str "now") (fun _ => str "inequalities_101") (fun _ => str "0.5s") (fun _ => str "3") ex_show ex_show 100 true files.
Theorem C80_refuted : exists e, ex_main2 [str "missing.lp"; str "b.lp"; str "a.lp"] = Finished e /\
  en_files e = [(str "baryonyx-42.res", file_of ["b.lp a.lp 9 0.5ss 9 "])] /\ en_code e = 0 /\
  en_messages e = [Cannot_read (str "missing.lp"); Exception_ (str "b.lp")].
Proof. eexists. split; [vm_compute; reflexivity|]. split; [|split]; vm_compute; reflexivity. Qed.
Print Assumptions C80_refuted.

(** C81. The summary at the top of every solution file counts the variables of each type and the
    constraints of each kind. *)
Theorem C81_summary_counts :
  forall end_time method duration loops show_f show_value pb r out,
  ~ In newline end_time -> one_line method -> one_line duration -> one_line loops -> one_line show_f -> one_line show_value ->
  solution_file end_time method duration loops show_f show_value pb r = Ok out ->
  let n_of t := show_int (of_type t (v_values (p_vars pb))) in
  let size {A} (l : list A) := show_int (Z.of_nat (List.length l)) in
  exists rest, out = str "\ objective : " ++ match p_type pb with maximize => str "maximize" | minimize => str "minimize" end ++ [newline] ++
    str "\ mode: " ++ match o_qelements (p_objective pb) with [] => str "linear" | _ => str "quadratic" end ++ [newline] ++
    str "\ variables: " ++ n_of vt_real ++ str "/" ++ n_of vt_general ++ str "/" ++ n_of vt_binary ++ str " (real/general/binary)" ++ [newline] ++
    str "\ constraints: " ++ size (p_equal pb) ++ str "/" ++ size (p_greater pb) ++ str "/" ++ size (p_less pb) ++ str " (equal/greater/less)" ++ [newline] ++ rest.
Proof. exact summary_counts. Qed.
Print Assumptions C81_summary_counts.
Theorem C81_types_partition : forall l, of_type vt_real l + of_type vt_general l + of_type vt_binary l = Z.of_nat (List.length l).
Proof. exact types_partition. Qed.
Print Assumptions C81_types_partition.
