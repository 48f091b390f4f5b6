(** C129: from the numbers written in a file to the value of its solution, in binary64. *)
From Coq Require Import Ascii String QArith SpecFloat.
From Verif Require Import Base Problem_model Problem_spec Merged_model Merged_spec Classify_model Preprocess_model Preprocess_spec Preprocess_props
  Validate_model Validate_spec Params_model ResultIO_model ResultIO_spec
  Lexer_model Lexer_spec Parser_model Parser_spec Parser_concrete Lexer_props Parser_props
  Writer_model Rows_model Rows_spec Rows_props Solver_model Solver_spec Solver_props EndToEnd_model EndToEnd_spec EndToEnd_props
  Main_model Main_spec Main_proofs Main_props Double_model Double_spec Double_proofs Double_props Exact_spec Exact_proofs.
Open Scope Z_scope.
Open Scope list_scope.

(** C129. As C78, when the numbers of the objective function are doubles, multiples of the same power of two, and small enough in sum:
    the value in the solution file is the sum of all the constants and of all the terms of the objective function as they are written,
    also when a variable occurs several times: neither reading the file nor reducing the problem nor adding the terms rounds. *)
Theorem C129_value_in_the_solution_file :
  forall (F G : Type) (fo : fops F) (ro : rops G) std_sort ddiv, permutes std_sort ->
  forall random_optimizer raw_costs norm_costs pfuel sfuel random buffered po pa after (g : G),
  let run := user_solve fo ro std_sort ddiv random_optimizer raw_costs norm_costs pfuel sfuel pp_all random buffered po pa after g in
  forall (dn : dops double) j fs pid end_time method duration loops show_f show_value,
  ~ In newline end_time -> one_line method -> one_line duration -> one_line loops -> one_line show_f -> one_line show_value ->
  forall fuel file t d ty e name out,
  dops_ok dn -> fs file = Some t -> readable t -> ends_plain t -> file_tokens t = document_tokens d -> document_ok dn ty d ->
  (List.length (file_tokens t) <= fuel)%nat -> small_csts dn d -> (exists V, satisfies dn V d /\ within_bounds dn V d) ->
  (random = true -> forall q, preprocess pfuel (to_problem (steps j) (meaning dn ty d)) = Ok (Some q) -> p_problem_type q <> inequalities_01 /\ p_problem_type q <> inequalities_101) ->
  adds_doubles dn -> exact_document j dn d ->
  main_ dn (steps j) run fs pid end_time method duration loops show_f show_value fuel true [file] = Finished e ->
  In (name, out) (en_files e) -> has_line out (str "\ status................: solution found") ->
  exists V : valuation, satisfies dn V d /\
    (forall nm b, In nm (document_names d) -> (has_line out (value_is nm b) <-> V nm = b)) /\
    has_line out (str "\ Solution found: " ++ show_f (Some (written_value j dn V d))).
Proof.
  intros F G fo ro std_sort ddiv Hp ropt rc nc pfuel sfuel random buffered po pa after g run dn j fs pid et me du lo sf sv E1 E2 E3 E4 E5 E6
    fuel file t d ty e name out H1 H2 H3 H4 H5 H6 H7 H8 H9 H10 Ha He H11 H12 H13.
  destruct (C78_tool_answers_the_file F G fo ro std_sort ddiv Hp ropt rc nc pfuel sfuel random buffered po pa after g double dn (steps j)
    fs pid et me du lo sf sv E1 E2 E3 E4 E5 E6 fuel file t d ty e name out H1 H2 H3 H4 H5 H6 H7 H8 H9 H10 H11 H12 H13) as (V & S & _ & N & _ & L).
  exists V. split; [exact S|]. split; [exact N|]. now rewrite (objective_at_written j dn d Ha He V) in L.
Qed.
Print Assumptions C129_value_in_the_solution_file.

(** The objective function that the reader builds is in the range of C127 and C128: the values that the solver and compute_solution
    compute for it in double are those of the written objective function, to the last bit. *)
Theorem C129_objective_read :
  forall (dn : dops double) j t fuel d ty, adds_doubles dn -> exact_document j dn d ->
  dops_ok dn -> readable t -> ends_plain t -> file_tokens t = document_tokens d -> document_ok dn ty d -> (List.length (file_tokens t) <= fuel)%nat ->
  exists p, make_problem dn fuel t = P_ok p /\
    forall V x, x = map V (v_names (rw_vars p)) ->
    (exists v, dresults (objective_read p) x = Some v /\ is_times j v (written_value j dn V d)) /\
    (x <> [] -> exists v, dcompute_solution (objective_read p) x = Some v /\ is_times j v (written_value j dn V d)).
Proof.
  intros dn j t fuel d ty Ha He H1 H3 H4 H5 H6 H7. pose proof (C22_documents_are_read dn t d ty fuel H1 H3 H4 H5 H6 H7) as R.
  exists (meaning dn ty d). split; [exact R|]. intros V x ->.
  destruct (read_exact j dn d Ha He ty) as [S B]. apply C22_every_problem_is_well_formed in R.
  pose proof (known_read (steps j) _ R) as K.
  assert (E : objective_value (assigns (map V (v_names (rw_vars (meaning dn ty d))))) (p_objective (to_problem (steps j) (meaning dn ty d))) = written_value j dn V d).
  { rewrite <- (objective_at_written j dn d Ha He V). apply lin_document. intros nm Hn. apply assigns_names. exact Hn. }
  rewrite <- E. apply C127_value_exact; [exact B|exact S|]. rewrite map_length. exact K.
Qed.
Print Assumptions C129_objective_read.

(** Doubles for the example: the number that is written, as the rounded quotient of two integers. *)
Definition of_Z (z : Z) : double := binary_normalize 53 1024 z 0 false.
Definition of_xd (d : xd) : double :=
  match d with X_num q => SFdiv 53 1024 (of_Z (Qnum q)) (of_Z (Zpos (Qden q))) | X_pinf => S754_infinity false | X_ninf => S754_infinity true | X_nan => S754_nan end.
Definition f_int (x : double) : option Z :=
  match worth x with
  | Some u => let z := Z.quot u (2 ^ 1074) in if (int_min <=? z) && (z <=? int_max) then Some z else None
  | None => None
  end.
Definition ddops : dops double :=
  mk_dops double (fun t => option_map of_xd (x_scan t)) (S754_infinity false) f_zero f_one SFopp f_add
    (fun x => SFdiv 53 1024 x (of_Z 2)) (f_mul (of_Z 2)) f_int
    (fun x => match x with S754_infinity false => true | _ => false end) (fun x => match x with S754_infinity true => true | _ => false end)
    (fun x y => f_lt y x) (fun x => match f_int x with Some z => show_int z | None => str "nan" end).
(** x - 2.5 y + 3 z + 4 w + 7 + 0.25 x, in quarters (j = 1072). *)
Definition ex_exact_lp : text := text_of
  ["Minimize"; "obj: x - 2.5 y + 3 z + 4 w + 7 + 0.25 x"; "Subject To"; "a: x + y + z = 1"; "x - y <= 0"; "w >= 1"; "Binary"; "x"; "y"; "z"; "w"; "End"]%string.
Definition ex_exact_doc : document := mk_document (str "Minimize") (Some (str "obj"))
  [O_var (un "x"); O_var (mk_term (Some Minus) (Some (str "2.5")) (str "y")); O_var (pl "3" "z"); O_var (pl "4" "w"); O_const (mk_signed (Some Plus) (str "7"));
   O_var (pl "0.25" "x")]
  (mk_header [str "Subject"; str "To"] false)
  [mk_cst (Some (str "a")) (un "x") [mk_term (Some Plus) None (str "y"); mk_term (Some Plus) None (str "z")] op_equal Sp1 (mk_signed None (str "1"));
   mk_cst None (un "x") [mk_term (Some Minus) None (str "y")] op_less Sp2 (mk_signed None (str "0"));
   mk_cst None (un "w") [] op_greater Sp2 (mk_signed None (str "1"))]
  None (Some (mk_header [str "Binary"] false, [str "x"; str "y"; str "z"; str "w"])) None (mk_header [str "End"] false).
Definition ex_exact_run : problem -> run_result (outcome sresult) :=
  user_solve ex_fops ex_rops insertion_sort Z.div (fun _ => Aborted) (fun _ => ex_c0 [5; -10; 12]) (fun _ => ex_cost [5; -10; 12]) 10 20 pp_all false false
    po_none (ex_params 10 0 100 co_none) [mk_rc 0 0 0%nat] tt.
Definition ex_exact_files (nm : text) : option text := if text_eqb nm (str "a.lp") then Some ex_exact_lp else None.
Definition ex_exact_main (files : list text) : run_result ending :=
  main_ ddops (steps 1072) ex_exact_run ex_exact_files (str "42") (str "now") (fun _ => str "inequalities_101") (fun _ => str "0.5s") (fun _ => str "3") ex_show ex_show 100 true files.
(** The value is 4 - 2.5 + 7 = 8.5, which is 34 quarters. *)
Definition ex_exact_out : text := as_file (map str
  ["\ objective : minimize"; "\ mode: linear"; "\ variables: 0/0/4 (real/general/binary)"; "\ constraints: 1/1/1 (equal/greater/less)";
   "\ solver starts: "; "\ solver finishes: now"; "\ Solution found: 34"; "\ solver................: inequalities_101";
   "\ constraints...........: 2"; "\ variables.............: 3"; "\ duration..............: 0.5s"; "\ loop..................: 3";
   "\ status................: solution found"; "\ value.................: 34"; "\ other value...........: 34 "; "\ variables.............: ";
   "w=1"; "x=0"; "y=1"; "z=0"]%string).
Example C129_run : ex_exact_main [str "a.lp"] = Finished (mk_ending 0 [(str "a.lp-42.sol", ex_exact_out)] []) /\
  has_line ex_exact_out (str "\ status................: solution found") /\ has_line ex_exact_out (str "\ Solution found: 34") /\
  written_value 1072 ddops ex_V ex_exact_doc = 34.
Proof.
  split; [vm_compute; reflexivity|]. split; [|split; [|vm_compute; reflexivity]]; unfold ex_exact_out; apply has_line_as_file.
  all: try (apply Forall_forall; intros l H; cbn [map In] in H; repeat (destruct H as [<-|H]; [vm_compute; intuition discriminate|]); destruct H).
  - cbn [map In]. tauto.
  - cbn [map In]. tauto.
Qed.
Example C129_hyps : dops_ok ddops /\ adds_doubles ddops /\ exact_document 1072 ddops ex_exact_doc /\
  ex_exact_files (str "a.lp") = Some ex_exact_lp /\ readable ex_exact_lp /\ ends_plain ex_exact_lp /\
  file_tokens ex_exact_lp = document_tokens ex_exact_doc /\ document_ok ddops minimize ex_exact_doc /\ (List.length (file_tokens ex_exact_lp) <= 100)%nat /\
  small_csts ddops ex_exact_doc /\ satisfies ddops ex_V ex_exact_doc /\ within_bounds ddops ex_V ex_exact_doc.
Proof.
  split; [vm_compute; repeat split|]. split; [split; reflexivity|].
  split.
  { split; [lia|]. split; [|vm_compute; discriminate].
    repeat (constructor; [first [exists 28; split; vm_compute; reflexivity|exists 4; split; vm_compute; reflexivity|exists (-10); split; vm_compute; reflexivity
      |exists 12; split; vm_compute; reflexivity|exists 16; split; vm_compute; reflexivity|exists 1; split; vm_compute; reflexivity]|]). constructor. }
  split; [reflexivity|]. split; [apply readable_check; vm_compute; reflexivity|]. split; [vm_compute; reflexivity|].
  split; [vm_compute; reflexivity|].
  split; [constructor; lp_check; unfold ex_exact_doc; cbn [dc_binary section_ok]; lp_check|].
  split; [vm_compute; lia|].
  split; [repeat constructor; vm_compute; congruence|]. split; [repeat constructor; vm_compute; congruence|].
  assert (H : forall nm, In nm (document_names ex_exact_doc) -> variable_of ddops ex_exact_doc nm = mk_variable_value 0 1 vt_binary).
  { intros nm Hn. vm_compute in Hn. repeat (destruct Hn as [<-|Hn]; [vm_compute; reflexivity|]). destruct Hn. }
  intros nm Hn. rewrite (H nm Hn). cbn. unfold bz. destruct (ex_V nm); lia.
Qed.
