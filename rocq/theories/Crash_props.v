(** Property theorems C151, C152 and C153: runs that are interrupted. *)
From Coq Require Import QArith Ascii String.
From Verif Require Import Base Problem_model Problem_spec Merged_model Merged_spec Classify_model Preprocess_model Preprocess_spec Preprocess_props
  Validate_model Validate_spec Validate_props Params_model ResultIO_model ResultIO_spec ResultIO_proofs ResultIO_props
  Lexer_model Lexer_spec Parser_model Parser_spec Parser_concrete Lexer_props Parser_props
  Writer_model Rows_model Rows_spec Rows_props Solver_model Solver_spec Solver_props EndToEnd_model EndToEnd_spec EndToEnd_proofs EndToEnd_props
  Main_model Main_spec Main_proofs Main_props Dynarray_model Bench_model Bench_spec Bench_props Crash_model Crash_spec Crash_proofs.
Open Scope Z_scope.
Open Scope list_scope.

(** ** C151: the solution file *)
(** C151. A solution file that is cut anywhere is either refused, or not judged to be a valid solution of the
    problem, or read as the whole file; except that, when only the value of the last line is missing, this
    variable is taken for 0. *)
Theorem C151_cut_file_partial :
  forall (header : list text) (r : result) (pb : problem) (out t : text) (rd : result),
  Forall comment_line header -> proper_result r ->
  Forall writable_name (a_names (r_affected r)) -> Forall writable_name (r_names r) ->
  List.length (v_names (p_vars pb)) = (List.length (r_names r) + List.length (a_names (r_affected r)))%nat -> v_names (p_vars pb) <> [] ->
  write_result header r = Ok out -> cut t out -> read_result t = Ok rd -> is_valid_solution pb rd = Ok true ->
  exists whole, read_result out = Ok whole /\
    (rd = whole /\ (out = t \/ out = t ++ [newline]) \/
     exists nm, without_last_value out t nm /\ r_names rd = r_names whole /\ gives rd nm false /\
       forall nm' b, nm' <> nm -> (gives rd nm' b <-> gives whole nm' b)).
Proof.
  intros header r pb out t rd Hh (Hst & (s & Hs & Hl) & Hla & Hnd) Ha Hn Hlen Hne Hw Hc Hr Hv.
  unfold write_result in Hw. rewrite Hst, Hs, (value_lines_file _ _ Hla), (value_lines_file _ _ (eq_sym Hl)) in Hw. cbn [of_opt obind] in Hw. injection Hw as Hw.
  assert (Hcomb : forall (l1 l1' : list text) (l2 l2' : list bool), List.length l1 = List.length l2 -> combine (l1 ++ l1') (l2 ++ l2') = combine l1 l2 ++ combine l1' l2').
  { induction l1 as [|? ? IHl]; intros l1' [|? ?] l2' HH; try discriminate; [reflexivity|]. cbn. f_equal. apply IHl. cbn in HH. lia. }
  assert (E : out = as_file (header ++ map line_of (combine (a_names (r_affected r) ++ r_names r) (a_values (r_affected r) ++ sl_variables s)))).
  { rewrite <- Hw, Hcomb by assumption. rewrite map_app, !as_file_app. reflexivity. }
  clear Hw. subst out.
  destruct (cut_judged header (a_names (r_affected r) ++ r_names r) (a_values (r_affected r) ++ sl_variables s) pb t rd) as [H1 H2]; try assumption.
  - apply Forall_app. split; assumption.
  - eapply Permutation_NoDup; [apply Permutation_app_comm|assumption].
  - rewrite !app_length. lia.
  - rewrite app_length. lia.
  - eexists. split; [exact H1|]. destruct H2 as [[-> (tail & E & [-> | ->])]|H2].
    + left. split; [reflexivity|]. left. rewrite app_nil_r in E. exact E.
    + left. split; [reflexivity|]. right. exact E.
    + right. exact H2.
Qed.
Print Assumptions C151_cut_file_partial.
Example C151_cut_ex : proper_result (ex_r true false) /\
  List.length (v_names (p_vars ex_pb)) = (List.length (r_names (ex_r true false)) + List.length (a_names (r_affected (ex_r true false))))%nat /\
  exists out, write_result [str "\ s"] (ex_r true false) = Ok out.
Proof. split; [apply ex_r_proper|]. split; [reflexivity|]. eexists. vm_compute. reflexivity. Qed.

(** C151. The tool is called with one file, that is read as a problem with a solution, and is stopped at any
    moment, during the run or while the solution is written. If what is left in the solution file is judged
    to be a valid solution, then the run had found a solution and what is read is this solution, except that
    the last variable may be read as 0. Missing: that exception (see [C151_refuted]). *)
Theorem C151_interrupted_run_partial :
  forall (F G : Type) (fo : fops F) (ro : rops G) std_sort ddiv, permutes std_sort ->
  forall random_optimizer raw_costs norm_costs pfuel sfuel random buffered po pa after (g : G),
  let run := user_solve fo ro std_sort ddiv random_optimizer raw_costs norm_costs pfuel sfuel pp_all random buffered po pa after g in
  forall (D : Type) (dn : dops D) (cost : D -> Z) fs pid end_time method duration loops show_f show_value,
  ~ In newline end_time -> one_line method -> one_line duration -> one_line loops -> one_line show_f -> one_line show_value ->
  forall fuel file p, let pb := to_problem cost p in
  reads_as dn fs fuel file p -> Preprocess_spec.well_formed pb -> (exists x0, solution x0 pb) -> small_sums pb ->
  v_names (p_vars pb) <> [] -> Forall writable_name (v_names (p_vars pb)) ->
  (random = true -> forall q, preprocess pfuel pb = Ok (Some q) -> p_problem_type q <> inequalities_01 /\ p_problem_type q <> inequalities_101) ->
  let name := file ++ str "-" ++ pid ++ str ".sol" in
  fs name = None ->
  forall t rd, may_leave fs (one_requests dn cost run fs pid end_time method duration loops show_f show_value fuel file) name t ->
  read_result t = Ok rd -> is_valid_solution pb rd = Ok true ->
  exists r out whole, run pb = Finished (Ok r) /\ sr_status r = st_success /\
    solution_file end_time method duration loops show_f show_value pb r = Ok out /\ read_result out = Ok whole /\
    (rd = whole \/
     exists nm, without_last_value out t nm /\ r_names rd = r_names whole /\ gives rd nm false /\
       forall nm' b, nm' <> nm -> (gives rd nm' b <-> gives whole nm' b)).
Proof.
  intros F G fo ro std_sort ddiv Hp ropt rc nc pfuel sfuel random buffered po pa after g run D dn cost fs pid et me du lo sf sv E1 E2 E3 E4 E5 E6
    fuel file p pb Hrd Hwf Hx0 Hsm Hne Hw Hrnd name Hfree t rd Hleft Hread Hval.
  destruct (one_shape dn cost run fs pid et me du lo sf sv E1 E5 fuel file p Hrd) as (qs & Hq & Hno & Hcase).
  rewrite Hq in Hleft. change (sol_name pid file) with name in *. apply (left_printed fs name qs t Hfree Hno) in Hleft.
  destruct Hcase as [(r & out & Hr & Hs & Ho & Hpr)|(_ & lines & Hl & Hpr)]; rewrite Hpr in Hleft.
  2: exfalso; exact (comments_not_valid lines t pb rd Hl Hne Hleft Hread Hval).
  fold pb in Hr, Ho.
  destruct (user_solve_answers fo ro std_sort ddiv Hp _ _ _ _ _ _ _ _ _ _ _ _ _ Hwf Hx0 (small_fits pb Hsm) Hrnd Hr Hs) as (x & v & H1 & Hl & Hna & [X HX] & _).
  destruct (reports_describes pb r x v X (proj1 (proj2 Hwf)) Hs H1 Hl Hna HX) as [Hproper Hde].
  assert (Hwn : Forall writable_name (sr_names r) /\ Forall writable_name (a_names (sr_affected r))).
  { apply Forall_app. eapply Permutation_Forall; [symmetry; apply (proj1 Hna)|assumption]. }
  pose proof (found_head_comments et me du lo sf sv E1 E2 E3 E4 E5 E6 pb r v) as Hhc.
  pose proof (solution_file_lines et me du lo sf sv pb r x v Hs H1 Hl (proj2 Hna)) as Hf. rewrite Ho in Hf.
  pose proof (write_found et me du lo sf sv pb r x v Hs H1 Hl (proj2 Hna)) as Hwr. rewrite <- Hf in Hwr.
  destruct (C151_cut_file_partial _ (to_result r) pb out t rd Hhc Hproper (proj2 Hwn) (proj1 Hwn) (proj1 Hde) Hne Hwr Hleft Hread Hval) as (whole & W1 & W2).
  exists r, out, whole. split; [exact Hr|]. split; [exact Hs|]. split; [exact Ho|]. split; [exact W1|]. destruct W2 as [[W2 _]|W2]; auto.
Qed.
Print Assumptions C151_interrupted_run_partial.

(** C151. Whatever the solver is: while it runs, when it does not answer, when an exception or an abort ends
    it, and when it answers that no solution was found, nothing that is left is judged to be a solution. *)
Theorem C151_no_answer_no_solution :
  forall (D : Type) (dn : dops D) (cost : D -> Z) run fs pid end_time method duration loops show_f show_value,
  ~ In newline end_time -> one_line show_f ->
  forall fuel file p, let pb := to_problem cost p in
  reads_as dn fs fuel file p -> v_names (p_vars pb) <> [] ->
  (forall r, run pb = Finished (Ok r) -> sr_status r <> st_success) ->
  let name := file ++ str "-" ++ pid ++ str ".sol" in
  fs name = None ->
  forall t rd, may_leave fs (one_requests dn cost run fs pid end_time method duration loops show_f show_value fuel file) name t ->
  read_result t = Ok rd -> is_valid_solution pb rd <> Ok true.
Proof.
  intros D dn cost run fs pid et me du lo sf sv E1 E5 fuel file p pb Hrd Hne Hno name Hfree t rd Hleft Hread.
  destruct (one_shape dn cost run fs pid et me du lo sf sv E1 E5 fuel file p Hrd) as (qs & Hq & Ho & Hcase).
  rewrite Hq in Hleft. change (sol_name pid file) with name in *. apply (left_printed fs name qs t Hfree Ho) in Hleft.
  destruct Hcase as [(r & out & Hr & Hs & _)|(_ & lines & Hl & Hpr)]; [exfalso; exact (Hno r Hr Hs)|]. rewrite Hpr in Hleft.
  exact (comments_not_valid lines t pb rd Hl Hne Hleft Hread).
Qed.
Print Assumptions C151_no_answer_no_solution.

(** C151. The requests are those of main(): without interruption they leave the file that main() writes. *)
Theorem C151_not_interrupted :
  forall (D : Type) (dn : dops D) (cost : D -> Z) run fs pid end_time method duration loops show_f show_value fuel file e name out,
  main_ dn cost run fs pid end_time method duration loops show_f show_value fuel true [file] = Finished e -> In (name, out) (en_files e) ->
  forall t, left_after fs (one_requests dn cost run fs pid end_time method duration loops show_f show_value fuel file) name t <-> t = out.
Proof.
  intros D dn cost run fs pid et me du lo sf sv fuel file e name out Hm Hin t.
  pose proof (one_requests_whole dn cost run fs pid et me du lo sf sv fuel file e name out Hm Hin) as H. unfold left_after. rewrite H. split.
  - intros (h & p & E & Hp & ->). injection E as <-. cbn [h_safe h_waiting] in *. apply cut_nil in Hp. subst p. apply app_nil_r.
  - intros ->. exists (mk_held out []), []. split; [reflexivity|]. split; [apply cut_refl|]. cbn. rewrite app_nil_r. reflexivity.
Qed.
Print Assumptions C151_not_interrupted.

(** C151 is false of the code: maximize x + y + z with x + y + z >= 1. The run finds x = y = z = 1, of value 3. A file
    that stops after the last equal sign is judged valid, and is another solution, of value 2. *)
Definition cx_lp : text := text_of ["Maximize"; "x + y + z"; "Subject To"; "x + y + z >= 1"; "Binary"; "x"; "y"; "z"; "End"].
Definition cx_files (nm : text) : option text := if text_eqb nm (str "a.lp") then Some cx_lp else None.
Definition cx_run : problem -> run_result (outcome sresult) :=
  user_solve ex_fops ex_rops insertion_sort Z.div (fun _ => Aborted) (fun _ => ex_c0 [1; 2; 3]) (fun _ => ex_cost [1; 2; 3]) 10 20 pp_all false false
    po_none (ex_params 10 0 100 co_none) [mk_rc 0 0 0%nat] tt.
Definition cx_requests : list request :=
  one_requests xdops (int_of xdops) cx_run cx_files (str "42") (str "now") (fun _ => str "m") (fun _ => str "0.5s") (fun _ => str "3") ex_show ex_show 100 (str "a.lp").
Definition cx_printed : text :=
  match effects (firstn 20 cx_requests) (disk_of cx_files) (str "a.lp-42.sol") with Some h => h_safe h ++ h_waiting h | None => [] end.
Definition cx_left : text := removelast (removelast cx_printed).
Theorem C151_refuted : exists p rd whole t out,
  reads_as xdops cx_files 100 (str "a.lp") p /\
  may_leave cx_files cx_requests (str "a.lp-42.sol") t /\ left_after cx_files cx_requests (str "a.lp-42.sol") out /\
  read_result t = Ok rd /\ is_valid_solution (to_problem (int_of xdops) p) rd = Ok true /\
  read_result out = Ok whole /\ is_valid_solution (to_problem (int_of xdops) p) whole = Ok true /\
  gives whole (str "z") true /\ gives rd (str "z") false /\
  compute_solution (to_problem (int_of xdops) p) whole = Ok 3 /\ compute_solution (to_problem (int_of xdops) p) rd = Ok 2.
Proof.
  eexists _, _, _, cx_left, cx_printed. split; [eexists; split; [vm_compute; reflexivity|vm_compute; reflexivity]|].
  split; [|split].
  - exists (firstn 20 cx_requests), (skipn 20 cx_requests). split; [symmetry; apply firstn_skipn|].
    exists (mk_held [] cx_printed), cx_left. split; [vm_compute; reflexivity|]. split; [exists [value_char true; nl]; vm_compute; reflexivity|]. cbn [h_safe app]. reflexivity.
  - exists (mk_held cx_printed []), []. split; [vm_compute; reflexivity|]. split; [cbn [h_waiting]; apply cut_refl|]. cbn [h_safe]. symmetry. apply app_nil_r.
  - split; [vm_compute; reflexivity|]. split; [vm_compute; reflexivity|]. split; [vm_compute; reflexivity|]. split; [vm_compute; reflexivity|].
    split; [apply gives_read; exists 2%nat; split; vm_compute; reflexivity|]. split; [apply gives_read; exists 2%nat; split; vm_compute; reflexivity|].
    split; vm_compute; reflexivity.
Qed.
Print Assumptions C151_refuted.
(** The hypotheses of the theorems hold for this file, which is not there before the run. *)
Example C151_ex : cx_files (str "a.lp-42.sol") = None /\ one_line ex_show /\ exists p r, reads_as xdops cx_files 100 (str "a.lp") p /\
  cx_run (to_problem (int_of xdops) p) = Finished (Ok r) /\ sr_status r = st_success /\ v_names (p_vars (to_problem (int_of xdops) p)) = [str "x"; str "y"; str "z"].
Proof.
  split; [reflexivity|]. split; [apply ex_show_line|]. eexists _, _. split; [eexists; split; [vm_compute; reflexivity|vm_compute; reflexivity]|].
  split; [vm_compute; reflexivity|]. split; vm_compute; reflexivity.
Qed.

(** ** C152: the results of several files *)
(** C152. The tool is called with several files and is stopped after the run of the file [f] has been answered
    and its line written (the requests made include those of the files up to [f]). What is left in the
    results file starts with all that has been written up to [f]. *)
Theorem C152_results_are_kept :
  forall (D : Type) (dn : dops D) (cost : D -> Z) run fs pid duration show_f show_value fuel before f after p r done more later out msgs t,
  let name := str "baryonyx-" ++ pid ++ str ".res" in
  reads_as dn fs fuel f p -> run (to_problem cost p) = Finished (Ok r) ->
  main_several dn cost run fs duration show_f show_value fuel (before ++ [f]) [] [] = Finished (out, msgs) ->
  several_requests dn cost run fs pid duration show_f show_value fuel (before ++ f :: after) = done ++ later ->
  done = Open_file name :: flat_map (file_requests dn cost run fs duration show_f show_value fuel name) (before ++ [f]) ++ more ->
  left_after fs done name t -> cut out t.
Proof.
  intros D dn cost run fs pid du sf sv fuel before f after p r done more later out msgs t name Hf Hr Hs Hq Hd Hl.
  eapply (several_kept dn cost run fs pid du sf sv fuel before f p r done more t out msgs Hf Hr Hs Hd); [|exact Hl].
  assert (Hall : Forall (fun q => ~ opens name q) (loop_requests dn cost run fs du sf sv fuel name (before ++ f :: after))) by apply loop_no_open.
  unfold several_requests in Hq. fold name in Hq. rewrite Hd in Hq. cbn [app] in Hq. injection Hq as Hq. rewrite Hq in Hall. apply Forall_app in Hall. destruct Hall as [Hall _].
  apply Forall_app in Hall. apply Hall.
Qed.
Print Assumptions C152_results_are_kept.
(** C152. At any moment the results file is a first part of the one that would have been written. *)
Theorem C152_never_wrong :
  forall (D : Type) (dn : dops D) (cost : D -> Z) run fs pid duration show_f show_value fuel files out msgs t,
  let name := str "baryonyx-" ++ pid ++ str ".res" in
  fs name = None -> main_several dn cost run fs duration show_f show_value fuel files [] [] = Finished (out, msgs) ->
  may_leave fs (several_requests dn cost run fs pid duration show_f show_value fuel files) name t -> cut t out.
Proof. intros D dn cost run fs pid du sf sv fuel files out msgs t name. exact (several_prefix dn cost run fs pid du sf sv fuel files t out msgs). Qed.
Print Assumptions C152_never_wrong.
(** C152. The requests are those of main(): without interruption they leave the file that main() writes. *)
Theorem C152_not_interrupted :
  forall (D : Type) (dn : dops D) (cost : D -> Z) run fs pid end_time method duration loops show_f show_value fuel files e name out,
  (2 <= List.length files)%nat ->
  main_ dn cost run fs pid end_time method duration loops show_f show_value fuel true files = Finished e -> In (name, out) (en_files e) ->
  forall t, left_after fs (several_requests dn cost run fs pid duration show_f show_value fuel files) name t <-> t = out.
Proof.
  intros D dn cost run fs pid et me du lo sf sv fuel files e name out Hlen Hm Hin t.
  destruct files as [|f1 [|f2 files]]; [cbn in Hlen; lia|cbn in Hlen; lia|]. unfold main_ in Hm. cbn [negb] in Hm.
  destruct (main_several dn cost run fs du sf sv fuel (f1 :: f2 :: files) [] []) as [[o msgs]| |] eqn:E; try discriminate. injection Hm as <-. cbn [en_files] in Hin. destruct Hin as [Hin|[]].
  assert (En : name = res_name pid) by exact (eq_sym (f_equal fst Hin)). assert (Eo : out = o) by exact (eq_sym (f_equal snd Hin)). clear Hin. subst name out.
  pose proof (several_whole dn cost run fs pid du sf sv fuel _ _ _ E) as H. unfold left_after. rewrite H. split.
  - intros (h & p & E' & Hp & ->). injection E' as <-. cbn [h_safe h_waiting] in *. apply cut_nil in Hp. subst p. apply app_nil_r.
  - intros ->. exists (mk_held o []), []. split; [reflexivity|]. split; [apply cut_refl|]. cbn [h_safe]. symmetry. apply app_nil_r.
Qed.
Print Assumptions C152_not_interrupted.
(** C152. When the tool itself dies on one of the files, nothing is asked for the files after it: the results file
    holds at most the results before this file and its name. *)
Theorem C152_dies_there :
  forall (D : Type) (dn : dops D) (cost : D -> Z) run fs pid duration show_f show_value fuel before f after out msgs,
  let name := str "baryonyx-" ++ pid ++ str ".res" in
  main_several dn cost run fs duration show_f show_value fuel before [] [] = Finished (out, msgs) ->
  (forall res, main_several dn cost run fs duration show_f show_value fuel (before ++ [f]) [] [] <> Finished res) ->
  several_requests dn cost run fs pid duration show_f show_value fuel (before ++ f :: after) =
    Open_file name :: flat_map (file_requests dn cost run fs duration show_f show_value fuel name) (before ++ [f]) /\
  forall t, fs name = None ->
    may_leave fs (several_requests dn cost run fs pid duration show_f show_value fuel (before ++ f :: after)) name t -> cut t (out ++ f ++ str " ").
Proof.
  intros D dn cost run fs pid du sf sv fuel before f after out msgs name. exact (several_dies dn cost run fs pid du sf sv fuel before f after out msgs).
Qed.
Print Assumptions C152_dies_there.
(** The run of the first of two files aborts. *)
Example C152_dies_there_ex : exists run out msgs,
  main_several xdops (int_of xdops) run cx_files (fun _ => str "0.5s") ex_show ex_show 100 [] [] [] = Finished (out, msgs) /\
  (forall res, main_several xdops (int_of xdops) run cx_files (fun _ => str "0.5s") ex_show ex_show 100 [str "a.lp"] [] [] <> Finished res) /\
  several_requests xdops (int_of xdops) run cx_files (str "42") (fun _ => str "0.5s") ex_show ex_show 100 [str "a.lp"; str "a.lp"] =
    [Open_file (str "baryonyx-42.res"); Print_to (str "baryonyx-42.res") (str "a.lp ")].
Proof. exists (fun _ => Aborted), [], []. split; [reflexivity|]. split; [|vm_compute; reflexivity]. intros res. vm_compute. discriminate. Qed.
(** Two files: the tool is stopped while the second one is solved, and the line of the first one is there. *)
Definition cx_several : list request :=
  several_requests xdops (int_of xdops) cx_run cx_files (str "42") (fun _ => str "0.5s") ex_show ex_show 100 [str "a.lp"; str "a.lp"].
Example C152_ex : exists out msgs t,
  main_several xdops (int_of xdops) cx_run cx_files (fun _ => str "0.5s") ex_show ex_show 100 [str "a.lp"] [] [] = Finished (out, msgs) /\
  out = str "a.lp 3 0.5ss 3 " ++ [newline] /\ left_after cx_files (firstn 5 cx_several) (str "baryonyx-42.res") t /\ t = out ++ str "a.l" /\
  firstn 4 cx_several = Open_file (str "baryonyx-42.res") ::
    flat_map (file_requests xdops (int_of xdops) cx_run cx_files (fun _ => str "0.5s") ex_show ex_show 100 (str "baryonyx-42.res")) [str "a.lp"].
Proof.
  eexists _, _, _. split; [vm_compute; reflexivity|]. split; [reflexivity|]. split; [|split; [reflexivity|vm_compute; reflexivity]].
  eexists _, (str "a.l"). split; [vm_compute; reflexivity|]. split; [exists (str "p "); reflexivity|reflexivity].
Qed.

(** ** C153: the table of a benchmark *)
(** C153. When a benchmark is stopped at any moment, the file of the table holds the former table, or a first
    part of the new one (nothing at all for example). It is the former one as long as the table has not been
    opened for writing, after the runs of all the models, and the new one after it has been closed. Missing:
    that a part of the new table is never left (see [C153_refuted]). *)
Theorem C153_table_partial :
  forall to_double show10 show_double std_sort run fs writable file name former,
  fs file = Some former ->
  let requests := bench_requests to_double show10 show_double std_sort run fs writable file name in
  let e := benchmark to_double show10 show_double std_sort run fs writable file name in
  (forall t, may_leave fs requests file t -> t = former \/ t = [] \/ exists new, In (file, new) (be_files e) /\ cut t new) /\
  (writable file = false \/ (forall new, ~ In (file, new) (be_files e)) /\ be_result e <> Bench_crash -> forall t, may_leave fs requests file t -> t = former) /\
  (forall new, In (file, new) (be_files e) -> forall t, left_after fs requests file t <-> t = new).
Proof.
  intros td s10 sd so run fs writable file name former Hf requests e. split; [|split].
  - intros t Ht. exact (bench_left td s10 sd so run fs writable file name former t Hf Ht).
  - intros H t (done & later & E & h & p & Hh & Hp & ->). unfold requests in E. rewrite (bench_kept td s10 sd so run fs writable file name H) in E.
    destruct done; [|discriminate E]. cbn in Hh. unfold disk_of in Hh. rewrite Hf in Hh. injection Hh as <-. cbn [h_safe h_waiting] in *. apply cut_nil in Hp. subst p. apply app_nil_r.
  - intros new Hin t. pose proof (bench_whole td s10 sd so run fs writable file name new Hin) as H. unfold left_after, requests. rewrite H. split.
    + intros (h & p & E & Hp & ->). injection E as <-. cbn [h_safe h_waiting] in *. apply cut_nil in Hp. subst p. apply app_nil_r.
    + intros ->. exists (mk_held new []), []. split; [reflexivity|]. split; [apply cut_refl|]. cbn [h_safe]. symmetry. apply app_nil_r.
Qed.
Print Assumptions C153_table_partial.
(** C153 is false of the code: the table of three models is emptied before the new one is written; a benchmark stopped
    there leaves no table at all, and one stopped a little later leaves a table that is loaded, with one model. *)
Definition bx_requests : list request :=
  bench_requests Bench_props.read0 Bench_props.show0 Bench_props.show0 Bench_props.sort0 Bench_props.run0
    (Bench_props.one_file (str "t.csv") (Bench_spec.csv_file Bench_props.solvers0 Bench_props.rows0)) (fun _ => true) (str "t.csv") (str "new").
Theorem C153_refuted :
  let former := Bench_spec.csv_file Bench_props.solvers0 Bench_props.rows0 in
  let fs := Bench_props.one_file (str "t.csv") former in
  (exists b, load Bench_props.read0 former = Some (inl b) /\ map fst (bn_models b) = [str "a"; str "b.lp"; str "c"]) /\
  may_leave fs bx_requests (str "t.csv") [] /\
  exists t b, may_leave fs bx_requests (str "t.csv") t /\ load Bench_props.read0 t = Some (inl b) /\ map fst (bn_models b) = [str "a"].
Proof.
  intros former fs. split; [|split].
  - eexists. split; [vm_compute; reflexivity|]. reflexivity.
  - exists (firstn 1 bx_requests), (skipn 1 bx_requests). split; [symmetry; apply firstn_skipn|]. eexists _, []. split; [vm_compute; reflexivity|]. split; [apply cut_refl|reflexivity].
  - exists (firstn 27 (match effects (firstn 2 bx_requests) (disk_of fs) (str "t.csv") with Some h => h_waiting h | None => [] end)). eexists. split; [|split; [vm_compute; reflexivity|vm_compute; reflexivity]].
    exists (firstn 2 bx_requests), (skipn 2 bx_requests). split; [symmetry; apply firstn_skipn|]. eexists _, _. split; [vm_compute; reflexivity|]. split; [|vm_compute; reflexivity].
    eexists. vm_compute. reflexivity.
Qed.
Print Assumptions C153_refuted.
Example C153_ex : exists new,
  In (str "t.csv", new) (be_files (benchmark Bench_props.read0 Bench_props.show0 Bench_props.show0 Bench_props.sort0 Bench_props.run0
    (Bench_props.one_file (str "t.csv") (Bench_spec.csv_file Bench_props.solvers0 Bench_props.rows0)) (fun _ => true) (str "t.csv") (str "new"))) /\
  new <> Bench_spec.csv_file Bench_props.solvers0 Bench_props.rows0.
Proof. eexists. split; [vm_compute; left; reflexivity|]. vm_compute. discriminate. Qed.
