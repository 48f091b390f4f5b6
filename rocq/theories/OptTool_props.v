(** Property theorems C109: the tool called with --optimize. *)
From Coq Require Import Ascii String QArith.
From Verif Require Import Base Problem_model Problem_spec Merged_model Merged_spec Merged_proofs Classify_model Preprocess_model Preprocess_spec Preprocess_props
  Validate_model Validate_spec Params_model Params_spec ResultIO_model ResultIO_spec
  Lexer_model Lexer_spec Parser_model Parser_spec Parser_concrete Lexer_props Parser_props
  Writer_model Rows_model Rows_spec Rows_props Solver_model Solver_spec Solver_props Pool_model Pool_spec Pool_proofs Pool_proofs2 Pool_proofs3 Pool_props
  EndToEnd_model EndToEnd_spec EndToEnd_props Cli_model Cli_props
  Main_model Main_spec Main_proofs Main_props Optimize_model Optimize_spec Optimize_props RInterface_model RInterface_props OptTool_model OptTool_proofs.
Open Scope Z_scope.
Open Scope list_scope.

(** C109. From the command line and the LP file to the solution file, with --optimize. [d] is the document that the file contains:
    its constraints can be satisfied and their coefficients are small. The parameters in force keep the preprocessing, one solution,
    no insertion in the crossover; the threads do not write the same member of the pool at the same time (there is one thread, or Q
    says so). Whatever the tuning mode, the number of threads and their schedule: if the tool ends and writes a file that has the line
    status: solution found, then that file gives one value to each name of the document and nothing else; with these values
    every constraint holds as it is written, the bounds are respected when they are those of 0/1 variables, and the value printed is
    that of the objective. Missing: the other numbers of solutions (C109_refuted), the insertion (C90_refuted). *)
Theorem C109_optimize_answers_the_file_partial :
  forall (F G : Type) (fo : fops F) (ro : rops G) std_sort ddiv hash hardware (Q : sys F G -> Prop), permutes std_sort ->
  forall (L : Type) (lib : option (library L)) solve_ optimize_ (D : Type) (dn : dops D) (cost : D -> Z) fs pid end_time method duration loops show_f show_value,
  ~ In newline end_time -> one_line method -> one_line duration -> one_line loops -> one_line show_f -> one_line show_value ->
  forall sd si sl args op,
  let m := parse_args sd si sl args in
  let p := in_force (mp_params m) in
  mp_optimize m = true -> pm_preprocessor p = pp_all -> pm_storage p = sg_one -> deq (pm_crossover_bastert p) (dofZ 0) = true ->
  optimizer_params p op -> threads_apart hardware (context_of p op) Q ->
  (forall pb r, optimize_ p pb = Finished (Ok r) -> user_optimize fo ro std_sort ddiv hash hardware Q lib (context_of p op) pb (Ok r)) ->
  forall fuel file t d ty e name out,
  mp_files m = [file] -> dops_ok dn -> fs file = Some t -> readable t -> ends_plain t -> file_tokens t = document_tokens d -> document_ok dn ty d ->
  (List.length (file_tokens t) <= fuel)%nat -> small_csts dn d -> (exists V, satisfies dn V d /\ within_bounds dn V d) ->
  tool dn cost solve_ optimize_ fs pid end_time method duration loops show_f show_value sd si sl fuel args = Finished e ->
  In (name, out) (en_files e) -> has_line out (str "\ status................: solution found") ->
  exists V : valuation, satisfies dn V d /\ (zero_one_bounds dn d -> within_bounds dn V d) /\
    (forall nm b, In nm (document_names d) -> (has_line out (value_is nm b) <-> V nm = b)) /\
    (forall l, has_line out l -> comment_line l \/ exists nm, In nm (document_names d) /\ l = value_is nm (V nm)) /\
    has_line out (str "\ Solution found: " ++ show_f (Some (objective_at dn cost V d))).
Proof.
  intros F G fo ro std_sort ddiv hash hardware Q Hp L lib so oo D dn cost fs pid et me du lo sf sv E1 E2 E3 E4 E5 E6 sd si sl args op m p
    Hopt Hpp Hst Hb (O1 & O2 & _) Hth Hrun fuel file t d ty e name out Hfile H1 H2 H3 H4 H5 H6 H7 H8 H9 H Hin Hs.
  unfold tool in H. fold m in H. fold p in H. rewrite Hfile, Hopt in H.
  destruct (mp_status m) eqn:Es; [|cbn in H; injection H as <-; destruct Hin..].
  refine (optimize_document fo ro std_sort ddiv hash hardware Q Hp dn cost lib (context_of p op) (solve_or_optimize so oo p true)
    fs pid et me du lo sf sv fuel file t d ty e name out E1 E2 E3 E4 E5 E6 Hpp _ _ Hth _ H1 H2 H3 H4 H5 H6 H7 H8 H9 H Hin Hs).
  - cbn. rewrite O1, Hst. reflexivity.
  - cbn. rewrite O2. unfold not_zero. rewrite Hb. reflexivity.
  - intros pb r Hr. apply Hrun. exact Hr.
Qed.
Print Assumptions C109_optimize_answers_the_file_partial.

(** *** The tool on min x + 2y + 3z with x + y + z = 1, one thread, one solution. *)
Definition ex_tool_doc : document := mk_document (str "Minimize") (Some (str "obj"))
  [O_var (un "x"); O_var (pl "2" "y"); O_var (pl "3" "z")] (mk_header [str "Subject"; str "To"] false)
  [mk_cst (Some (str "a")) (un "x") [mk_term (Some Plus) None (str "y"); mk_term (Some Plus) None (str "z")] op_equal Sp1 (mk_signed None (str "1"))]
  None (Some (mk_header [str "Binary"] false, [str "x"; str "y"; str "z"])) None (mk_header [str "End"] false).
Definition ex_tool_op (p : params) : oparams Z :=
  mk_oparams Z (ex_params 5 0 100 co_none) 0 1 3 (not_zero (pm_crossover_bastert p)) (not_zero (pm_mutation_value_mean p) || not_zero (pm_mutation_value_stddev p))
    (storage_of (pm_storage p)).
(** optimize() for one schedule of the thread. *)
Definition ex_tool_optimize (p : params) (pb : problem) : run_result (outcome sresult) :=
  match preprocess 10 pb with
  | Ok (Some q) =>
    match p_type q, dispatch (p_problem_type q), pm_preprocessor p, pm_solver p, pm_mode p with
    | minimize, S_equalities_01, pp_all, so_bastert, om_none =>
      match ex_sim (context_of p (ex_tool_op p)) S_equalities_01 q [tt] ex_r_schedule with Some r => Finished (Ok r) | None => Aborted end
    | _, _, _, _, _ => Aborted
    end
  | _ => Aborted
  end.
Lemma ex_tool_optimize_ok p pb r : ex_tool_optimize p pb = Finished (Ok r) ->
  user_optimize ex_fops ex_rops insertion_sort Z.div ex_hash 1 any (None : option (library Z)) (context_of p (ex_tool_op p)) pb (Ok r).
Proof.
  unfold ex_tool_optimize. destruct (preprocess 10 pb) as [[q|]| |] eqn:Eq; try discriminate.
  destruct (p_type q) eqn:Et; try discriminate. destruct (dispatch (p_problem_type q)) eqn:Ed; try discriminate.
  destruct (pm_preprocessor p) eqn:Ep; try discriminate. destruct (pm_solver p) eqn:Es; try discriminate. destruct (pm_mode p) eqn:Em; try discriminate.
  destruct (ex_sim _ _ _ _ _) as [r'|] eqn:Er; try discriminate. intros H. injection H as <-.
  eapply uo_preprocessed; [exact Ep|exact Eq|]. unfold optimize_prepared. replace (oc_mode (context_of p (ex_tool_op p))) with 0 by (cbn; rewrite Em; reflexivity).
  cbn [has_mode Z.land Z.eqb negb]. change (itm_optimize ex_fops ex_rops insertion_sort Z.div ex_hash 1 any (context_of p (ex_tool_op p)) q (Ok r')).
  apply io_bastert; [cbn; rewrite Es; reflexivity|]. cbn [context_of oc_buffered]. rewrite Ed. eapply ex_sim_ok; eassumption.
Qed.
Definition ex_tool_line (storage : string) : list text :=
  map str ["-O"; "--param"; "init-crossover-bastert-insertion=0"; "--param"; "init-mutation-value-mean=0"; "--param"; "init-mutation-value-stddev=0";
           "--param"; "storage-type=" ++ storage; "p.lp"]%string.
Definition ex_tool (storage : string) : run_result ending :=
  tool xdops (int_of xdops) (fun _ _ => Aborted) ex_tool_optimize ex_r_files (str "42") (str "now") (fun _ => str "equalities_01") (fun _ => str "0.5s") (fun _ => str "3")
    ex_show ex_show x_double x_int x_int 100 (ex_tool_line storage).
Definition ex_tool_head (v : string) : list string :=
  ["\ objective : minimize"; "\ mode: linear"; "\ variables: 0/0/3 (real/general/binary)"; "\ constraints: 1/0/0 (equal/greater/less)";
   "\ solver starts: "; "\ solver finishes: now"; "\ Solution found: " ++ v; "\ solver................: equalities_01";
   "\ constraints...........: 1"; "\ variables.............: 3"; "\ duration..............: 0.5s"; "\ loop..................: 3"]%string.
Definition ex_tool_file (v others x y z : string) : text :=
  file_of (ex_tool_head v ++ ["\ status................: solution found"; "\ value.................: " ++ v; "\ other value...........: " ++ others;
           "\ variables.............: "; "x=" ++ x; "y=" ++ y; "z=" ++ z]%string).
Lemma ex_tool_status v others x y z : has_line (ex_tool_file v others x y z) (str "\ status................: solution found").
Proof.
  split; [vm_compute; intuition discriminate|]. unfold ex_tool_file, file_of. rewrite map_app, concat_app.
  exists (file_of (ex_tool_head v)). unfold file_of. cbn [map List.concat]. rewrite <- !app_assoc. cbn [app].
  eexists. split; [reflexivity|]. right. exists (List.concat (map (fun s => str s ++ [newline]) (removelast (ex_tool_head v))) ++ str "\ loop..................: 3").
  unfold ex_tool_head. cbn [map List.concat removelast]. rewrite !app_nil_r, <- !app_assoc. reflexivity.
Qed.
Lemma ex_tool_doc_ok : file_tokens ex_r_lp = document_tokens ex_tool_doc /\ document_ok xdops minimize ex_tool_doc.
Proof. split; [vm_compute; reflexivity|]. constructor; lp_check; unfold ex_tool_doc; cbn [dc_binary section_ok]; lp_check. Qed.
(** The hypotheses of C109 for storage-type=one, and the file written. *)
Example C109_hyps :
  let m := parse_args x_double x_int x_int (ex_tool_line "one") in
  let p := in_force (mp_params m) in
  mp_optimize m = true /\ pm_preprocessor p = pp_all /\ pm_storage p = sg_one /\ deq (pm_crossover_bastert p) (dofZ 0) = true /\
  optimizer_params p (ex_tool_op p) /\ threads_apart 1 (context_of p (ex_tool_op p)) (@any Z unit) /\
  (forall pb r, ex_tool_optimize p pb = Finished (Ok r) ->
    user_optimize ex_fops ex_rops insertion_sort Z.div ex_hash 1 any (None : option (library Z)) (context_of p (ex_tool_op p)) pb (Ok r)) /\
  mp_files m = [str "p.lp"] /\ dops_ok xdops /\ ex_r_files (str "p.lp") = Some ex_r_lp /\ readable ex_r_lp /\ ends_plain ex_r_lp /\
  file_tokens ex_r_lp = document_tokens ex_tool_doc /\ document_ok xdops minimize ex_tool_doc /\ (List.length (file_tokens ex_r_lp) <= 100)%nat /\
  small_csts xdops ex_tool_doc /\ (exists V, satisfies xdops V ex_tool_doc /\ within_bounds xdops V ex_tool_doc) /\ zero_one_bounds xdops ex_tool_doc /\
  ex_tool "one" = Finished (mk_ending 0 [(str "p.lp-42.sol", ex_tool_file "1" "1 " "1" "0" "0")] []).
Proof.
  cbv zeta. split; [vm_compute; reflexivity|]. split; [vm_compute; reflexivity|]. split; [vm_compute; reflexivity|]. split; [vm_compute; reflexivity|].
  split; [repeat split|]. split; [left; vm_compute; reflexivity|]. split; [intros pb r; apply ex_tool_optimize_ok|]. split; [vm_compute; reflexivity|].
  split; [repeat split|]. split; [reflexivity|]. split; [apply readable_check; vm_compute; reflexivity|]. split; [vm_compute; reflexivity|].
  split; [apply ex_tool_doc_ok|]. split; [apply ex_tool_doc_ok|]. split; [vm_compute; lia|].
  split; [repeat constructor; vm_compute; congruence|].
  assert (H : forall nm, In nm (document_names ex_tool_doc) -> variable_of xdops ex_tool_doc nm = mk_variable_value 0 1 vt_binary).
  { intros nm Hn. vm_compute in Hn. repeat (destruct Hn as [<-|Hn]; [vm_compute; reflexivity|]). destruct Hn. }
  split; [exists (fun nm => text_eqb nm (str "y")); split; [repeat constructor; vm_compute; congruence|]|].
  - intros nm Hn. rewrite (H nm Hn). cbn [v_min v_max]. unfold bz. destruct (text_eqb nm (str "y")); lia.
  - split; [intros nm Hn; cbv zeta; rewrite (H nm Hn); left; cbn; lia|]. vm_compute. reflexivity.
Qed.
(** storage-type=bound, one thread, no insertion, no mutation: the file says that a solution is found, of value 0, and its values do
    not satisfy the constraint x + y + z = 1. It is the worst member of the pool. *)
Theorem C109_refuted :
  exists (F G D L : Type) (fo : fops F) (ro : rops G) std_sort ddiv hash (lib : option (library L)) solve_ optimize_ (dn : dops D) cost fs show_f sd si sl args op fuel file t d ty name out,
  let m := parse_args sd si sl args in
  let p := in_force (mp_params m) in
  permutes std_sort /\ shuffles ro /\ mp_optimize m = true /\ pm_preprocessor p = pp_all /\ pm_storage p = sg_bound /\ deq (pm_crossover_bastert p) (dofZ 0) = true /\
  optimizer_params p op /\ threads_apart 1 (context_of p op) (@any F G) /\
  (forall pb r, optimize_ p pb = Finished (Ok r) -> user_optimize fo ro std_sort ddiv hash 1 any lib (context_of p op) pb (Ok r)) /\
  mp_files m = [file] /\ dops_ok dn /\ fs file = Some t /\ readable t /\ ends_plain t /\ file_tokens t = document_tokens d /\ document_ok dn ty d /\
  small_csts dn d /\ (exists V, satisfies dn V d /\ within_bounds dn V d) /\
  tool dn cost solve_ optimize_ fs (str "42") (str "now") (fun _ => str "equalities_01") (fun _ => str "0.5s") (fun _ => str "3") show_f show_f sd si sl fuel args =
    Finished (mk_ending 0 [(name, out)] []) /\
  has_line out (str "\ status................: solution found") /\
  forall V : valuation, (forall nm, In nm (document_names d) -> has_line out (value_is nm (V nm))) -> ~ satisfies dn V d.
Proof.
  eexists Z, unit, _, Z, ex_fops, ex_rops, insertion_sort, Z.div, ex_hash, None, (fun _ _ => Aborted), ex_tool_optimize, xdops, (int_of xdops), ex_r_files, ex_show,
    x_double, x_int, x_int, (ex_tool_line "bound"), (ex_tool_op (in_force (mp_params (parse_args x_double x_int x_int (ex_tool_line "bound"))))), 100%nat, (str "p.lp"),
    ex_r_lp, ex_tool_doc, minimize, (str "p.lp-42.sol"), (ex_tool_file "0" "1 0 " "0" "0" "0").
  destruct C109_hyps as (_ & _ & _ & _ & _ & _ & _ & _ & H1 & H2 & H3 & H4 & H5 & H6 & _ & H7 & H8 & _).
  cbv zeta. split; [exact ex_sort_permutes|]. split; [exact ex_shuffles|].
  split; [vm_compute; reflexivity|]. split; [vm_compute; reflexivity|]. split; [vm_compute; reflexivity|]. split; [vm_compute; reflexivity|].
  split; [repeat split|]. split; [left; vm_compute; reflexivity|]. split; [intros pb r; apply ex_tool_optimize_ok|]. split; [vm_compute; reflexivity|].
  do 8 (split; [assumption|]). split; [vm_compute; reflexivity|]. split; [apply ex_tool_status|].
  intros V HV Hs.
  assert (Hno : forall nm, In nm (document_names ex_tool_doc) -> V nm = false).
  { intros nm Hn. specialize (HV nm Hn). destruct (V nm); [exfalso|reflexivity]. revert HV.
    set (ls := map str (ex_tool_head "0" ++ ["\ status................: solution found"; "\ value.................: 0"; "\ other value...........: 1 0 ";
      "\ variables.............: "; "x=0"; "y=0"; "z=0"]%string)).
    change (ex_tool_file "0" "1 0 " "0" "0" "0") with (as_file ls). rewrite has_line_as_file.
    - intros K. vm_compute in Hn. repeat (destruct Hn as [<-|Hn]; [vm_compute in K; repeat (destruct K as [K|K]; [discriminate K|]); exact K|]). exact Hn.
    - subst ls. cbn [map app ex_tool_head]. repeat (constructor; [vm_compute; intuition discriminate|]). constructor. }
  unfold satisfies, ex_tool_doc in Hs. cbn [dc_constraints] in Hs. inversion Hs as [|k l Hk _]; subst. vm_compute in Hk.
  pose proof (Hno (str "x")) as Hx. pose proof (Hno (str "y")) as Hy. pose proof (Hno (str "z")) as Hz. vm_compute in Hx, Hy, Hz.
  rewrite Hx, Hy, Hz in Hk by auto. discriminate.
Qed.
Print Assumptions C109_refuted.
