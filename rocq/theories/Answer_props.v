(** C135: the tool answers a satisfiable document with coefficients 1 and -1, and answers it with an optimum when its constraints are independent. *)
From Coq Require Import Ascii String.
From Verif Require Import Base Problem_model Problem_spec Merged_model Merged_spec Merged_proofs Classify_model Preprocess_model Preprocess_spec Preprocess_props
  Validate_model Validate_spec Params_model ResultIO_model ResultIO_spec
  Rows_model Rows_spec Rows_props Greedy_spec Greedy_props Cost_spec Solver_model Solver_spec Solver_props EndToEnd_model EndToEnd_spec EndToEnd_props
  Push_spec Push_props Separable_spec Separable_props Returns_props
  Lexer_model Lexer_spec Parser_model Parser_spec Parser_concrete Lexer_props Parser_props Writer_model
  Main_model Main_spec Main_proofs Main_props Answer_spec Answer_proofs.
Open Scope Z_scope.
Open Scope list_scope.

(** C135. [d] is the document that the file contains: each variable appears once in a constraint, with the coefficient 1 or -1, the bounds are those
    of 0/1 variables, and some values within the bounds satisfy every constraint. The tool, called with this file, ends with the status 0, prints no
    error and writes one file. Either this file says that a solution is found: its values satisfy the document within the bounds, each name has
    exactly one, and the value printed is that of the objective function. Or it says that none is found, and counts 2147483647 missing constraints
    (C50: the number was never set). Default solver with preprocessing; any order of the constraints but pi-sign-change, any initial assignment,
    pushes, kappa, theta, delta, floats and random draws; the limit of the iterations is not negative. *)
Theorem C135_tool_answers :
  forall (F G : Type) (fo : fops F) (ro : rops G) std_sort ddiv, permutes std_sort -> shuffles ro ->
  forall random_optimizer raw_costs norm_costs pfuel sfuel po pa after (g : G),
  let run := user_solve fo ro std_sort ddiv random_optimizer raw_costs norm_costs pfuel sfuel pp_all false false po pa after g in
  forall (D : Type) (dn : dops D) (cost : D -> Z) fs pid end_time method duration loops show_f show_value,
  ~ In newline end_time -> one_line method -> one_line duration -> one_line loops -> one_line show_f -> one_line show_value ->
  forall fuel file t d ty,
  dops_ok dn -> fs file = Some t -> readable t -> ends_plain t -> file_tokens t = document_tokens d -> document_ok dn ty d ->
  (List.length (file_tokens t) <= fuel)%nat -> unit_csts dn d -> small_csts dn d -> zero_one_bounds dn d ->
  (exists V, satisfies dn V d /\ within_bounds dn V d) -> (List.length (document_names d) < pfuel)%nat ->
  let pb := to_problem cost (meaning dn ty d) in
  (forall q v, preprocess pfuel pb = Ok (Some q) -> (v < List.length (v_values (p_vars q)))%nat -> exists f, raw_costs q v = Some f) ->
  (forall q, preprocess pfuel pb = Ok (Some q) -> cost_defined (List.length (v_values (p_vars q))) (norm_costs q)) ->
  after <> [] -> pa_order pa <> co_pi_sign_change -> 0 <= pa_limit pa < Z.of_nat sfuel ->
  exists out,
    main_ dn cost run fs pid end_time method duration loops show_f show_value fuel true [file] =
      Finished (mk_ending 0 [(file ++ str "-" ++ pid ++ str ".sol", out)] []) /\
    ((has_line out (str "\ status................: solution found") /\
      exists V : valuation, satisfies dn V d /\ within_bounds dn V d /\
        (forall nm b, In nm (document_names d) -> (has_line out (value_is nm b) <-> V nm = b)) /\
        (forall l, has_line out l -> comment_line l \/ exists nm, In nm (document_names d) /\ l = value_is nm (V nm)) /\
        has_line out (str "\ Solution found: " ++ show_f (Some (objective_at dn cost V d)))) \/
     (~ has_line out (str "\ status................: solution found") /\
      has_line out (str "\ Solution not found. Missing constraints: 2147483647"))).
Proof.
  intros F G fo ro std_sort ddiv Hp Hsh ropt rc nc pfuel sfuel po pa after g run D dn cost fs pid et me du lo sf sv E1 E2 E3 E4 E5 E6 fuel file t d ty.
  intros H1 H2 H3 H4 H5 H6 H7 H8 H9 H10 H11 H12 pb.
  exact (tool_answers fo ro std_sort ddiv Hp Hsh dn cost fs pid et me du lo sf sv E1 E2 E3 E4 E5 E6 ropt rc nc pfuel sfuel po pa after g fuel file t d ty
    H1 H2 H3 H4 H5 H6 H7 H8 H9 H10 H11 H12).
Qed.
Print Assumptions C135_tool_answers.

(** With independent constraints (two that share a variable have the same left-hand side), the parameters of C131 and costs that keep the order of the
    coefficients, the file holds an optimal solution of the document: no values that satisfy it within the bounds have a better objective. *)
Theorem C135_tool_optimum :
  forall (F G : Type) (fo : fops F) (ro : rops G) std_sort ddiv, permutes std_sort -> sorts std_sort -> shuffles ro -> ordered_floats fo -> never_mutates ro ->
  forall random_optimizer raw_costs norm_costs pfuel sfuel po pa after (g : G) zero,
  let run := user_solve fo ro std_sort ddiv random_optimizer raw_costs norm_costs pfuel sfuel pp_all false false po pa after g in
  forall (D : Type) (dn : dops D) (cost : D -> Z) fs pid end_time method duration loops show_f show_value,
  ~ In newline end_time -> one_line method -> one_line duration -> one_line loops -> one_line show_f -> one_line show_value ->
  forall fuel file t d ty,
  dops_ok dn -> fs file = Some t -> readable t -> ends_plain t -> file_tokens t = document_tokens d -> document_ok dn ty d ->
  (List.length (file_tokens t) <= fuel)%nat -> unit_csts dn d -> apart_csts dn d -> small_csts dn d -> zero_one_bounds dn d ->
  (exists V, satisfies dn V d /\ within_bounds dn V d) -> (List.length (document_names d) < pfuel)%nat ->
  let pb := to_problem cost (meaning dn ty d) in
  zeros fo (pa_theta pa) zero ->
  (forall q, preprocess pfuel pb = Ok (Some q) -> scaled_costs fo (p_objective q) (List.length (v_values (p_vars q))) (norm_costs q)) ->
  (forall q, preprocess pfuel pb = Ok (Some q) -> scaled_costs fo (p_objective q) (List.length (v_values (p_vars q))) (fun v _ => raw_costs q v)) ->
  after <> [] -> violated_order (pa_order pa) -> pa_init pa = ip_bastert -> 0 < pa_limit pa < Z.of_nat sfuel ->
  exists out (V : valuation),
    main_ dn cost run fs pid end_time method duration loops show_f show_value fuel true [file] =
      Finished (mk_ending 0 [(file ++ str "-" ++ pid ++ str ".sol", out)] []) /\
    satisfies dn V d /\ within_bounds dn V d /\
    (forall V', satisfies dn V' d -> within_bounds dn V' d ->
       match ty with minimize => objective_at dn cost V d <= objective_at dn cost V' d | maximize => objective_at dn cost V d >= objective_at dn cost V' d end) /\
    has_line out (str "\ status................: solution found") /\
    (forall nm b, In nm (document_names d) -> (has_line out (value_is nm b) <-> V nm = b)) /\
    (forall l, has_line out l -> comment_line l \/ exists nm, In nm (document_names d) /\ l = value_is nm (V nm)) /\
    has_line out (str "\ Solution found: " ++ show_f (Some (objective_at dn cost V d))).
Proof.
  intros F G fo ro std_sort ddiv Hp Hso Hsh Hof Hnm ropt rc nc pfuel sfuel po pa after g zero run D dn cost fs pid et me du lo sf sv E1 E2 E3 E4 E5 E6 fuel file t d ty.
  intros H1 H2 H3 H4 H5 H6 H7 H8 Hap H9 H10 H11 H12 pb.
  exact (tool_optimum fo ro std_sort ddiv Hp Hsh dn cost fs pid et me du lo sf sv E1 E2 E3 E4 E5 E6 ropt rc nc pfuel sfuel po pa after g fuel file t d ty
    H1 H2 H3 H4 H5 H6 H7 H8 H9 H10 H11 H12 zero Hso Hof Hnm Hap).
Qed.
Print Assumptions C135_tool_optimum.

(** *** Example: an LP file whose constraints are independent; the hypotheses of both theorems hold of it. *)
Definition an_lp : text := text_of
  ["Maximize"; "obj: 3 a - 2 b + 4 c + d - e + 2 f + 5"; "Subject To"; "r: a - b + c <= 1"; "s: a - b + c >= 0"; "d + e = 1"; "f >= 1";
   "Binary"; "a"; "b"; "c"; "d"; "e"; "f"; "End"].
Definition an_doc : document := mk_document (str "Maximize") (Some (str "obj"))
  [O_var (mk_term None (Some (str "3")) (str "a")); O_var (mk_term (Some Minus) (Some (str "2")) (str "b")); O_var (pl "4" "c");
   O_var (mk_term (Some Plus) None (str "d")); O_var (mk_term (Some Minus) None (str "e")); O_var (pl "2" "f"); O_const (mk_signed (Some Plus) (str "5"))]
  (mk_header [str "Subject"; str "To"] false)
  [mk_cst (Some (str "r")) (un "a") [mk_term (Some Minus) None (str "b"); mk_term (Some Plus) None (str "c")] op_less Sp2 (mk_signed None (str "1"));
   mk_cst (Some (str "s")) (un "a") [mk_term (Some Minus) None (str "b"); mk_term (Some Plus) None (str "c")] op_greater Sp2 (mk_signed None (str "0"));
   mk_cst None (un "d") [mk_term (Some Plus) None (str "e")] op_equal Sp1 (mk_signed None (str "1"));
   mk_cst None (un "f") [] op_greater Sp2 (mk_signed None (str "1"))]
  None (Some (mk_header [str "Binary"] false, [str "a"; str "b"; str "c"; str "d"; str "e"; str "f"])) None (mk_header [str "End"] false).
Definition an_files (nm : text) : option text := if text_eqb nm (str "a.lp") then Some an_lp else None.
Definition an_V : valuation := fun nm => text_eqb nm (str "e") || text_eqb nm (str "f").
Lemma an_ok : document_ok xdops maximize an_doc.
Proof. constructor; lp_check; unfold an_doc; cbn [dc_binary section_ok]; lp_check. Qed.
Lemma an_variable nm : In nm (document_names an_doc) -> variable_of xdops an_doc nm = mk_variable_value 0 1 vt_binary.
Proof. intros Hn. vm_compute in Hn. repeat (destruct Hn as [<-|Hn]; [vm_compute; reflexivity|]). destruct Hn. Qed.
Example C135_ex : dops_ok xdops /\ an_files (str "a.lp") = Some an_lp /\ readable an_lp /\ ends_plain an_lp /\
  file_tokens an_lp = document_tokens an_doc /\ document_ok xdops maximize an_doc /\ (List.length (file_tokens an_lp) <= 100)%nat /\
  unit_csts xdops an_doc /\ apart_csts xdops an_doc /\ small_csts xdops an_doc /\ zero_one_bounds xdops an_doc /\
  satisfies xdops an_V an_doc /\ within_bounds xdops an_V an_doc /\ (List.length (document_names an_doc) < 20)%nat.
Proof.
  split; [repeat split|]. split; [reflexivity|]. split; [apply readable_check; vm_compute; reflexivity|]. split; [vm_compute; reflexivity|].
  split; [vm_compute; reflexivity|]. split; [apply an_ok|]. split; [vm_compute; lia|].
  split.
  { repeat (apply Forall_cons; [split; [repeat (constructor; [vm_compute; intuition discriminate|]); constructor
      |repeat (apply Forall_cons; [vm_compute; first [left; reflexivity|right; reflexivity]|]); apply Forall_nil]|]). apply Forall_nil. }
  split.
  { intros k k' nm Hk Hk' Hn Hn'. cbn [an_doc dc_constraints In] in Hk, Hk'.
    destruct Hk as [<-|[<-|[<-|[<-|[]]]]], Hk' as [<-|[<-|[<-|[<-|[]]]]]; try reflexivity; exfalso;
      vm_compute in Hn, Hn'; repeat (destruct Hn as [<-|Hn]; [intuition discriminate|]); destruct Hn. }
  split; [repeat constructor; vm_compute; congruence|].
  split; [intros nm Hn; cbv zeta; rewrite (an_variable nm Hn); left; cbn; lia|].
  split; [repeat constructor; vm_compute; congruence|]. split; [|vm_compute; lia].
  intros nm Hn. rewrite (an_variable nm Hn). cbn. unfold bz. destruct (an_V nm); lia.
Qed.
Notation an_main po pa := (main_ xdops (int_of xdops)
  (user_solve ex_fops ex_rops insertion_sort Z.div (fun _ => Aborted) lin_costs (fun p v _ => lin_costs p v) 20%nat 60%nat pp_all false false po pa [mk_rc 0 0 0%nat] tt)
  an_files (str "42") (str "now") (fun _ => str "m") (fun _ => str "0.5s") (fun _ => str "3") ex_show ex_show 100%nat true [str "a.lp"]) (only parsing).
(** C135_tool_answers with the order infeasibility-decr, the optimistic initial assignment and pushes. *)
Example C135_ex_answers : exists out, an_main po_p2 ret_params = Finished (mk_ending 0 [(str "a.lp-42.sol", out)] []).
Proof.
  destruct C135_ex as (H1 & H2 & H3 & H4 & H5 & H6 & H7 & H8 & _ & H9 & H10 & H11 & H12 & H13).
  assert (Q : forall u : text, ~ In newline u -> one_line (fun _ : sresult => u)) by (intros u Hu r; exact Hu).
  destruct (C135_tool_answers Z unit ex_fops ex_rops insertion_sort Z.div ex_sort_permutes ex_shuffles (fun _ => Aborted) lin_costs (fun p v _ => lin_costs p v)
    20%nat 60%nat po_p2 ret_params [mk_rc 0 0 0%nat] tt xd xdops (int_of xdops) an_files (str "42") (str "now") (fun _ => str "m") (fun _ => str "0.5s") (fun _ => str "3") ex_show ex_show
    ltac:(vm_compute; intuition discriminate) (Q (str "m") ltac:(vm_compute; intuition discriminate)) (Q (str "0.5s") ltac:(vm_compute; intuition discriminate))
    (Q (str "3") ltac:(vm_compute; intuition discriminate)) ex_show_line ex_show_line 100%nat (str "a.lp") an_lp an_doc maximize H1 H2 H3 H4 H5 H6 H7 H8 H9 H10 (ex_intro _ an_V (conj H11 H12)) H13)
    as (out & E & _).
  - intros q v _ _. eexists. reflexivity.
  - intros q _ v x _ _. eexists. reflexivity.
  - discriminate.
  - discriminate.
  - cbn. lia.
  - exists out. exact E.
Qed.
(** C135_tool_optimum with the parameters of C131: 3 - 2 + 4 + 1 + 2 + 5 = 13 is the largest value. *)
Example C135_ex_optimum : exists out, an_main po_p1 sep_params = Finished (mk_ending 0 [(str "a.lp-42.sol", out)] []) /\ has_line out (str "\ Solution found: 13").
Proof.
  destruct C135_ex as (H1 & H2 & H3 & H4 & H5 & H6 & H7 & H8 & Hap & H9 & H10 & H11 & H12 & H13).
  assert (Q : forall u : text, ~ In newline u -> one_line (fun _ : sresult => u)) by (intros u Hu r; exact Hu).
  destruct (C135_tool_optimum Z unit ex_fops ex_rops insertion_sort Z.div ex_sort_permutes insertion_sort_sorts ex_shuffles ex_ordered (fun g => eq_refl)
    (fun _ => Aborted) lin_costs (fun p v _ => lin_costs p v)
    20%nat 60%nat po_p1 sep_params [mk_rc 0 0 0%nat] tt (fun z => z = 0) xd xdops (int_of xdops) an_files (str "42") (str "now") (fun _ => str "m") (fun _ => str "0.5s") (fun _ => str "3") ex_show ex_show
    ltac:(vm_compute; intuition discriminate) (Q (str "m") ltac:(vm_compute; intuition discriminate)) (Q (str "0.5s") ltac:(vm_compute; intuition discriminate))
    (Q (str "3") ltac:(vm_compute; intuition discriminate)) ex_show_line ex_show_line 100%nat (str "a.lp") an_lp an_doc maximize H1 H2 H3 H4 H5 H6 H7 H8 Hap H9 H10 (ex_intro _ an_V (conj H11 H12)) H13)
    as (out & V & E & S1 & _ & O & _ & _ & _ & L).
  - exact ex_zeros.
  - intros q _. apply ex_scaled.
  - intros q _. apply ex_scaled.
  - discriminate.
  - split; discriminate.
  - reflexivity.
  - cbn. lia.
  - exists out. split; [exact E|].
    assert (V13 : objective_at xdops (int_of xdops) V an_doc = 13); [|rewrite V13 in L; exact L].
    specialize (O (fun nm => negb (text_eqb nm (str "e")))). cbn iota in O.
    assert (B : within_bounds xdops (fun nm => negb (text_eqb nm (str "e"))) an_doc).
    { intros nm Hn. rewrite (an_variable nm Hn). cbn. unfold bz. destruct (negb _); lia. }
    specialize (O ltac:(repeat constructor; vm_compute; congruence) B).
    unfold satisfies in S1. cbn [an_doc dc_constraints] in S1. inversion S1 as [|? ? C1 S2]; subst. inversion S2 as [|? ? C2 S3]; subst. inversion S3 as [|? ? C3 _]; subst.
    assert (E13 : objective_at xdops (int_of xdops) (fun nm => negb (text_eqb nm (str "e"))) an_doc = 13) by (vm_compute; reflexivity).
    rewrite E13 in O. clear - O C1 C3. revert C1 C3 O. vm_compute.
    repeat match goal with |- context [V ?n] => destruct (V n) end; vm_compute; intros C1 C3 O; try reflexivity; exfalso; first [exact (O eq_refl)|discriminate C3|exact (C1 eq_refl)].
Qed.
