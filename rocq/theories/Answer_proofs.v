(** The tool on a satisfiable document with coefficients 1 and -1: total correctness. *)
From Coq Require Import Ascii String Permutation.
From Verif Require Import Base Problem_model Problem_spec Merged_model Merged_spec Classify_model Preprocess_model Preprocess_spec Preprocess_props
  Validate_model Validate_spec Validate_proofs Params_model ResultIO_model ResultIO_spec ResultIO_proofs ResultIO_props
  Chars_spec Lexer_model Lexer_spec Parser_model Parser_spec Parser_proofs Parser_proofs2 Parser_proofs5 Parser_proofs7 Parser_props
  Writer_model Rows_model Rows_spec Greedy_spec Cost_spec Solver_model Solver_spec EndToEnd_model EndToEnd_spec EndToEnd_proofs Main_model Main_spec Main_proofs
  Push_spec Separable_spec Separable_props Returns_proofs Returns_props Lexer_spec Parser_spec Answer_spec.
Open Scope Z_scope.
Open Scope list_scope.

Section Document.
Context {D : Type} (dn : dops D) (cost : D -> Z).

Lemma firsts_same l : NoDup l -> firsts l = l.
Proof.
  intros H. induction H as [|x l Hn H IH]; [reflexivity|]. cbn [firsts]. rewrite IH. f_equal. clear IH H.
  induction l as [|y l IH]; [reflexivity|]. cbn [filter]. destruct (Parser_proofs.text_eqb_spec x y) as [E|E].
  - exfalso. apply Hn. left. symmetry. exact E.
  - cbn [negb]. f_equal. apply IH. intros K. apply Hn. right. exact K.
Qed.
Lemma terms_of_none nm l : ~ In nm (map t_var l) -> terms_of nm l = [].
Proof.
  induction l as [|t l IH]; intros H; [reflexivity|]. unfold terms_of in *. cbn [filter]. destruct (Parser_proofs.text_eqb_spec (t_var t) nm) as [E|E].
  - exfalso. apply H. left. exact E.
  - apply IH. intros K. apply H. right. exact K.
Qed.
Lemma terms_of_one l t : NoDup (map t_var l) -> In t l -> terms_of (t_var t) l = [t].
Proof.
  induction l as [|t' l IH]; intros H Ht; [destruct Ht|]. cbn [map] in H. inversion H as [|? ? Hn H']; subst. unfold terms_of in *. cbn [filter].
  destruct Ht as [->|Ht].
  - rewrite Parser_proofs.text_eqb_refl. f_equal. apply (terms_of_none (t_var t) l Hn).
  - destruct (Parser_proofs.text_eqb_spec (t_var t') (t_var t)) as [E|E]; [|apply IH; assumption]. exfalso. apply Hn. rewrite E. apply in_map. exact Ht.
Qed.
Lemma elements_unique names l : NoDup (map t_var l) -> elements_of dn names l = map (fun t => mk_felem (coefficient dn t) (position (t_var t) names)) l.
Proof.
  intros H. unfold elements_of. rewrite firsts_same by exact H. rewrite map_map. apply map_ext_in. intros t Ht. rewrite terms_of_one by assumption.
  cbn [map fold_left]. f_equal.
Qed.

Variables (ty : objective_type) (d : document).
Let pb := to_problem cost (meaning dn ty d).
Let N := document_names d.
Lemma constraint_from c : In c (all_constraints pb) -> exists id k, In k (dc_constraints d) /\ c = constraint_of dn N id k.
Proof.
  intros Hc. unfold all_constraints, pb, to_problem, meaning in Hc. cbn in Hc.
  repeat (apply in_app_or in Hc; destruct Hc as [Hc|Hc]); apply constraints_of_in in Hc; destruct Hc as (id & k & Hk & _ & ->); eauto.
Qed.
Lemma unit_problem : unit_csts dn d -> unit_coefficients pb.
Proof.
  intros H c e Hc He. destruct (constraint_from c Hc) as (id & k & Hk & ->). unfold unit_csts in H. rewrite Forall_forall in H. destruct (H k Hk) as [H1 H2].
  cbn [constraint_of c_elements] in He. rewrite elements_unique in He by exact H1. apply in_map_iff in He. destruct He as (t & <- & Ht). cbn [f_factor].
  rewrite Forall_forall in H2. apply H2. exact Ht.
Qed.
Lemma apart_problem : unit_csts dn d -> apart_csts dn d -> separate pb.
Proof.
  intros Hu Ha c c' e e' Hc Hc' He He' Hv. destruct (constraint_from c Hc) as (id & k & Hk & ->), (constraint_from c' Hc') as (id' & k' & Hk' & ->).
  unfold unit_csts in Hu. rewrite Forall_forall in Hu. destruct (Hu k Hk) as [N1 _], (Hu k' Hk') as [N2 _].
  cbn [constraint_of c_elements] in *. rewrite elements_unique in He by assumption. rewrite elements_unique in He' by assumption. rewrite !elements_unique by assumption.
  apply in_map_iff in He, He'. destruct He as (t & <- & Ht), He' as (t' & <- & Ht'). cbn [f_var] in Hv.
  assert (E : t_var t = t_var t').
  { pose proof (position_nth (t_var t) N (document_terms d k t Hk Ht)) as P1. pose proof (position_nth (t_var t') N (document_terms d k' t' Hk' Ht')) as P2.
    rewrite Hv in P1. congruence. }
  assert (M : map (fun t => (t_var t, coefficient dn t)) (cst_terms k) = map (fun t => (t_var t, coefficient dn t)) (cst_terms k')).
  { apply (Ha k k' (t_var t) Hk Hk'); [apply in_map; exact Ht|rewrite E; apply in_map; exact Ht']. }
  pose proof (f_equal (map (fun p => mk_felem (snd p) (position (fst p) N))) M) as M'. rewrite !map_map in M'. exact M'.
Qed.
(** A valuation and the assignment with the same values. *)
Definition val (V : valuation) (i : nat) : bool := match nth_error N i with Some nm => V nm | None => false end.
Lemma val_by_name V : by_name N (val V) V.
Proof. intros nm Hnm. unfold val. rewrite position_nth by assumption. reflexivity. Qed.
Lemma val_solution V : satisfies dn V d -> within_bounds dn V d -> solution (val V) pb.
Proof.
  intros V1 V2. split; [apply (feasible_satisfies dn cost ty d (val V) V (val_by_name V)); assumption
                       |apply (bounds_within dn cost ty d (val V) V (val_by_name V)); assumption].
Qed.
End Document.

Section Tool.
Context {F G : Type} (fo : fops F) (ro : rops G)
        (std_sort : forall A : Type, (A -> A -> bool) -> list A -> list A) (ddiv : Z -> Z -> Z).
Hypothesis Hperm : permutes std_sort.
Hypothesis Hshuf : shuffles ro.
Context {D : Type} (dn : dops D) (cost : D -> Z).
Variables (fs : text -> option text) (pid : text).
Variables (end_time : text) (method duration loops : sresult -> text) (show_f show_value : option Z -> text).
Hypothesis He : ~ In newline end_time.
Hypothesis Hm : one_line method.
Hypothesis Hd : one_line duration.
Hypothesis Hlo : one_line loops.
Hypothesis Hsf : one_line show_f.
Hypothesis Hsv : one_line show_value.

Lemma before_run_lines pb : Forall (fun l => ~ In newline l) (before_run pb).
Proof. eapply Forall_impl; [|apply before_run_comments]. intros l H. apply H. Qed.

(** The run of the tool when solve() returns [r]. *)
Lemma main_returns run fuel file t d ty r :
  let pb := to_problem cost (meaning dn ty d) in
  dops_ok dn -> fs file = Some t -> readable t -> ends_plain t -> file_tokens t = document_tokens d -> document_ok dn ty d ->
  (List.length (file_tokens t) <= fuel)%nat -> run pb = Finished (Ok r) ->
  sr_status r <> st_success \/ (exists x v, sr_solutions r = [(x, v)] /\ List.length x = List.length (sr_names r) /\ names_all r pb) ->
  exists out, main_ dn cost run fs pid end_time method duration loops show_f show_value fuel true [file] =
                Finished (mk_ending 0 [(file ++ str "-" ++ pid ++ str ".sol", out)] []) /\
    (sr_status r = st_success -> has_line out status_line) /\
    (sr_status r <> st_success -> has_line out (str "\ Solution not found. Missing constraints: " ++ show_int (sr_remaining r))) /\
    (sr_status r <> st_success -> ~ has_line out status_line).
Proof.
  intros pb Hdn Hfs R1 R2 R3 Hok Hfuel Hrun Hr.
  assert (Hmk : make_problem dn fuel t = P_ok (meaning dn ty d)) by (apply make_problem_document; assumption).
  cbn [main_ negb]. unfold main_one, read_file. rewrite Hfs, Hmk. fold pb. rewrite Hrun.
  assert (Hnl : forall n, ~ In newline (show_int n)) by (intros n; apply show_int_line).
  assert (Hsd : sr_status r = st_success \/ sr_status r <> st_success) by (destruct (sr_status r); auto; right; discriminate).
  destruct Hsd as [Hs|Hs].
  - destruct Hr as [Hr|(x & v & Hx & Hl & Hna)]; [contradiction|].
    rewrite (solution_file_lines end_time method duration loops show_f show_value pb r x v Hs Hx Hl (proj2 Hna)).
    eexists. split; [reflexivity|]. split; [|split; intros K; contradiction]. intros _.
    apply has_line_as_file.
    + apply Forall_app. split; [eapply Forall_impl; [|apply (found_head_comments end_time method duration loops show_f show_value He Hm Hd Hlo Hsf Hsv pb r v)]; intros l HH; apply HH|].
      destruct (document_names_ok dn ty d Hok) as [Hnok Hnd].
      assert (Hpn : Forall plain_name (v_names (p_vars pb))) by (eapply Forall_impl; [|exact Hnok]; intros nm; apply name_ok_plain).
      apply Forall_forall. intros l Hll. unfold values_of in Hll. apply in_app_or in Hll.
      destruct Hll as [Hll|Hll]; apply in_map_iff in Hll; destruct Hll as ([nm b] & <- & Hc); apply value_is_line;
        apply in_combine_l in Hc; rewrite Forall_forall in Hpn; apply Hpn; (eapply Permutation_in; [exact (proj1 Hna)|]); apply in_or_app; auto.
    + apply in_or_app. left. unfold found_head. apply in_or_app. right. cbn. tauto.
  - assert (E : solution_file end_time method duration loops show_f show_value pb r =
        Ok (as_file ((before_run pb ++ [str "\ solver finishes: " ++ end_time]) ++ [str "\ Solution not found. Missing constraints: " ++ show_int (sr_remaining r)]))).
    { unfold solution_file. destruct (sr_status r); congruence. }
    rewrite E. eexists. split; [reflexivity|]. split; [intros K; contradiction|].
    split; [|intros _; apply (not_found_file end_time method duration loops show_f show_value He pb r); assumption]. intros _. apply has_line_as_file.
    + apply Forall_app. split; [apply Forall_app; split; [apply before_run_lines|]|]; (constructor; [|constructor]).
      * intros K. apply in_app_or in K. destruct K as [K|K]; [|exact (He K)]. cbn in K. intuition discriminate.
      * intros K. apply in_app_or in K. destruct K as [K|K]; [|exact (Hnl _ K)]. cbn in K. intuition discriminate.
    + apply in_or_app. right. left. reflexivity.
Qed.
End Tool.

Section Answers.
Context {F G : Type} (fo : fops F) (ro : rops G)
        (std_sort : forall A : Type, (A -> A -> bool) -> list A -> list A) (ddiv : Z -> Z -> Z).
Hypothesis Hperm : permutes std_sort.
Hypothesis Hshuf : shuffles ro.
Context {D : Type} (dn : dops D) (cost : D -> Z).
Variables (fs : text -> option text) (pid : text).
Variables (end_time : text) (method duration loops : sresult -> text) (show_f show_value : option Z -> text).
Hypothesis He : ~ In newline end_time.
Hypothesis Hm : one_line method.
Hypothesis Hd : one_line duration.
Hypothesis Hlo : one_line loops.
Hypothesis Hsf : one_line show_f.
Hypothesis Hsv : one_line show_value.
Variables (random_optimizer : problem -> run_result (outcome sresult)) (raw_costs : problem -> nat -> option F) (norm_costs : problem -> nat -> list bool -> option F).
Variables (pfuel sfuel : nat) (po : pre_order) (pa : sparams F) (after : list (rc F)) (g : G).
Let run := user_solve fo ro std_sort ddiv random_optimizer raw_costs norm_costs pfuel sfuel pp_all false false po pa after g.
Variables (fuel : nat) (file t : text) (d : document) (ty : objective_type).
Let pb := to_problem cost (meaning dn ty d).
Hypothesis Hdn : dops_ok dn.
Hypothesis Hfs : fs file = Some t.
Hypothesis R1 : readable t.
Hypothesis R2 : ends_plain t.
Hypothesis R3 : file_tokens t = document_tokens d.
Hypothesis Hok : document_ok dn ty d.
Hypothesis Hfuel : (List.length (file_tokens t) <= fuel)%nat.
Hypothesis Hunit : unit_csts dn d.
Hypothesis Hsmall : small_csts dn d.
Hypothesis Hzero : zero_one_bounds dn d.
Hypothesis HV0 : exists V, satisfies dn V d /\ within_bounds dn V d.
Hypothesis Hpf : (List.length (document_names d) < pfuel)%nat.
Let Run := main_ dn cost run fs pid end_time method duration loops show_f show_value fuel true [file].

Lemma doc_wf : Preprocess_spec.well_formed pb.
Proof. apply to_problem_wf. eapply make_problem_well_formed. apply make_problem_document; eassumption. Qed.
Lemma doc_sol : exists y, solution y pb.
Proof. destruct HV0 as (V & V1 & V2). exists (val d V). apply (val_solution dn cost ty d V V1 V2). Qed.
Lemma doc_pf : (List.length (v_values (p_vars pb)) < pfuel)%nat.
Proof. unfold pb, to_problem, meaning. cbn. rewrite map_length. exact Hpf. Qed.

Lemma tool_answers :
  (forall q v, preprocess pfuel pb = Ok (Some q) -> (v < List.length (v_values (p_vars q)))%nat -> exists f, raw_costs q v = Some f) ->
  (forall q, preprocess pfuel pb = Ok (Some q) -> cost_defined (List.length (v_values (p_vars q))) (norm_costs q)) ->
  after <> [] -> pa_order pa <> co_pi_sign_change -> 0 <= pa_limit pa < Z.of_nat sfuel ->
  exists out, Run = Finished (mk_ending 0 [(file ++ str "-" ++ pid ++ str ".sol", out)] []) /\
    ((has_line out status_line /\
      exists V, satisfies dn V d /\ within_bounds dn V d /\
        (forall nm b, In nm (document_names d) -> (has_line out (value_is nm b) <-> V nm = b)) /\
        (forall l, has_line out l -> comment_line l \/ exists nm, In nm (document_names d) /\ l = value_is nm (V nm)) /\
        has_line out (str "\ Solution found: " ++ show_f (Some (objective_at dn cost V d)))) \/
     (~ has_line out status_line /\ has_line out (str "\ Solution not found. Missing constraints: 2147483647"))).
Proof.
  intros Hrc Hnc Ha Hor Hli.
  destruct (user_returns fo ro std_sort ddiv Hperm Hshuf random_optimizer raw_costs norm_costs pfuel sfuel po pa after g pb) as (r & Hr & Hst & Hrem);
    auto using doc_wf, doc_sol, doc_pf.
  - apply zero_one_binary. exact Hzero.
  - apply unit_problem. exact Hunit.
  - reflexivity.
  - exact (small_fits pb (small_sums_document dn cost ty d Hsmall)).
  - assert (Hans : sr_status r = st_success -> exists x v, sr_solutions r = [(x, v)] /\ List.length x = List.length (sr_names r) /\ names_all r pb).
    { intros Hs. destruct (user_solve_answers fo ro std_sort ddiv Hperm _ _ _ _ _ _ _ _ _ _ _ _ _ doc_wf doc_sol (small_fits pb (small_sums_document dn cost ty d Hsmall))
        (fun e => match Bool.diff_false_true e with end) Hr Hs) as (x & v & A & B & C & _). eauto. }
    destruct (main_returns dn cost fs pid end_time method duration loops show_f show_value He Hm Hd Hlo Hsf Hsv run fuel file t d ty r Hdn Hfs R1 R2 R3 Hok Hfuel Hr)
      as (out & Ho & Hsuc & Hnot).
    { destruct (sr_status r); auto; left; discriminate. }
    exists out. split; [exact Ho|].
    assert (Hsd : sr_status r = st_success \/ sr_status r <> st_success) by (destruct (sr_status r); auto; right; discriminate).
    destruct Hsd as [Hs|Hs]; [left|right].
    + split; [exact (Hsuc Hs)|].
      destruct (one_document end_time method duration loops show_f show_value He Hm Hd Hlo Hsf Hsv fo ro std_sort ddiv Hperm dn cost fs pid random_optimizer raw_costs norm_costs
        pfuel sfuel false false po pa after g fuel file t d ty _ _ out Hdn Hfs R1 R2 R3 Hok Hfuel Hsmall HV0 (fun e => match Bool.diff_false_true e with end) Ho (or_introl eq_refl) (Hsuc Hs))
        as (V & V1 & V2 & V3). exists V. split; [exact V1|]. split; [exact (V2 Hzero)|exact V3].
    + split.
      * apply (proj2 Hnot Hs).
      * pose proof (proj1 Hnot Hs) as K. rewrite Hrem in K. exact K.
Qed.

Lemma tool_optimum zero :
  sorts std_sort -> ordered_floats fo -> never_mutates ro -> apart_csts dn d -> zeros fo (pa_theta pa) zero ->
  (forall q, preprocess pfuel pb = Ok (Some q) -> scaled_costs fo (p_objective q) (List.length (v_values (p_vars q))) (norm_costs q)) ->
  (forall q, preprocess pfuel pb = Ok (Some q) -> scaled_costs fo (p_objective q) (List.length (v_values (p_vars q))) (fun v _ => raw_costs q v)) ->
  after <> [] -> violated_order (pa_order pa) -> pa_init pa = ip_bastert -> 0 < pa_limit pa < Z.of_nat sfuel ->
  exists out V, Run = Finished (mk_ending 0 [(file ++ str "-" ++ pid ++ str ".sol", out)] []) /\
    satisfies dn V d /\ within_bounds dn V d /\
    (forall V', satisfies dn V' d -> within_bounds dn V' d -> Preprocess_spec.no_worse ty (objective_at dn cost V d) (objective_at dn cost V' d)) /\
    has_line out status_line /\
    (forall nm b, In nm (document_names d) -> (has_line out (value_is nm b) <-> V nm = b)) /\
    (forall l, has_line out l -> comment_line l \/ exists nm, In nm (document_names d) /\ l = value_is nm (V nm)) /\
    has_line out (str "\ Solution found: " ++ show_f (Some (objective_at dn cost V d))).
Proof.
  intros Hso Hof Hnm Hap Hz Hnc Hrc Ha Hvo Hin Hli.
  pose proof (small_fits pb (small_sums_document dn cost ty d Hsmall)) as Hfit.
  destruct (C134_separate_optimum_returned F G fo ro std_sort ddiv Hperm Hso Hshuf Hof Hnm random_optimizer raw_costs norm_costs pfuel sfuel po pa after g pb zero)
    as (r & x & z & Hr & Hs & Hx & Hopt & _ & _);
    auto using doc_wf, doc_sol, doc_pf, zero_one_binary, unit_problem, apart_problem.
  { apply zero_one_binary. exact Hzero. } { apply apart_problem; assumption. } { apply unit_problem; assumption. } { reflexivity. }
  assert (Hans : forall r', run pb = Finished (Ok r') -> sr_status r' = st_success ->
     exists x v X, sr_solutions r' = [(x, v)] /\ List.length x = List.length (sr_names r') /\ names_all r' pb /\ reports r' x X pb /\
       feasible X pb /\ (in_bounds X pb /\ objective_value X (p_objective pb) = z) /\ v = Some (objective_value X (p_objective pb))).
  { intros r' Hr' Hs'. assert (r' = r) by (unfold run in Hr'; congruence). subst r'.
    destruct (user_solve_answers fo ro std_sort ddiv Hperm _ _ _ _ _ _ _ _ _ _ _ _ _ doc_wf doc_sol Hfit (fun e => match Bool.diff_false_true e with end) Hr Hs) as (x' & v & A & B & C & (X & HX) & H).
    destruct (H X HX) as (H1 & H2 & H3). specialize (H3 eq_refl). rewrite Hx in A. exists x', v, X. repeat (split; [congruence||assumption|]).
    split; [|exact H3]. split; [apply H2, zero_one_binary; assumption|congruence]. }
  destruct (main_returns dn cost fs pid end_time method duration loops show_f show_value He Hm Hd Hlo Hsf Hsv run fuel file t d ty r Hdn Hfs R1 R2 R3 Hok Hfuel Hr)
      as (out & Ho & Hsuc & _).
  { right. destruct (Hans r Hr Hs) as (x' & v & X & A & B & C & _). eauto. }
  specialize (Hsuc Hs).
  destruct (document_answered_by end_time method duration loops show_f show_value He Hm Hd Hlo Hsf Hsv dn cost fs pid run fuel file t d ty _ _ out
     (fun X => in_bounds X pb /\ objective_value X (p_objective pb) = z) Hdn Hfs R1 R2 R3 Hok Hfuel Hans Ho (or_introl eq_refl) Hsuc)
    as (V & V1 & (X & HXV & Hb & Hz') & V2 & V3 & V4).
  exists out, V. split; [exact Ho|]. split; [exact V1|]. split; [apply (bounds_within dn cost ty d X V HXV); exact Hb|].
  split; [|auto]. intros V' W1 W2. destruct Hopt as [_ Hopt]. specialize (Hopt _ (val_solution dn cost ty d V' W1 W2)).
  unfold pb in Hz', Hopt. rewrite (lin_document dn cost ty d X V HXV) in Hz'. rewrite (lin_document dn cost ty d _ V' (val_by_name d V')) in Hopt.
  rewrite Hz'. exact Hopt.
Qed.
End Answers.
