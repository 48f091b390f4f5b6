From Verif Require Import Base Problem_model Merged_model Classify_model Preprocess_model Validate_model Params_model
  Rows_model Solver_model EndToEnd_model Rewrite_spec.
Open Scope Z_scope.

Section Labels.
Variable sg : text -> text.
Notation rl := (map (relabel sg)).

Lemma cache_csts_rl l : forall i c, cache_csts (rl l) i c = cache_csts l i c.
Proof. induction l as [|a l IH]; intros; cbn; [reflexivity|]. destruct (cache_elems _ _ _); cbn; auto. Qed.
Lemma lengths_rl l : lengths (rl l) = lengths l.
Proof. unfold lengths. rewrite map_map. reflexivity. Qed.
Lemma affect_csts_rl op l vars idx : forall cnt lf, affect_csts op (rl l) vars idx cnt lf = affect_csts op l vars idx cnt lf.
Proof.
  induction idx as [|i idx IH]; intros; cbn [affect_csts]; [reflexivity|].
  destruct (of_opt (nth_error cnt i)) as [k| |]; cbn [obind]; [|reflexivity|reflexivity].
  destruct (Nat.eqb k 0); [apply IH|]. destruct (Nat.eqb (Nat.pred k) 1).
  - rewrite nth_error_map. destruct (nth_error l i) as [c|]; cbn [option_map of_opt obind]; [|reflexivity].
    change (reduce_constraint op vars (relabel sg c)) with (reduce_constraint op vars c).
    destruct (reduce_constraint op vars c) as [v| |]; cbn [obind]; [|reflexivity|reflexivity].
    destruct (of_opt (list_upd cnt i 0%nat)) as [c'| |]; cbn [obind]; [apply IH|reflexivity|reflexivity].
  - destruct (of_opt (list_upd cnt i (Nat.pred k))) as [c'| |]; cbn [obind]; [apply IH|reflexivity|reflexivity].
Qed.
Lemma affect_units_rl op vars l : forall cnt lf, affect_units op vars (rl l) cnt lf = affect_units op vars l cnt lf.
Proof.
  induction l as [|c l IH]; intros; cbn [affect_units map]; [reflexivity|]. destruct cnt as [|k cnt]; [reflexivity|].
  change (affect_unit op vars (relabel sg c) k lf) with (affect_unit op vars c k lf).
  destruct (affect_unit op vars c k lf) as [[k' lf']| |]; cbn [obind]; [|reflexivity|reflexivity]. rewrite IH. reflexivity.
Qed.
Lemma constraints_exclude_copy_rl m l : forall cnt,
  constraints_exclude_copy m cnt (rl l) = option_map rl (constraints_exclude_copy m cnt l).
Proof.
  induction l as [|c l IH]; intros; cbn [constraints_exclude_copy map]; [reflexivity|]. destruct cnt as [|k cnt]; [reflexivity|].
  destruct (Nat.leb k 1); [apply IH|]. cbn [relabel c_elements c_value c_label c_id].
  destruct (copy_elements m (c_elements c) (c_value c)) as [r|]; cbn; [|reflexivity]. rewrite IH.
  destruct (constraints_exclude_copy m cnt l); reflexivity.
Qed.
Lemma is_valid_rl l size : is_valid_variable_index (rl l) size = is_valid_variable_index l size.
Proof. unfold is_valid_variable_index. induction l as [|c l IH]; cbn [forallb map]; [reflexivity|]. now rewrite IH. Qed.
Lemma coef_csts_rl l : forall r, coef_csts (rl l) r = coef_csts l r.
Proof.
  induction l as [|c l IH]; intros; cbn [coef_csts map]; [reflexivity|]. change (c_elements (relabel sg c)) with (c_elements c).
  destruct (coef_elems _ _); auto.
Qed.
Lemma is_nil_map {A B} (f : A -> B) l : is_nil (map f l) = is_nil l.
Proof. destruct l; reflexivity. Qed.
Lemma fill_list_rl f l : (forall s c, f s (relabel sg c) = f s c) -> forall s, fill_list f s (rl l) = fill_list f s l.
Proof. intros Hf. induction l as [|c l IH]; intros; cbn [fill_list map]; [reflexivity|]. rewrite Hf. destruct (f s c); cbn [obind]; auto. Qed.
End Labels.

(** Both changes at once. *)
Section Change.
Variables (rho sg : text -> text) (d : Z).
Definition change (pb : problem) : problem := shift_problem d (rename_problem rho sg pb).
Definition change_vars (vs : variables) : variables := mk_variables (map rho (v_names vs)) (v_values vs).

Lemma coefficient_type_change pb : coefficient_type (change pb) = coefficient_type pb.
Proof. unfold coefficient_type, coefficient_type_of. cbn. now rewrite !coef_csts_rl. Qed.
Lemma which_change pb : which_problem_type (change pb) = which_problem_type pb.
Proof. unfold which_problem_type. rewrite coefficient_type_change. cbn. now rewrite !is_nil_map. Qed.

Lemma make_caches_change pb : make_caches (change pb) = make_caches pb.
Proof. unfold make_caches, make_cache. cbn. now rewrite !cache_csts_rl. Qed.
Lemma affect_step_change pb ch s v b lf : affect_step (change pb) ch s v b lf = affect_step pb ch s v b lf.
Proof.
  unfold affect_step. cbn [change shift_problem rename_problem p_equal p_greater p_less].
  destruct (of_opt (nth_error (in_equal ch) v)) as [ie| |]; cbn [obind]; [|reflexivity|reflexivity]. rewrite affect_csts_rl.
  destruct (affect_csts op_equal _ _ _ _ _) as [[e l1]| |]; cbn [obind]; [|reflexivity|reflexivity].
  destruct (of_opt (nth_error (in_greater ch) v)) as [ig| |]; cbn [obind]; [|reflexivity|reflexivity]. rewrite affect_csts_rl.
  destruct (affect_csts op_greater _ _ _ _ _) as [[e2 l2]| |]; cbn [obind]; [|reflexivity|reflexivity].
  destruct (of_opt (nth_error (in_less ch) v)) as [il| |]; cbn [obind]; [|reflexivity|reflexivity]. rewrite affect_csts_rl. reflexivity.
Qed.
Lemma affects_change pb ch fuel : forall s, affects fuel (change pb) ch s = affects fuel pb ch s.
Proof.
  induction fuel as [|fuel IH]; intros; cbn [affects]; [reflexivity|]. destruct (s_lifo s) as [|[v b] lf]; [reflexivity|].
  rewrite affect_step_change. destruct (affect_step pb ch s v b lf); cbn [obind]; auto.
Qed.
Lemma remove_unused_change pb ch s is : forall vars, remove_unused (change pb) ch s is vars = remove_unused pb ch s is vars.
Proof.
  induction is as [|i is IH]; intros; cbn [remove_unused]; [reflexivity|]. destruct (vfind vars i); [apply IH|].
  destruct (is_unused_variable ch s i); cbn; [|reflexivity]. change (unused_value (change pb) i) with (unused_value pb i). apply IH.
Qed.
Lemma copy_linear_shift m l : forall v, copy_linear m l (v + d) = option_map (fun r => (fst r, snd r + d)) (copy_linear m l v).
Proof.
  induction l as [|e l IH]; intros; cbn [copy_linear]; [reflexivity|]. destruct (nth_error m (o_var e)) as [[[j|] b]|]; cbn; [| |reflexivity].
  - rewrite IH. destruct (copy_linear m l v); reflexivity.
  - destruct b; [|apply IH]. replace (v + d + o_factor e) with (v + o_factor e + d) by lia. apply IH.
Qed.
Lemma copy_quadratic_shift m l : forall v,
  copy_quadratic m l (v + d) = option_map (fun r => (fst r, snd r + d)) (copy_quadratic m l v).
Proof.
  induction l as [|e l IH]; intros; cbn [copy_quadratic]; [reflexivity|].
  destruct (nth_error m (q_vara e)) as [[[i|] b]|]; cbn; [| |reflexivity];
    (destruct (nth_error m (q_varb e)) as [[[j|] b']|]; cbn; [| |reflexivity]).
  1-3: rewrite IH; destruct (copy_quadratic m l v) as [[[? ?] ?]|]; reflexivity.
  destruct (b && b'); [|apply IH]. replace (v + d + q_factor e) with (v + q_factor e + d) by lia. apply IH.
Qed.
Lemma objective_change m o mo :
  objective_function_exclude_copy m (shift_objective d o) mo = option_map (shift_objective d) (objective_function_exclude_copy m o mo).
Proof.
  unfold objective_function_exclude_copy. cbn [shift_objective o_elements o_qelements o_value].
  replace (o_value o + d + mo_value mo) with (o_value o + mo_value mo + d) by lia. rewrite copy_linear_shift.
  destruct (copy_linear m (o_elements o) (o_value o + mo_value mo)) as [[le v]|]; cbn; [|reflexivity]. rewrite copy_quadratic_shift.
  destruct (copy_quadratic m (o_qelements o) v) as [[[le' qe] v']|]; cbn; [|reflexivity].
  destruct (merge_elements 0 (mo_elements mo) (le ++ le')); reflexivity.
Qed.
Lemma variables_change vars vs is : forall rv ra,
  variables_exclude_copy vars (change_vars vs) is (change_vars rv) (rename_affected rho ra) =
  option_map (fun r => (change_vars (fst r), rename_affected rho (snd r))) (variables_exclude_copy vars vs is rv ra).
Proof.
  induction is as [|i is IH]; intros; cbn [variables_exclude_copy change_vars v_names v_values]; [reflexivity|].
  rewrite nth_error_map. destruct (nth_error (v_names vs) i) as [nm|]; cbn; [|reflexivity].
  destruct (vfind vars i) as [b|].
  - rewrite <- IH. unfold rename_affected; cbn. now rewrite map_app.
  - destruct (nth_error (v_values vs) i) as [v|]; cbn; [|reflexivity]. rewrite <- IH. unfold change_vars; cbn. now rewrite map_app.
Qed.
Lemma variables_copied vars vs is : forall rv ra rv' ra', variables_exclude_copy vars vs is rv ra = Some (rv', ra') ->
  (forall a, In a (v_names rv) -> In a (v_names vs)) -> forall a, In a (v_names rv') -> In a (v_names vs).
Proof.
  induction is as [|i is IH]; intros rv ra rv' ra' H K; cbn [variables_exclude_copy] in H; [inversion H; subst; exact K|].
  destruct (nth_error (v_names vs) i) as [nm|] eqn:E; cbn [bind] in H; [|discriminate].
  destruct (vfind vars i) as [b|]; [eapply IH; eauto|].
  destruct (nth_error (v_values vs) i) as [v|]; cbn [bind] in H; [|discriminate]. eapply IH; [exact H|].
  cbn [v_names]. intros a Ha. apply in_app_or in Ha. destruct Ha as [Ha|[<-|[]]]; [auto|]. eapply nth_error_In; eauto.
Qed.
Lemma names_kept_change (N : list text) (Hr : forall a b, In a N -> In b N -> rho a = rho b -> a = b) copy :
  (forall a, In a copy -> In a N) -> forall m names, (forall a, In a names -> In a N) ->
  names_kept m (map rho names) (map rho copy) = names_kept m names copy.
Proof.
  intros Hc. induction m as [|[[j|] b] m IH]; intros names Hn; [reflexivity| |]; (destruct names as [|nm names]; [reflexivity|]); cbn [map names_kept].
  - rewrite nth_error_map. destruct (nth_error copy j) as [nm'|] eqn:E; cbn [option_map]; [|reflexivity].
    rewrite IH by (intros; apply Hn; now right). f_equal.
    destruct (list_eq_dec ascii_dec nm nm') as [->|D]; [destruct (list_eq_dec _ _ _); congruence|].
    destruct (list_eq_dec ascii_dec (rho nm) (rho nm')) as [D'|]; [|reflexivity]. exfalso. apply D, Hr; [apply Hn; now left| |exact D'].
    eapply Hc, nth_error_In, E.
  - apply IH. intros; apply Hn; now right.
Qed.

Lemma make_problem_change pb aff mo s : renames rho pb ->
  make_problem (change pb) (rename_affected rho aff) mo s = outcome_map change (make_problem pb aff mo s).
Proof.
  intros Hr. unfold make_problem. cbn [change shift_problem rename_problem p_vars v_values p_objective v_names p_equal p_greater p_less p_type p_problem_type].
  set (n := length (v_values (p_vars pb))). set (m := make_mapping (s_vars s) (seq 0 n) 0).
  destruct (Nat.eqb _ _); cbn [ensures]; [|reflexivity]. rewrite objective_change.
  destruct (objective_function_exclude_copy m (p_objective pb) mo) as [o|]; cbn [option_map of_opt obind]; [|reflexivity].
  fold (change_vars (p_vars pb)). change (mk_variables [] []) with (change_vars (mk_variables [] [])) at 1. rewrite variables_change.
  destruct (variables_exclude_copy (s_vars s) (p_vars pb) (seq 0 n) (mk_variables [] []) aff) as [[vs af]|] eqn:V; cbn [option_map of_opt obind fst snd]; [|reflexivity].
  cbn [change_vars v_names v_values].
  rewrite (names_kept_change (v_names (p_vars pb)) Hr); [|apply (variables_copied _ _ _ _ _ _ _ V); intros a []|auto].
  destruct (names_kept _ _ _); cbn [ensures]; [|reflexivity]. rewrite !constraints_exclude_copy_rl.
  destruct (constraints_exclude_copy m (s_equal s) (p_equal pb)) as [eq|]; cbn [option_map of_opt obind]; [|reflexivity].
  destruct (constraints_exclude_copy m (s_greater s) (p_greater pb)) as [gr|]; cbn [option_map of_opt obind]; [|reflexivity].
  destruct (constraints_exclude_copy m (s_less s) (p_less pb)) as [le|]; cbn [option_map of_opt obind]; [|reflexivity].
  rewrite !is_valid_rl. destruct (_ && _); cbn [ensures outcome_map]; [|reflexivity]. f_equal.
  unfold change at 1, shift_problem, rename_problem. cbn [p_objective p_equal p_greater p_less p_vars p_affected p_type p_problem_type v_names v_values].
  f_equal. apply (which_change (mk_problem o eq gr le vs af (p_type pb) (p_problem_type pb))).
Qed.
Lemma finish_change fuel pb aff ch s : renames rho pb ->
  finish fuel (change pb) (rename_affected rho aff) ch s = outcome_map (option_map change) (finish fuel pb aff ch s).
Proof.
  intros Hr. unfold finish. rewrite affects_change. destruct (affects fuel pb ch s) as [[s1|]| |]; cbn [obind]; try reflexivity.
  change (make_lp_from_bqp_objective (change pb) ch s1) with (make_lp_from_bqp_objective pb ch s1).
  destruct (make_lp_from_bqp_objective pb ch s1) as [mo|]; cbn [of_opt obind]; [|reflexivity].
  unfold try_remove_unused_variable. rewrite remove_unused_change.
  destruct (remove_unused _ _ _ _ _) as [vars|]; cbn [bind of_opt obind]; [|reflexivity]. rewrite affects_change.
  destruct (affects fuel pb ch _) as [[s3|]| |]; cbn [obind]; try reflexivity. rewrite make_problem_change by exact Hr.
  destruct (make_problem pb aff mo s3); reflexivity.
Qed.
Lemma preprocess_change fuel pb : renames rho pb -> preprocess fuel (change pb) = outcome_map (option_map change) (preprocess fuel pb).
Proof.
  intros Hr. unfold preprocess. rewrite make_caches_change. destruct (make_caches pb) as [ch|]; cbn [of_opt obind]; [|reflexivity].
  unfold init_state, try_affect_variable. cbn [change shift_problem rename_problem p_equal p_greater p_less s_vars s_lifo s_equal s_greater s_less].
  rewrite !lengths_rl, affect_units_rl.
  change (try_affect_bounded_variable (change pb) []) with (try_affect_bounded_variable pb []).
  change (try_affect_bounded_variable (shift_problem d (rename_problem rho sg pb)) []) with (try_affect_bounded_variable pb []).
  destruct (affect_units op_equal _ _ _ _) as [[e l1]| |]; cbn [obind]; try reflexivity. rewrite affect_units_rl.
  destruct (affect_units op_greater _ _ _ _) as [[e2 l2]| |]; cbn [obind]; try reflexivity. rewrite affect_units_rl.
  destruct (affect_units op_less _ _ _ _) as [[e3 l3]| |]; cbn [obind]; try reflexivity.
  apply (finish_change fuel pb (mk_affected [] [])). exact Hr.
Qed.

(** ** The constraints *)
Lemma fill_merged_change op pb s : fill_merged op (change pb) s = fill_merged op pb s.
Proof. destruct op; cbn; apply fill_list_rl; reflexivity. Qed.
Lemma fill3_change a b c pb : fill3 a b c (change pb) = fill3 a b c pb.
Proof.
  unfold fill3. rewrite fill_merged_change. destruct (fill_merged a pb _); cbn [obind]; try reflexivity. rewrite fill_merged_change.
  destruct (fill_merged b pb _); cbn [obind]; try reflexivity. now rewrite fill_merged_change.
Qed.
Lemma make_merged_change std_sort ddiv po pb : make_merged std_sort ddiv po (change pb) = make_merged std_sort ddiv po pb.
Proof. destruct po; cbn [make_merged]; unfold make_special, make_unsorted; cbn [make_ordered]; rewrite fill3_change; reflexivity. Qed.

(** ** The solver *)
Context {F G : Type} (fo : fops F) (ro : rops G) (std_sort : forall A : Type, (A -> A -> bool) -> list A -> list A).
Definition shift_best (b : best) : best := mk_best (be_x b) (option_map (fun v => v + d) (be_value b)) (be_remaining b).
Definition shift_loop (l : @loop F G) : @loop F G := mk_loop (lp_od l) (lp_s l) (lp_kappa l) (shift_best (lp_best l)) (lp_tried l).

Lemma results_lin_shift x l : forall v, results_lin x l (v + d) = option_map (fun v => v + d) (results_lin x l v).
Proof.
  induction l as [|e l IH]; intros; cbn [results_lin]; [reflexivity|]. destruct (nth_error x (o_var e)) as [b|]; cbn; [|reflexivity].
  destruct b; [|apply IH]. replace (v + d + o_factor e) with (v + o_factor e + d) by lia. apply IH.
Qed.
Lemma results_quad_shift x l : forall v, results_quad x l (v + d) = option_map (fun v => v + d) (results_quad x l v).
Proof.
  induction l as [|e l IH]; intros; cbn [results_quad]; [reflexivity|]. destruct (nth_error x (q_vara e)) as [b|]; cbn; [|reflexivity].
  destruct (if b then nth_error x (q_varb e) else Some false) as [b'|]; cbn; [|reflexivity].
  destruct (b && b'); [|apply IH]. replace (v + d + q_factor e) with (v + q_factor e + d) by lia. apply IH.
Qed.
Lemma results_shift o x : results (shift_objective d o) x = option_map (fun v => v + d) (results o x).
Proof.
  unfold results. cbn [shift_objective o_elements o_qelements o_value]. rewrite results_lin_shift.
  destruct (results_lin x (o_elements o) (o_value o)); cbn; [apply results_quad_shift|reflexivity].
Qed.
Lemma store_value_shift mode b x v : store_value mode (shift_best b) x (v + d) = shift_best (store_value mode b x v).
Proof.
  unfold store_value. replace (is_better mode (v + d) (be_value (shift_best b))) with (is_better mode v (be_value b)); [destruct (is_better _ _ _); reflexivity|].
  cbn [shift_best be_value]. destruct (be_value b) as [w|]; cbn; [|reflexivity].
  destruct mode; match goal with |- (?a <? ?b) = (?e <? ?f) => destruct (Z.ltb_spec a b), (Z.ltb_spec e f); lia || reflexivity end.
Qed.
Lemma store_remaining_shift b x r : store_remaining (shift_best b) x r = shift_best (store_remaining b x r).
Proof. unfold store_remaining. cbn [shift_best be_remaining]. destruct (r <? be_remaining b); reflexivity. Qed.
Lemma main_loop_shift fuel sv pa o : forall i br l,
  main_loop fo ro std_sort fuel sv pa (shift_objective d o) i br (shift_loop l) =
  run_map (fun r => (shift_loop (fst r), snd r)) (main_loop fo ro std_sort fuel sv pa o i br l).
Proof.
  induction fuel as [|fuel IH]; intros; cbn [main_loop]; [reflexivity|]. destruct (i =? pa_limit pa); [reflexivity|].
  cbn [shift_loop lp_kappa lp_od lp_s lp_best lp_tried]. destruct (run _ _ _ _ _ _ _ _ _ _) as [[[rem od] s]|]; [|reflexivity].
  destruct (rem =? 0).
  - rewrite results_shift. destruct (results o (s_x s)) as [v|]; cbn [option_map]; [|reflexivity]. rewrite store_value_shift. reflexivity.
  - rewrite store_remaining_shift. destruct (rem <? br).
    + set (k := if pa_w pa <? i then _ else _). destruct (fl_lt fo (pa_kappa_max pa) k); [reflexivity|].
      destruct (rg_time_out ro (s_g s)) as [out g]. destruct out; [reflexivity|].
      apply (IH _ _ (mk_loop od (with_g s g) k (store_remaining (lp_best l) (s_x s) rem) (s_x s :: lp_tried l))).
    + set (k := if pa_w pa <? i then _ else _). destruct (fl_lt fo (pa_kappa_max pa) k); [reflexivity|].
      destruct (rg_time_out ro (s_g s)) as [out g]. destruct out; [reflexivity|].
      apply (IH _ _ (mk_loop od (with_g s g) k (lp_best l) (s_x s :: lp_tried l))).
Qed.
Lemma push_inner_shift sv pa o k : forall iter l,
  push_inner fo ro std_sort k sv pa (shift_objective d o) iter (shift_loop l) = option_map shift_loop (push_inner fo ro std_sort k sv pa o iter l).
Proof.
  induction k as [|k IH]; intros; cbn [push_inner]; [reflexivity|]. cbn [shift_loop lp_kappa lp_od lp_s lp_best lp_tried].
  destruct (run _ _ _ _ _ _ _ _ _ _) as [[[rem od] s]|]; cbn [bind]; [|reflexivity]. destruct (rem =? 0).
  - rewrite results_shift. destruct (results o (s_x s)) as [v|]; cbn [option_map bind]; [|reflexivity]. rewrite store_value_shift. reflexivity.
  - set (kk := if pa_w pa <? iter then _ else _). destruct (fl_lt fo (pa_kappa_max pa) kk); [reflexivity|].
    destruct (rg_time_out ro (s_g s)) as [out g]. destruct out; [reflexivity|].
    apply (IH _ (mk_loop od (with_g s g) kk (lp_best l) (s_x s :: lp_tried l))).
Qed.
Lemma push_loop_shift sv pa o k : forall l,
  push_loop fo ro std_sort k sv pa (shift_objective d o) (shift_loop l) = option_map shift_loop (push_loop fo ro std_sort k sv pa o l).
Proof.
  induction k as [|k IH]; intros; cbn [push_loop]; [reflexivity|]. cbn [shift_loop lp_kappa lp_od lp_s lp_best lp_tried].
  destruct (run _ _ _ _ _ _ _ _ _ _) as [[[rem od] s]|]; cbn [bind]; [|reflexivity].
  assert (E : (if rem =? 0 then do v <- results (shift_objective d o) (s_x s); Some (store_value (sv_mode sv) (shift_best (lp_best l)) (s_x s) v) else Some (shift_best (lp_best l))) =
              option_map shift_best (if rem =? 0 then do v <- results o (s_x s); Some (store_value (sv_mode sv) (lp_best l) (s_x s) v) else Some (lp_best l))).
  { destruct (rem =? 0); [|reflexivity]. rewrite results_shift. destruct (results o (s_x s)) as [v|]; cbn [option_map bind]; [|reflexivity].
    now rewrite store_value_shift. }
  rewrite E. clear E. destruct (if rem =? 0 then _ else _) as [b|]; cbn [option_map bind]; [|reflexivity].
  destruct (rg_time_out ro (s_g s)) as [out g]. destruct out; [reflexivity|].
  change (mk_loop od (with_g s g) (lp_kappa l) (shift_best b) (s_x s :: lp_tried l)) with (shift_loop (mk_loop od (with_g s g) (lp_kappa l) b (s_x s :: lp_tried l))).
  rewrite push_inner_shift. destruct (push_inner _ _ _ _ _ _ _ _ _) as [l'|]; cbn [option_map bind]; [apply IH|reflexivity].
Qed.
Lemma functor_shift fuel cl cs n c0 nc pa mode o after (g : G) :
  functor fo ro std_sort fuel cl cs n c0 nc pa mode (shift_objective d o) after g =
  run_map (fun r => (shift_loop (fst r), snd r)) (functor fo ro std_sort fuel cl cs n c0 nc pa mode o after g).
Proof.
  unfold functor. destruct (make_any_solver _ _ _ _ _ _ _ _ _) as [[sv s]| |]; try reflexivity.
  destruct (initial_x _ _ _ _ _ _ _ _ _) as [[x g']|]; [|reflexivity]. unfold functor_loop.
  destruct (order_init _ _ _) as [od|]; [|reflexivity].
  set (s' := mk_state x _ _ _ _).
  change (mk_loop od s' (pa_kappa_min pa) best0 []) with (shift_loop (mk_loop od s' (pa_kappa_min pa) best0 [])) at 1.
  rewrite main_loop_shift. destruct (main_loop _ _ _ _ _ _ _ _ _ _) as [[l e]| |]; cbn [run_map fst snd]; try reflexivity.
  destruct e; try reflexivity. rewrite push_loop_shift. destruct (push_loop _ _ _ _ _ _ _ _) as [l'|]; reflexivity.
Qed.

Variable ddiv : Z -> Z -> Z.
Variable random_optimizer : problem -> run_result (outcome sresult).
Variable craw : list oelem -> list qelem -> nat -> nat -> option F.
Variable cnorm : list oelem -> list qelem -> nat -> nat -> list bool -> option F.
Definition change_result (r : sresult) : sresult := shift_result d (rename_result rho r).

Lemma itm_solve_change fuel buffered po pa after (g : G) pb :
  itm_solve fo ro std_sort ddiv random_optimizer (by_terms craw) (by_terms cnorm) fuel false buffered po pa after g (change pb) =
  run_map (outcome_map change_result) (itm_solve fo ro std_sort ddiv random_optimizer (by_terms craw) (by_terms cnorm) fuel false buffered po pa after g pb).
Proof.
  unfold itm_solve. cbn [negb]. change (p_problem_type (change pb)) with (p_problem_type pb). set (cl := if buffered then _ else _).
  change (by_terms craw (change pb)) with (by_terms craw pb). change (by_terms cnorm (change pb)) with (by_terms cnorm pb).
  unfold solve_problem. rewrite make_merged_change. destruct (make_merged std_sort ddiv po pb) as [cs| |]; try reflexivity.
  cbn [change shift_problem rename_problem p_vars v_values p_type p_objective p_affected v_names].
  destruct (negb (is_nil cs) && negb (is_nil (v_values (p_vars pb)))); [|reflexivity].
  rewrite functor_shift. destruct (functor _ _ _ _ _ _ _ _ _ _ _ _ _ _) as [[l st]| |]; cbn [run_map fst snd]; try reflexivity.
  cbn [shift_loop lp_best shift_best be_x be_value]. destruct (is_nil _); reflexivity.
Qed.
Lemma user_solve_change pfuel fuel pp buffered po pa after (g : G) pb : renames rho pb ->
  user_solve fo ro std_sort ddiv random_optimizer (by_terms craw) (by_terms cnorm) pfuel fuel pp false buffered po pa after g (change pb) =
  run_map (outcome_map change_result) (user_solve fo ro std_sort ddiv random_optimizer (by_terms craw) (by_terms cnorm) pfuel fuel pp false buffered po pa after g pb).
Proof.
  intros Hr. unfold user_solve. destruct pp.
  - replace (unpreprocess (change pb)) with (change (unpreprocess pb)); [apply itm_solve_change|].
    unfold unpreprocess. rewrite which_change. reflexivity.
  - rewrite preprocess_change by exact Hr. destruct (preprocess pfuel pb) as [[q|]| |]; cbn [outcome_map option_map]; try reflexivity. apply itm_solve_change.
Qed.
End Change.

Lemma rename_only rho sg pb : change rho sg 0 pb = rename_problem rho sg pb.
Proof. unfold change, shift_problem, shift_objective, rename_problem. cbn. rewrite Z.add_0_r. now destruct (p_objective pb). Qed.
Lemma map_same {A} (f : A -> A) l : (forall a, f a = a) -> map f l = l.
Proof. intros H. induction l as [|a l IH]; cbn; [reflexivity|]. now rewrite H, IH. Qed.
Lemma shift_only d pb : change (fun a => a) (fun a => a) d pb = shift_problem d pb.
Proof.
  unfold change, rename_problem, rename_affected. rewrite !(map_same (relabel (fun a => a))) by (intros []; reflexivity). rewrite !map_same by reflexivity.
  destruct pb as [o e g l [n v] [an av] t k]. reflexivity.
Qed.
Lemma rename_result_only rho r : change_result rho 0 r = rename_result rho r.
Proof.
  unfold change_result, shift_result, rename_result. cbn. rewrite map_same; [reflexivity|].
  intros [x [v|]]; unfold shift_value; cbn; [now rewrite Z.add_0_r|reflexivity].
Qed.
Lemma shift_result_only d r : change_result (fun a => a) d r = shift_result d r.
Proof. unfold change_result, rename_result, rename_affected. rewrite !map_same by reflexivity. destruct r as [st so re nm [an av] vs cs]. reflexivity. Qed.
Lemma run_map_ext {A B} (f g : A -> B) r : (forall a, f a = g a) -> run_map (outcome_map f) r = run_map (outcome_map g) r.
Proof. intros H. destruct r as [[a| |]| |]; cbn; now rewrite ?H. Qed.
