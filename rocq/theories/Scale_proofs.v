From Verif Require Import Base Problem_model Merged_model Classify_model Preprocess_model Validate_model Params_model Matrix_model
  Rows_model Rows_spec Solver_model EndToEnd_model Rewrite_spec Rewrite_proofs Mirror_spec Mirror_proofs Scale_spec.
Open Scope Z_scope.

(** ** The preprocessor *)
Section Preprocess.
Variable sk : Z.
Hypothesis Hpos : 0 < sk.
Lemma affects_scl pb ch fuel : forall s, affects fuel ((scale_problem sk) pb) ch s = affects fuel pb ch s.
Proof.
  induction fuel as [|fuel IH]; intros; cbn [affects]; [reflexivity|]. destruct (s_lifo s) as [|[v b] lf]; [reflexivity|].
  change (affect_step ((scale_problem sk) pb) ch s v b lf) with (affect_step pb ch s v b lf). destruct (affect_step pb ch s v b lf); cbn [obind]; auto.
Qed.
Lemma ltb_scl a b : (sk * a <? sk * b) = (a <? b).
Proof. destruct (Z.ltb_spec (sk * a) (sk * b)), (Z.ltb_spec a b); nia || reflexivity. Qed.
Lemma ltb_neg_scl a : (sk * a <? 0) = (a <? 0).
Proof. rewrite <- (Z.mul_0_r sk) at 1. apply ltb_scl. Qed.
Lemma ltb_pos_scl a : (0 <? sk * a) = (0 <? a).
Proof. rewrite <- (Z.mul_0_r sk) at 1. apply ltb_scl. Qed.
Lemma find_scl i l : find (fun e => Nat.eqb i (o_var e)) (map (scale_term sk) l) = option_map (scale_term sk) (find (fun e => Nat.eqb i (o_var e)) l).
Proof. induction l as [|e l IH]; cbn [find map]; [reflexivity|]. change (o_var ((scale_term sk) e)) with (o_var e). destruct (Nat.eqb i (o_var e)); [reflexivity|apply IH]. Qed.
Lemma unused_value_scl pb i : unused_value ((scale_problem sk) pb) i = unused_value pb i.
Proof.
  unfold unused_value. cbn [scale_problem p_objective scale_objective o_elements p_type]. rewrite find_scl.
  destruct (find _ _) as [e|]; cbn [option_map]; [|reflexivity]. destruct (p_type pb); cbn [scale_term o_factor]; [apply ltb_pos_scl|apply ltb_neg_scl].
Qed.
Lemma remove_unused_scl pb ch s is : forall vars, remove_unused ((scale_problem sk) pb) ch s is vars = remove_unused pb ch s is vars.
Proof.
  induction is as [|i is IH]; intros; cbn [remove_unused]; [reflexivity|]. destruct (vfind vars i); [apply IH|].
  destruct (is_unused_variable ch s i); cbn [bind]; [|reflexivity]. rewrite unused_value_scl. apply IH.
Qed.
Definition sc_merge (m : merge_obj) : merge_obj := mk_merge_obj (map (scale_term sk) (mo_elements m)) (sk * mo_value m).
Lemma half_scl a : Z.Even a -> half (sk * a) = sk * half a.
Proof. intros [h ->]. unfold half. replace (sk * (2 * h)) with ((sk * h) * 2) by lia. replace (2 * h) with (h * 2) by lia. rewrite !Z.div_mul by lia. reflexivity. Qed.
Lemma bqp_elem_scl t i q mo : Z.Even (q_factor q) -> bqp_elem t i ((scale_qterm sk) q) (sc_merge mo) = sc_merge (bqp_elem t i q mo).
Proof.
  intros E. unfold bqp_elem. cbn [scale_qterm q_vara q_varb q_factor]. destruct (_ || _); [|reflexivity].
  replace (match t with maximize => 0 <? sk * q_factor q | minimize => sk * q_factor q <? 0 end) with
    (match t with maximize => 0 <? q_factor q | minimize => q_factor q <? 0 end) by (destruct t; [now rewrite ltb_pos_scl|now rewrite ltb_neg_scl]).
  destruct (match t with maximize => _ | minimize => _ end); [|reflexivity]. rewrite half_scl by exact E.
  destruct (Nat.eqb (q_vara q) (q_varb q)); unfold sc_merge; cbn [mo_elements mo_value]; [f_equal; lia|]. rewrite map_app. reflexivity.
Qed.
Lemma bqp_elems_scl t i l : (forall e, In e l -> Z.Even (q_factor e)) -> forall mo,
  fold_left (fun m q => bqp_elem t i q m) (map (scale_qterm sk) l) (sc_merge mo) = sc_merge (fold_left (fun m q => bqp_elem t i q m) l mo).
Proof.
  induction l as [|q l IH]; intros H mo; cbn [fold_left map]; [reflexivity|]. rewrite bqp_elem_scl by (apply H; now left). apply IH. intros; apply H; now right.
Qed.
Lemma make_lp_scl pb ch s : even_qcosts pb -> make_lp_from_bqp_objective ((scale_problem sk) pb) ch s = option_map sc_merge (make_lp_from_bqp_objective pb ch s).
Proof.
  intros E. unfold make_lp_from_bqp_objective. assert (Z0 : Some (mk_merge_obj [] 0) = option_map sc_merge (Some (mk_merge_obj [] 0))) by (unfold sc_merge; cbn; now rewrite Z.mul_0_r).
  rewrite Z0 at 1. clear Z0.
  generalize (Some (mk_merge_obj [] 0)). induction (seq 0 (length (in_equal ch))) as [|i is IH]; intros acc; cbn [fold_left]; [reflexivity|].
  rewrite <- IH. f_equal. destruct acc as [mo|]; cbn [option_map bind]; [|reflexivity]. destruct (vfind (s_vars s) i); [reflexivity|].
  destruct (is_unused_variable ch s i) as [u|]; cbn [bind option_map]; [|reflexivity]. destruct u; [|reflexivity]. f_equal.
  cbn [scale_problem p_type p_objective scale_objective o_qelements]. apply bqp_elems_scl. exact E.
Qed.
Lemma copy_linear_scl m l : forall v, copy_linear m (map (scale_term sk) l) (sk * v) = option_map (fun r => (map (scale_term sk) (fst r), sk * snd r)) (copy_linear m l v).
Proof.
  induction l as [|e l IH]; intros; cbn [copy_linear map]; [reflexivity|]. cbn [scale_term o_var o_factor].
  destruct (nth_error m (o_var e)) as [[[j|] b]|]; cbn [bind fst snd option_map]; [| |reflexivity].
  - rewrite IH. destruct (copy_linear m l v); reflexivity.
  - destruct b; [|apply IH]. replace (sk * v + sk * o_factor e) with (sk * (v + o_factor e)) by lia. apply IH.
Qed.
Lemma copy_quadratic_scl m l : forall v, copy_quadratic m (map (scale_qterm sk) l) (sk * v) =
  option_map (fun r => (map (scale_term sk) (fst (fst r)), map (scale_qterm sk) (snd (fst r)), sk * snd r)) (copy_quadratic m l v).
Proof.
  induction l as [|e l IH]; intros; cbn [copy_quadratic map]; [reflexivity|]. cbn [scale_qterm q_vara q_varb q_factor].
  destruct (nth_error m (q_vara e)) as [[[i|] b]|]; cbn [bind fst snd option_map]; [| |reflexivity];
    (destruct (nth_error m (q_varb e)) as [[[j|] b']|]; cbn [bind fst snd option_map]; [| |reflexivity]).
  1-3: rewrite IH; destruct (copy_quadratic m l v) as [[[? ?] ?]|]; reflexivity.
  destruct (b && b'); [|apply IH]. replace (sk * v + sk * q_factor e) with (sk * (v + q_factor e)) by lia. apply IH.
Qed.
Lemma add_to_index_scl i f l : add_to_index i (sk * f) (map (scale_term sk) l) = option_map (map (scale_term sk)) (add_to_index i f l).
Proof.
  induction l as [|e l IH]; cbn [add_to_index map]; [reflexivity|]. cbn [scale_term o_var o_factor]. destruct (Nat.eqb i (o_var e)).
  - cbn. unfold scale_term at 2. cbn. do 3 f_equal. lia.
  - rewrite IH. destruct (add_to_index i f l); reflexivity.
Qed.
Lemma merge_elements_scl mo : forall i l, merge_elements i (map (scale_term sk) mo) (map (scale_term sk) l) = option_map (map (scale_term sk)) (merge_elements i mo l).
Proof.
  induction mo as [|e mo IH]; intros; cbn [merge_elements map]; [reflexivity|]. cbn [scale_term o_factor]. rewrite add_to_index_scl.
  destruct (add_to_index i (o_factor e) l); cbn [option_map bind]; [apply IH|reflexivity].
Qed.
Lemma objective_scl m o mo :
  objective_function_exclude_copy m ((scale_objective sk) o) (sc_merge mo) = option_map (scale_objective sk) (objective_function_exclude_copy m o mo).
Proof.
  unfold objective_function_exclude_copy. cbn [scale_objective sc_merge o_elements o_qelements o_value mo_elements mo_value].
  replace (sk * o_value o + sk * mo_value mo) with (sk * (o_value o + mo_value mo)) by lia. rewrite copy_linear_scl.
  destruct (copy_linear m (o_elements o) (o_value o + mo_value mo)) as [[le v]|]; cbn [option_map bind fst snd]; [|reflexivity]. rewrite copy_quadratic_scl.
  destruct (copy_quadratic m (o_qelements o) v) as [[[le' qe] v']|]; cbn [option_map bind fst snd]; [|reflexivity].
  rewrite <- map_app, merge_elements_scl. destruct (merge_elements 0 (mo_elements mo) (le ++ le')); reflexivity.
Qed.
Lemma make_problem_scl pb aff mo s : make_problem ((scale_problem sk) pb) aff (sc_merge mo) s = outcome_map (scale_problem sk) (make_problem pb aff mo s).
Proof.
  unfold make_problem. cbn [scale_problem p_vars p_objective p_equal p_greater p_less p_type p_problem_type].
  destruct (Nat.eqb _ _); cbn [ensures]; [|reflexivity]. rewrite objective_scl.
  destruct (objective_function_exclude_copy _ (p_objective pb) mo) as [o|]; cbn [option_map of_opt obind]; [|reflexivity].
  destruct (of_opt (variables_exclude_copy _ _ _ _ _)) as [[vs af]| |]; cbn [obind]; try reflexivity.
  destruct (names_kept _ _ _); cbn [ensures]; [|reflexivity].
  destruct (constraints_exclude_copy _ _ (p_equal pb)) as [e|]; cbn [of_opt obind]; [|reflexivity].
  destruct (constraints_exclude_copy _ _ (p_greater pb)) as [gr|]; cbn [of_opt obind]; [|reflexivity].
  destruct (constraints_exclude_copy _ _ (p_less pb)) as [le|]; cbn [of_opt obind]; [|reflexivity].
  destruct (_ && _); reflexivity.
Qed.
Lemma finish_scl fuel pb aff ch s : even_qcosts pb -> finish fuel ((scale_problem sk) pb) aff ch s = outcome_map (option_map (scale_problem sk)) (finish fuel pb aff ch s).
Proof.
  intros E. unfold finish. rewrite affects_scl. destruct (affects fuel pb ch s) as [[s1|]| |]; cbn [obind]; try reflexivity.
  rewrite make_lp_scl by exact E. destruct (make_lp_from_bqp_objective pb ch s1) as [mo|]; cbn [option_map of_opt obind]; [|reflexivity].
  unfold try_remove_unused_variable. rewrite remove_unused_scl.
  destruct (remove_unused _ _ _ _ _) as [vars|]; cbn [bind of_opt obind]; [|reflexivity]. rewrite affects_scl.
  destruct (affects fuel pb ch _) as [[s3|]| |]; cbn [obind]; try reflexivity. rewrite make_problem_scl.
  destruct (make_problem pb aff mo s3); reflexivity.
Qed.
Lemma preprocess_scl fuel pb : even_qcosts pb -> preprocess fuel ((scale_problem sk) pb) = outcome_map (option_map (scale_problem sk)) (preprocess fuel pb).
Proof.
  intros E. unfold preprocess. change (make_caches ((scale_problem sk) pb)) with (make_caches pb). destruct (make_caches pb) as [ch|]; cbn [of_opt obind]; [|reflexivity].
  change (try_affect_bounded_variable ((scale_problem sk) pb)) with (try_affect_bounded_variable pb). change (init_state ((scale_problem sk) pb)) with (init_state pb).
  change (try_affect_variable ((scale_problem sk) pb)) with (try_affect_variable pb). destruct (try_affect_variable pb _) as [s2| |]; cbn [obind]; try reflexivity.
  apply finish_scl, E.
Qed.
(** The class stays one with coefficients 1 and -1. *)
Lemma make_merged_scl std_sort ddiv po pb : plain_pre_order po -> make_merged std_sort ddiv po ((scale_problem sk) pb) = make_merged std_sort ddiv po pb.
Proof. destruct po; intros H; try destruct H; reflexivity. Qed.
End Preprocess.

(** ** The solver *)
Section Solver.
Variable sk : Z.
Hypothesis Hpos : 0 < sk.
Context {F G : Type} (fo : fops F) (ro : rops G) (std_sort : forall A : Type, (A -> A -> bool) -> list A -> list A).
Variable rel : F -> F -> Prop.
Hypothesis Hsc : scaling fo rel.
Hypothesis Hsort : sort_by_comparisons std_sort.
Hypothesis Hshuffle : shuffle_by_draws ro.

Definition rc_scl (a b : rc F) : Prop := rel (rc_value a) (rc_value b) /\ rc_f a = rc_f b /\ rc_id a = rc_id b.
Definition sv_scl (a b : solver F) : Prop :=
  sv_class a = sv_class b /\ sv_ap a = sv_ap b /\ sv_A a = sv_A b /\ sv_b a = sv_b b /\ sv_m a = sv_m b /\
  (forall v x, both rel (sv_c a v x) (sv_c b v x)) /\ sv_mode b = sv_mode a /\ sv_after a = [] /\ sv_after b = [].
Definition s_scl (a b : state F G) : Prop :=
  s_x a = s_x b /\ Forall2 rel (s_P a) (s_P b) /\ Forall2 rel (s_pi a) (s_pi b) /\ Forall2 rc_scl (s_R a) (s_R b) /\ s_g a = s_g b.

Lemma both_bind {A A' B B'} (R : A -> A' -> Prop) (S : B -> B' -> Prop) a a' f f' :
  both R a a' -> (forall x x', R x x' -> both S (f x) (f' x')) -> both S (bind a f) (bind a' f').
Proof. destruct a, a'; cbn; intros H K; auto; contradiction. Qed.
Lemma both_nth {A B} (R : A -> B -> Prop) l l' i : Forall2 R l l' -> both R (nth_error l i) (nth_error l' i).
Proof. intros H. revert i. induction H; intros [|i]; cbn; auto. Qed.
Lemma both_upd {A B} (R : A -> B -> Prop) l l' i a b : Forall2 R l l' -> R a b -> both (Forall2 R) (list_upd l i a) (list_upd l' i b).
Proof.
  intros H Hab. revert i. induction H as [|x y l l' Hxy H IH]; intros [|i]; cbn; auto. specialize (IH i).
  destruct (list_upd l i a), (list_upd l' i b); cbn in *; auto.
Qed.
Lemma both_modify {A B} (R : A -> B -> Prop) l l' i f f' : Forall2 R l l' -> (forall a b, R a b -> R (f a) (f' b)) ->
  both (Forall2 R) (list_modify l i f) (list_modify l' i f').
Proof. intros H K. unfold list_modify. apply (both_bind R); [now apply both_nth|]. intros a b Hab. apply both_upd; auto. Qed.
Lemma both_eq_refl {A} (a : option A) : both eq a a.
Proof. destruct a; cbn; auto. Qed.

Lemma factor_scl a b slot : sv_scl a b -> factor a slot = factor b slot.
Proof. intros (E1 & _ & E3 & _). unfold factor. now rewrite E1, E3. Qed.
Lemma row_sum_scl a b x row : sv_scl a b -> forall v, row_sum a x row v = row_sum b x row v.
Proof.
  intros E. induction row as [|[slot col] row IH]; intros; cbn [row_sum]; [reflexivity|]. rewrite (factor_scl a b) by exact E.
  destruct (factor b slot); cbn [bind]; [|reflexivity]. destruct (nth_error x col); cbn [bind]; [apply IH|reflexivity].
Qed.
Lemma bound_min_scl a b k : sv_scl a b -> bound_min a k = bound_min b k.
Proof. intros (_ & _ & _ & E & _). unfold bound_min. now rewrite E. Qed.
Lemma bound_max_scl a b k : sv_scl a b -> bound_max a k = bound_max b k.
Proof. intros (_ & _ & _ & E & _). unfold bound_max. now rewrite E. Qed.
Lemma is_valid_scl a b k x : sv_scl a b -> is_valid_constraint a k x = is_valid_constraint b k x.
Proof.
  intros E. unfold is_valid_constraint. rewrite (bound_min_scl a b), (bound_max_scl a b) by exact E. replace (sv_ap a) with (sv_ap b) by (symmetry; apply E).
  destruct (mx_row (sv_ap b) k); cbn [bind]; [|reflexivity]. now rewrite (row_sum_scl a b).
Qed.
Lemma decrease_scl theta row : forall P P', Forall2 rel P P' -> both (Forall2 rel) (decrease_preference fo theta row P) (decrease_preference fo theta row P').
Proof.
  induction row as [|[slot col] row IH]; intros P P' H; cbn [decrease_preference]; [exact H|].
  apply (both_bind (Forall2 rel)); [|auto]. apply both_modify; [exact H|]. intros p p' Hp. now apply (sc_mul_r _ _ Hsc).
Qed.
Definition pair_scl (a b : F * F) : Prop := rel (fst a) (fst b) /\ rel (snd a) (snd b).
Lemma sum_column_scl a b P P' pi pi' l : sv_scl a b -> Forall2 rel P P' -> Forall2 rel pi pi' -> forall s1 s1' s2 s2', rel s1 s1' -> rel s2 s2' ->
  both pair_scl (sum_column fo a P pi l s1 s2) (sum_column fo b P' pi' l s1' s2').
Proof.
  intros E HP Hpi. induction l as [|[slot row] l IH]; intros s1 s1' s2 s2' H1 H2; cbn [sum_column]; [split; assumption|].
  apply (both_bind rel); [now apply both_nth|]. intros q q' Hq. apply (both_bind rel); [now apply both_nth|]. intros p p' Hp.
  rewrite (factor_scl a b) by exact E. replace (sv_class a) with (sv_class b) by (symmetry; apply E).
  assert (W : both pair_scl (do f <- factor b slot; let z := fl_of_Z fo f in sum_column fo a P pi l (fl_add fo s1 (fl_mul fo z q)) (fl_add fo s2 (fl_mul fo z p)))
                (do f <- factor b slot; let z := fl_of_Z fo f in sum_column fo b P' pi' l (fl_add fo s1' (fl_mul fo z q')) (fl_add fo s2' (fl_mul fo z p')))).
  { destruct (factor b slot); cbn [bind]; [|exact I]. cbv zeta. apply IH; apply (sc_add _ _ Hsc); try assumption; now apply (sc_mul_l _ _ Hsc). }
  assert (N : both pair_scl (sum_column fo a P pi l (fl_add fo s1 q) (fl_add fo s2 p)) (sum_column fo b P' pi' l (fl_add fo s1' q') (fl_add fo s2' p'))).
  { apply IH; now apply (sc_add _ _ Hsc). }
  destruct (sv_class b); assumption.
Qed.
Definition triple_scl (a b : list (rc F) * nat * Z) : Prop := Forall2 rc_scl (fst (fst a)) (fst (fst b)) /\ snd (fst a) = snd (fst b) /\ snd a = snd b.
Lemma reduced_costs_scl a b x P P' pi pi' row : sv_scl a b -> Forall2 rel P P' -> Forall2 rel pi pi' -> forall R R' r c, Forall2 rc_scl R R' ->
  both triple_scl (compute_reduced_costs fo a x P pi row R r c) (compute_reduced_costs fo b x P' pi' row R' r c).
Proof.
  intros E HP Hpi. induction row as [|[slot col] row IH]; intros R R' r c HR; cbn [compute_reduced_costs]; [split; [exact HR|split; reflexivity]|].
  replace (sv_ap a) with (sv_ap b) by (symmetry; apply E). destruct (mx_column (sv_ap b) col) as [l|]; cbn [bind]; [|exact I].
  apply (both_bind pair_scl); [apply sum_column_scl; try assumption; apply (sc_zero _ _ Hsc)|]. intros [u v] [u' v'] [Hu Hv]. cbn [fst snd] in Hu, Hv.
  apply (both_bind rel); [apply E|]. intros k k' Hk. rewrite (factor_scl a b) by exact E. destruct (factor b slot) as [f|]; cbn [bind]; [|exact I].
  cbv zeta. apply (both_bind (Forall2 rc_scl)); [|auto]. apply both_upd; [exact HR|].
  assert (Hw : rel (fl_sub fo (fl_sub fo k u) v) (fl_sub fo (fl_sub fo k' u') v')) by (apply (sc_sub _ _ Hsc); [apply (sc_sub _ _ Hsc)|]; assumption).
  destruct (f <? 0); (split; [cbn [rc_value]|split; reflexivity]); [now apply (sc_neg _ _ Hsc)|exact Hw].
Qed.
Lemma push_costs_scl a b x row amp : sv_scl a b -> forall n i R R', Forall2 rc_scl R R' ->
  both (Forall2 rc_scl) (push_costs fo a x row amp R n i) (push_costs fo b x row amp R' n i).
Proof.
  intros E. induction n as [|n IH]; intros i R R' HR; cbn [push_costs]; [exact HR|].
  apply (both_bind rc_scl); [now apply both_nth|]. intros e e' (He & Hf & Hi). rewrite Hf, Hi.
  apply (both_bind rel).
  - replace (sv_class a) with (sv_class b) by (symmetry; apply E).
    assert (W : both rel (do (_, col) <- nth_error row (rc_id e'); sv_c a col x) (do (_, col) <- nth_error row (rc_id e'); sv_c b col x)).
    { destruct (nth_error row (rc_id e')) as [[? col]|]; cbn [bind]; [apply E|exact I]. }
    assert (N : both rel (sv_c a (rc_id e') x) (sv_c b (rc_id e') x)) by apply E. destruct (sv_class b); assumption.
  - intros c c' Hc. apply (both_bind (Forall2 rc_scl)); [|auto]. apply both_upd; [exact HR|].
    split; [cbn [rc_value]|split; reflexivity]. apply (sc_add _ _ Hsc); [exact He|]. now apply (sc_mul_l _ _ Hsc).
Qed.
Lemma rc_lt_scl mode a b a' b' : rc_scl a a' -> rc_scl b b' -> rc_lt fo mode a b = rc_lt fo mode a' b'.
Proof. intros (Ha & _) (Hb & _). destruct mode; cbn [rc_lt ]; now apply (sc_lt _ _ Hsc). Qed.
Lemma shuffle_runs_scl l l' : Forall2 rc_scl l l' -> forall first first' run run' (g : G), rc_scl first first' -> Forall2 rc_scl run run' ->
  Forall2 rc_scl (fst (shuffle_runs fo ro first run l g)) (fst (shuffle_runs fo ro first' run' l' g)) /\
  snd (shuffle_runs fo ro first run l g) = snd (shuffle_runs fo ro first' run' l' g).
Proof.
  induction 1 as [|b b' l l' Hb H IH]; intros first first' run run' g Hf Hr; cbn [shuffle_runs]; [now apply Hshuffle|].
  rewrite (sc_eqb _ _ Hsc (rc_value first) (rc_value first') (rc_value b) (rc_value b')) by (apply Hf || apply Hb).
  destruct (fl_eqb fo (rc_value first') (rc_value b')); [apply IH; [exact Hf|]; apply Forall2_app; [exact Hr|constructor; [exact Hb|constructor]]|].
  destruct (Hshuffle _ _ rc_scl g run run' Hr) as [S1 S2]. destruct (rg_shuffle ro _ g run) as [s g1], (rg_shuffle ro _ g run') as [s' g1'].
  cbn [fst snd] in S1, S2. subst g1'. destruct (IH b b' [b] [b'] g1 Hb (Forall2_cons _ _ Hb (Forall2_nil _))) as [T1 T2].
  destruct (shuffle_runs fo ro b [b] l g1) as [t g2], (shuffle_runs fo ro b' [b'] l' g1) as [t' g2']. cbn [fst snd] in *. subst g2'.
  split; [now apply Forall2_app|reflexivity].
Qed.
Lemma Forall2_firstn {A B} (R : A -> B -> Prop) n l l' : Forall2 R l l' -> Forall2 R (firstn n l) (firstn n l').
Proof. intros H. revert n. induction H; intros [|n]; cbn; auto. Qed.
Lemma Forall2_skipn {A B} (R : A -> B -> Prop) n l l' : Forall2 R l l' -> Forall2 R (skipn n l) (skipn n l').
Proof. intros H. revert n. induction H; intros [|n]; cbn; auto. Qed.
Lemma calculator_sort_scl mode R R' n (g : G) : Forall2 rc_scl R R' ->
  Forall2 rc_scl (fst (calculator_sort fo ro std_sort mode R n g)) (fst (calculator_sort fo ro std_sort mode R' n g)) /\
  snd (calculator_sort fo ro std_sort mode R n g) = snd (calculator_sort fo ro std_sort mode R' n g).
Proof.
  intros H. unfold calculator_sort. pose proof (Forall2_firstn rc_scl n _ _ H) as H1. pose proof (Forall2_skipn rc_scl n _ _ H) as H2.
  pose proof (Hsort _ _ rc_scl (rc_lt fo mode) (rc_lt fo mode) _ _ (fun a b a' b' => rc_lt_scl mode a b a' b') H1) as H3.
  destruct H1 as [|e e' l l' He H1]; [split; [exact H|reflexivity]|]. destruct H1 as [|e2 e2' l l' He2 H1]; [split; [exact H|reflexivity]|].
  destruct H3 as [|u u' w w' Hu H3]; [split; [exact H2|reflexivity]|].
  destruct (shuffle_runs_scl w w' H3 u u' [u] [u'] g Hu (Forall2_cons _ _ Hu (Forall2_nil _))) as [T1 T2].
  destruct (shuffle_runs fo ro u [u] w g) as [t g2], (shuffle_runs fo ro u' [u'] w' g) as [t' g2']. cbn [fst snd] in *. subst g2'.
  split; [now apply Forall2_app|reflexivity].
Qed.
Lemma stop_iterating_scl mode v v' (g : G) : rel v v' -> stop_iterating fo ro mode v g = stop_iterating fo ro mode v' g.
Proof.
  intros H. unfold stop_iterating. pose proof (sc_zero _ _ Hsc) as Z0. rewrite (sc_eqb _ _ Hsc v v' _ _ H Z0). destruct (fl_eqb _ _ _); [reflexivity|].
  destruct mode; [now rewrite (sc_lt _ _ Hsc v v' _ _ H Z0)|now rewrite (sc_lt _ _ Hsc _ _ v v' Z0 H)].
Qed.
Lemma nth_Z_scl R R' i : Forall2 rc_scl R R' -> both rc_scl (nth_Z R i) (nth_Z R' i).
Proof. intros H. unfold nth_Z. destruct (i <? 0); [exact I|now apply both_nth]. Qed.
Lemma select_loop_scl mode R R' : Forall2 rc_scl R R' -> forall n i hi (g : G),
  select_loop fo ro mode R n i hi g = select_loop fo ro mode R' n i hi g.
Proof.
  intros H. induction n as [|n IH]; intros; cbn [select_loop]; [reflexivity|]. pose proof (nth_Z_scl R R' i H) as K.
  destruct (nth_Z R i) as [e|], (nth_Z R' i) as [e'|]; cbn [both] in K; try contradiction; cbn [bind]; [|reflexivity].
  rewrite (stop_iterating_scl mode _ _ g (proj1 K)). destruct (stop_iterating fo ro mode (rc_value e') g) as [stop g']. destruct stop; [reflexivity|apply IH].
Qed.
Lemma select_scl a b R R' r c lo hi (g : G) : sv_scl a b -> Forall2 rc_scl R R' ->
  select_variables fo ro a R r c lo hi g = select_variables fo ro b R' r c lo hi g.
Proof.
  intros E H. pose proof E as (E1 & _ & _ & _ & _ & _ & E7 & E8 & E9). unfold select_variables. rewrite E1, E7, E8, E9, !app_nil_r.
  destruct (sv_class b); try reflexivity; (destruct (lo =? hi); [reflexivity|]); cbv zeta; now apply select_loop_scl.
Qed.
Definition xP_scl (a b : list bool * list F) : Prop := fst a = fst b /\ Forall2 rel (snd a) (snd b).
Lemma assign_range_scl row R R' up d d' : Forall2 rc_scl R R' -> rel d d' -> forall n i x P P', Forall2 rel P P' ->
  both xP_scl (assign_range fo row R up d n i x P) (assign_range fo row R' up d' n i x P').
Proof.
  intros HR Hd. induction n as [|n IH]; intros i x P P' HP; cbn [assign_range]; [split; [reflexivity|exact HP]|].
  apply (both_bind rc_scl); [now apply both_nth|]. intros e e' (He & Hf & Hi). rewrite Hi. destruct (nth_error row (rc_id e')) as [[slot col]|]; cbn [bind]; [|exact I].
  cbv zeta. replace (is_negative e) with (is_negative e') by (unfold is_negative; now rewrite Hf).
  destruct (list_upd x col _) as [x'|]; cbn [bind]; [|exact I]. apply (both_bind (Forall2 rel)); [|auto].
  apply both_modify; [exact HP|]. intros p p' Hp. destruct (xorb _ _); [now apply (sc_add _ _ Hsc)|now apply (sc_sub _ _ Hsc)].
Qed.
Definition sb_scl (a b : state F G * bool) : Prop := s_scl (fst a) (fst b).
Lemma affect_scl a b k row sel r kappa delta delta' s s' : sv_scl a b -> rel delta delta' -> s_scl s s' ->
  both sb_scl (Rows_model.affect fo a k row sel r kappa delta s) (Rows_model.affect fo b k row sel r kappa delta' s').
Proof.
  intros E Hd (Sx & SP & Spi & SR & Sg). unfold Rows_model.affect. rewrite Sx, Sg. set (two := fl_of_Z fo 2). set (ratio := fl_div fo kappa _). set (middle := fl_div fo _ two).
  cbv zeta. apply (both_bind rel); [now apply both_nth|]. intros old old' Hold.
  pose (Q := fun a b : list bool * list F * list F => fst (fst a) = fst (fst b) /\ Forall2 rel (snd (fst a)) (snd (fst b)) /\ Forall2 rel (snd a) (snd b)).
  assert (Hdd : forall u u', rel u u' -> rel (fl_add fo delta (fl_mul fo ratio u)) (fl_add fo delta' (fl_mul fo ratio u'))).
  { intros u u' Hu. apply (sc_add _ _ Hsc); [exact Hd|now apply (sc_mul_l _ _ Hsc)]. }
  apply (both_bind Q).
  - destruct (sel <? 0); [|destruct (Z.of_nat r <=? sel + 1)].
    + apply (both_bind rc_scl); [now apply both_nth|]. intros r0 r0' (H0 & _).
      apply (both_bind xP_scl); [apply assign_range_scl; try assumption; apply Hdd; now apply (sc_div _ _ Hsc)|].
      intros [x P] [x' P'] [Hx HP]. cbn [fst snd] in *. subst x'. split; [reflexivity|split; assumption].
    + apply (both_bind rc_scl); [now apply nth_Z_scl|]. intros r0 r0' (H0 & _).
      apply (both_bind xP_scl); [apply assign_range_scl; try assumption; apply Hdd; now apply (sc_mul_r _ _ Hsc)|].
      intros [x P] [x' P'] [Hx HP]. cbn [fst snd] in *. subst x'. split; [reflexivity|split; assumption].
    + apply (both_bind rc_scl); [now apply nth_Z_scl|]. intros r0 r0' (H0 & _). apply (both_bind rc_scl); [now apply nth_Z_scl|]. intros r1 r1' (H1 & _).
      apply (both_bind (Forall2 rel)).
      { apply both_modify; [exact Spi|]. intros p p' Hp. apply (sc_add _ _ Hsc); [exact Hp|]. apply (sc_div _ _ Hsc). now apply (sc_add _ _ Hsc). }
      intros pi pi' Hpi. assert (D : rel (fl_sub fo (rc_value r1) (rc_value r0)) (fl_sub fo (rc_value r1') (rc_value r0'))) by now apply (sc_sub _ _ Hsc).
      apply (both_bind xP_scl); [apply assign_range_scl; try assumption; now apply Hdd|].
      intros [x P] [x' P'] [Hx HP]. cbn [fst snd] in *. subst x'. apply (both_bind xP_scl); [apply assign_range_scl; try assumption; now apply Hdd|].
      intros [y P2] [y' P2'] [Hy HP2]. cbn [fst snd] in *. subst y'. split; [reflexivity|split; assumption].
  - intros [[x P] pi] [[x' P'] pi'] (Hx & HP & Hpi). cbn [fst snd] in *. subst x'. rewrite (is_valid_scl a b) by exact E.
    destruct (is_valid_constraint b k x) as [ok|]; cbn [bind]; [|exact I]. destruct ok; [|exact I].
    apply (both_bind rel); [now apply both_nth|]. intros q q' Hq. unfold sb_scl, s_scl. cbn [fst both s_x s_P s_pi s_R s_g both]. repeat split; assumption.
Qed.
Lemma update_row_scl a b push kappa delta delta' theta k s s' : sv_scl a b -> rel delta delta' -> s_scl s s' ->
  both sb_scl (update_row fo ro std_sort a push kappa delta theta k s) (update_row fo ro std_sort b push kappa delta' theta k s').
Proof.
  intros E Hd (Sx & SP & Spi & SR & Sg). unfold update_row. replace (sv_ap a) with (sv_ap b) by (symmetry; apply E).
  destruct (mx_row (sv_ap b) k) as [row|]; cbn [bind]; [|exact I]. apply (both_bind (Forall2 rel)); [now apply decrease_scl|]. intros P P' HP.
  rewrite Sx, Sg. apply (both_bind triple_scl); [now apply reduced_costs_scl|]. intros [[R r] c] [[R' r'] c'] (HR & Hr & Hc). cbn [fst snd] in *. subst r' c'.
  apply (both_bind (Forall2 rc_scl)); [destruct push; [now apply push_costs_scl|exact HR]|]. clear R R' HR. intros R R' HR.
  replace (sv_mode b) with (sv_mode a) by (symmetry; apply E). destruct (calculator_sort_scl (sv_mode a) R R' r (s_g s') HR) as [T1 T2].
  destruct (calculator_sort fo ro std_sort (sv_mode a) R r (s_g s')) as [U g], (calculator_sort fo ro std_sort (sv_mode a) R' r (s_g s')) as [U' g'].
  cbn [fst snd] in *. subst g'. rewrite (bound_min_scl a b), (bound_max_scl a b) by exact E.
  destruct (bound_min b k) as [lo|]; cbn [bind]; [|exact I]. destruct (bound_max b k) as [hi|]; cbn [bind]; [|exact I].
  rewrite (select_scl a b U U') by assumption. destruct (select_variables fo ro b U' r c lo hi g) as [[sel g2]|]; cbn [bind]; [|exact I].
  apply affect_scl; [exact E|exact Hd|]. repeat split; assumption.
Qed.

Lemma update_rows_scl a b push kappa delta delta' theta ks : sv_scl a b -> shares_affect (sv_class a) -> rel delta delta' -> forall s s' c c', s_scl s s' ->
  both sb_scl (update_rows fo ro std_sort a push kappa delta theta ks s c) (update_rows fo ro std_sort b push kappa delta' theta ks s' c').
Proof.
  intros E Hcl Hd. induction ks as [|k ks IH]; intros s s' c c' Hs; cbn [update_rows]; [exact Hs|]. apply (both_bind sb_scl).
  - unfold any_update_row. replace (sv_class b) with (sv_class a) by apply E.
    pose proof (update_row_scl a b push kappa delta delta' theta k s s' E Hd Hs) as H. destruct (sv_class a); try contradiction; exact H.
  - intros [s1 b1] [s1' b1'] H1. apply IH. exact H1.
Qed.
Lemma violated_scl a b x ks : sv_scl a b -> violated_from a x ks = violated_from b x ks.
Proof. intros E. induction ks as [|k ks IH]; cbn [violated_from]; [reflexivity|]. now rewrite (is_valid_scl a b), IH. Qed.
Lemma infeasibility_scl a b x ks : sv_scl a b -> infeasibility_from a x ks = infeasibility_from b x ks.
Proof.
  intros E. induction ks as [|k ks IH]; cbn [infeasibility_from]; [reflexivity|]. rewrite (bound_min_scl a b), (bound_max_scl a b), IH by exact E.
  replace (sv_ap a) with (sv_ap b) by (symmetry; apply E). destruct (mx_row (sv_ap b) k); cbn [bind]; [|reflexivity]. now rewrite (row_sum_scl a b).
Qed.
Lemma order_init_scl a b x od : sv_scl a b -> order_init a x od = order_init b x od.
Proof.
  intros E. unfold order_init, infeasibility, violated. replace (sv_m a) with (sv_m b) by (symmetry; apply E).
  now rewrite (infeasibility_scl a b), (violated_scl a b).
Qed.
Lemma recompute_scl a b x od : sv_scl a b -> recompute a x od = recompute b x od.
Proof.
  intros E. unfold recompute, infeasibility, count_violated, violated. replace (sv_m a) with (sv_m b) by (symmetry; apply E).
  now rewrite (infeasibility_scl a b), (violated_scl a b).
Qed.
Lemma sweep_scl pi pi' od (g : G) : Forall2 rel pi pi' -> sweep fo ro std_sort pi od g = sweep fo ro std_sort pi' od g.
Proof.
  intros H. assert (L : length pi = length pi') by (clear - H; induction H; cbn; congruence).
  assert (N : forall i, rel (nth i pi (fl_of_Z fo 0)) (nth i pi' (fl_of_Z fo 0))).
  { clear L. induction H as [|u v pi pi' Hu H IH]; intros [|i]; cbn [nth]; try exact (sc_zero _ _ Hsc); [exact Hu|apply IH]. }
  assert (E : forall l l' : list nat, Forall2 eq l l' -> l = l') by (clear; induction 1; congruence).
  assert (R : forall l : list nat, Forall2 eq l l) by (clear; induction l; constructor; auto).
  unfold sweep. rewrite L. destruct (od_order od); try reflexivity; (destruct (all_below _ _); [|reflexivity]); cbv zeta.
  - rewrite (E _ _ (Hsort nat nat eq (fun a b => pi_lt fo pi b a) (fun a b => pi_lt fo pi' b a) (od_R od) (od_R od)
      (fun a b a' b' Ea Eb => ltac:(subst a' b'; exact (sc_lt _ _ Hsc _ _ _ _ (N b) (N a)))) (R _))). reflexivity.
  - rewrite (E _ _ (Hsort nat nat eq (fun a b => pi_lt fo pi a b) (fun a b => pi_lt fo pi' a b) (od_R od) (od_R od)
      (fun a b a' b' Ea Eb => ltac:(subst a' b'; exact (sc_lt _ _ Hsc _ _ _ _ (N a) (N b)))) (R _))). reflexivity.
Qed.
Definition run_scl (a b : Z * order_state * state F G) : Prop := fst a = fst b /\ True /\ s_scl (snd a) (snd b).
Lemma run_scaled a b push kappa delta delta' theta od s s' : sv_scl a b -> shares_affect (sv_class a) -> rel delta delta' -> True -> s_scl s s' ->
  both run_scl (run fo ro std_sort a push kappa delta theta od s) (run fo ro std_sort b push kappa delta' theta od s').
Proof.
  intros E Hcl Hd _ Hs. unfold run. pose proof Hs as (Sx & SP & Spi & SR & Sg).
  set (od1 := match push with Some _ => _ | None => _ end).
  rewrite (sweep_scl (s_pi s) (s_pi s') od1 (s_g s) Spi), Sg. destruct (sweep fo ro std_sort (s_pi s') od1 (s_g s')) as [[[ks od2] g]|] eqn:W; cbn [bind]; [|exact I].
  apply (both_bind sb_scl); [apply update_rows_scl; try assumption; repeat split; assumption|]. intros [s1 b1] [s1' b1'] H2. cbn [sb_scl fst] in H2. unfold sb_scl in H2. cbn [fst] in H2.
  rewrite (recompute_scl a b) by exact E. replace (s_x s1') with (s_x s1) by apply H2.
  destruct (recompute b (s_x s1) od2) as [[rem od3]|] eqn:R; cbn [bind]; [|exact I]. split; [reflexivity|]. split; [exact I|exact H2].
Qed.

(** *** The loop *)
Definition best_scl (a b : best) : Prop := be_x a = be_x b /\ be_value b = option_map (Z.mul sk) (be_value a) /\ be_remaining a = be_remaining b.
Definition loop_scl (a b : @loop F G) : Prop :=
  lp_od a = lp_od b /\ True /\ s_scl (lp_s a) (lp_s b) /\ lp_kappa a = lp_kappa b /\ best_scl (lp_best a) (lp_best b) /\ lp_tried a = lp_tried b.
Lemma results_lin_scl x l : forall v, results_lin x (map (scale_term sk) l) (sk * v) = option_map (Z.mul sk) (results_lin x l v).
Proof.
  induction l as [|e l IH]; intros; cbn [results_lin map]; [reflexivity|]. cbn [scale_term o_var o_factor]. destruct (nth_error x (o_var e)) as [b|]; cbn [bind option_map]; [|reflexivity].
  destruct b; [|apply IH]. replace (sk * v + sk * o_factor e) with (sk * (v + o_factor e)) by lia. apply IH.
Qed.
Lemma results_quad_scl x l : forall v, results_quad x (map (scale_qterm sk) l) (sk * v) = option_map (Z.mul sk) (results_quad x l v).
Proof.
  induction l as [|e l IH]; intros; cbn [results_quad map]; [reflexivity|]. cbn [scale_qterm q_vara q_varb q_factor].
  destruct (nth_error x (q_vara e)) as [b|]; cbn [bind option_map]; [|reflexivity].
  destruct (if b then nth_error x (q_varb e) else Some false) as [b'|]; cbn [bind option_map]; [|reflexivity].
  destruct (b && b'); [|apply IH]. replace (sk * v + sk * q_factor e) with (sk * (v + q_factor e)) by lia. apply IH.
Qed.
Lemma results_scl o x : results ((scale_objective sk) o) x = option_map (Z.mul sk) (results o x).
Proof.
  unfold results. cbn [scale_objective o_elements o_qelements o_value]. rewrite results_lin_scl.
  destruct (results_lin x (o_elements o) (o_value o)); cbn [option_map bind]; [apply results_quad_scl|reflexivity].
Qed.
Lemma store_value_scl mode a b x v : best_scl a b -> best_scl (store_value mode a x v) (store_value mode b x (sk * v)).
Proof.
  intros (Hx & Hv & Hr). unfold store_value. replace (is_better mode (sk * v) (be_value b)) with (is_better mode v (be_value a)).
  - destruct (is_better mode v (be_value a)); split; cbn; auto.
  - rewrite Hv. destruct (be_value a) as [w|]; cbn; [|reflexivity].
    destruct mode; match goal with |- (?a <? ?b) = (?e <? ?f) => destruct (Z.ltb_spec a b), (Z.ltb_spec e f); nia || reflexivity end.
Qed.
Lemma store_remaining_scl a b x r : best_scl a b -> best_scl (store_remaining a x r) (store_remaining b x r).
Proof. intros (Hx & Hv & Hr). unfold store_remaining. rewrite <- Hr. destruct (r <? be_remaining a); split; cbn; auto. Qed.
(** The same parameters but for delta. *)
Definition pa_scl (a b : sparams F) : Prop :=
  pa_limit a = pa_limit b /\ pa_w a = pa_w b /\ pa_kappa_min a = pa_kappa_min b /\ pa_kappa_step a = pa_kappa_step b /\ pa_kappa_max a = pa_kappa_max b /\
  pa_alpha a = pa_alpha b /\ pa_theta a = pa_theta b /\ rel (pa_delta a) (pa_delta b) /\ pa_pushing_k_factor a = pa_pushing_k_factor b /\
  pa_amplifier a = pa_amplifier b /\ pa_pushes_limit a = pa_pushes_limit b /\ pa_pushing_iteration_limit a = pa_pushing_iteration_limit b /\
  pa_order a = pa_order b /\ pa_init a = pa_init b.
Definition rrun {A B} (R : A -> B -> Prop) (a : run_result A) (b : run_result B) : Prop :=
  match a, b with Finished x, Finished y => R x y | Aborted, Aborted => True | OutOfFuel, OutOfFuel => True | _, _ => False end.
Lemma next_kappa_scl p q m kappa rem : pa_scl p q -> next_kappa fo p m kappa rem = next_kappa fo q m kappa rem.
Proof. intros (_ & _ & _ & E & _ & E' & _). unfold next_kappa. now rewrite E, E'. Qed.
Lemma with_g_scl s s' (g : G) : s_scl s s' -> s_scl (with_g s g) (with_g s' g).
Proof. intros (A & B & C & D & _). repeat split; assumption. Qed.
Variables (a b : solver F) (p q : sparams F) (o : objective).
Hypothesis Hab : sv_scl a b.
Hypothesis Hcl : shares_affect (sv_class a).
Hypothesis Hpq : pa_scl p q.
Lemma main_loop_scl fuel : forall i br l l', loop_scl l l' ->
  rrun (fun x y => loop_scl (fst x) (fst y) /\ snd x = snd y) (main_loop fo ro std_sort fuel a p o i br l) (main_loop fo ro std_sort fuel b q ((scale_objective sk) o) i br l').
Proof.
  pose proof Hpq as (P1 & P2 & P3 & P4 & P5 & P6 & P7 & P8 & P9 & P10 & P11 & P12 & P13 & P14).
  induction fuel as [|fuel IH]; intros i br l l' Hl; cbn [main_loop]; [exact I|]. rewrite P1. pose proof Hl as (L1 & L2 & L3 & L4 & L5 & L6).
  destruct (i =? pa_limit q); [split; [exact Hl|reflexivity]|]. rewrite <- P7, <- L4, <- L1.
  pose proof (run_scaled a b None (lp_kappa l) _ _ (pa_theta p) (lp_od l) _ _ Hab Hcl P8 L2 L3) as R.
  destruct (run fo ro std_sort a None (lp_kappa l) (pa_delta p) (pa_theta p) (lp_od l) (lp_s l)) as [[[rem od] s]|],
           (run fo ro std_sort b None (lp_kappa l) (pa_delta q) (pa_theta p) (lp_od l) (lp_s l')) as [[[rem' od'] s']|]; cbn [both] in R; try contradiction; [|exact I].
  destruct R as (R1 & R2 & R3). cbn [fst snd] in *. injection R1 as <- <-. pose proof R3 as (Sx & _ & _ & _ & Sg). rewrite <- Sx, <- Sg, <- L6.
  destruct (rem =? 0).
  - rewrite results_scl. destruct (results o (s_x s)) as [v|]; cbn [option_map rrun]; [|exact I]. split; [|reflexivity].
    replace (sv_mode b) with (sv_mode a) by (symmetry; apply Hab).
    split; [reflexivity|]. split; [exact R2|]. split; [exact R3|]. split; [reflexivity|]. split; [now apply store_value_scl|reflexivity].
  - rewrite <- P2, <- P5. rewrite <- (next_kappa_scl p q (sv_m b)) by exact Hpq. replace (sv_m b) with (sv_m a) by apply Hab.
    set (k := if pa_w p <? i then _ else _).
    assert (K : forall be be' br, best_scl be be' ->
      rrun (fun x y => loop_scl (fst x) (fst y) /\ snd x = snd y)
       (if fl_lt fo (pa_kappa_max p) k then Finished (mk_loop od s k be (s_x s :: lp_tried l), stop_kappa)
        else let '(out, g) := rg_time_out ro (s_g s) in let l2 := mk_loop od (with_g s g) k be (s_x s :: lp_tried l) in
             if out then Finished (l2, stop_time) else main_loop fo ro std_sort fuel a p o (i + 1) br l2)
       (if fl_lt fo (pa_kappa_max p) k then Finished (mk_loop od s' k be' (s_x s :: lp_tried l), stop_kappa)
        else let '(out, g) := rg_time_out ro (s_g s) in let l2 := mk_loop od (with_g s' g) k be' (s_x s :: lp_tried l) in
             if out then Finished (l2, stop_time) else main_loop fo ro std_sort fuel b q ((scale_objective sk) o) (i + 1) br l2)).
    { intros be be' br' Hbe. destruct (fl_lt fo (pa_kappa_max p) k); [split; [|reflexivity]; repeat (split; [reflexivity || assumption|]); reflexivity|].
      destruct (rg_time_out ro (s_g s)) as [out g]. cbv zeta.
      assert (H2 : loop_scl (mk_loop od (with_g s g) k be (s_x s :: lp_tried l)) (mk_loop od (with_g s' g) k be' (s_x s :: lp_tried l))).
      { split; [reflexivity|]. split; [exact R2|]. split; [now apply with_g_scl|]. split; [reflexivity|]. split; [exact Hbe|reflexivity]. }
      destruct out; [split; [exact H2|reflexivity]|now apply IH]. }
    destruct (rem <? br); apply K; [now apply store_remaining_scl|exact L5].
Qed.
Lemma push_inner_scl k : forall iter l l', loop_scl l l' ->
  both loop_scl (push_inner fo ro std_sort k a p o iter l) (push_inner fo ro std_sort k b q ((scale_objective sk) o) iter l').
Proof.
  pose proof Hpq as (P1 & P2 & P3 & P4 & P5 & P6 & P7 & P8 & P9 & P10 & P11 & P12 & P13 & P14).
  induction k as [|k IH]; intros iter l l' Hl; cbn [push_inner]; [exact Hl|]. pose proof Hl as (L1 & L2 & L3 & L4 & L5 & L6).
  rewrite <- P7, <- L4, <- L1. apply (both_bind run_scl); [apply run_scaled; assumption|].
  intros [[rem od] s] [[rem' od'] s'] (R1 & R2 & R3). cbn [fst snd] in *. injection R1 as <- <-. pose proof R3 as (Sx & _ & _ & _ & Sg). cbv zeta. rewrite <- Sx, <- Sg, <- L6.
  destruct (rem =? 0).
  - rewrite results_scl. destruct (results o (s_x s)) as [v|]; cbn [option_map bind both]; [|exact I].
    replace (sv_mode b) with (sv_mode a) by (symmetry; apply Hab).
    split; [reflexivity|]. split; [exact R2|]. split; [exact R3|]. split; [reflexivity|]. split; [now apply store_value_scl|reflexivity].
  - rewrite <- P2, <- P5. rewrite <- (next_kappa_scl p q (sv_m b)) by exact Hpq. replace (sv_m b) with (sv_m a) by apply Hab.
    set (kk := if pa_w p <? iter then _ else _). destruct (fl_lt fo (pa_kappa_max p) kk).
    + split; [reflexivity|]. split; [exact R2|]. split; [exact R3|]. split; [reflexivity|]. split; [exact L5|reflexivity].
    + destruct (rg_time_out ro (s_g s)) as [out g].
      assert (H2 : loop_scl (mk_loop od (with_g s g) kk (lp_best l) (s_x s :: lp_tried l)) (mk_loop od (with_g s' g) kk (lp_best l') (s_x s :: lp_tried l))).
      { split; [reflexivity|]. split; [exact R2|]. split; [now apply with_g_scl|]. split; [reflexivity|]. split; [exact L5|reflexivity]. }
      destruct out; [exact H2|now apply IH].
Qed.
Lemma push_loop_scl k : forall l l', loop_scl l l' ->
  both loop_scl (push_loop fo ro std_sort k a p o l) (push_loop fo ro std_sort k b q ((scale_objective sk) o) l').
Proof.
  pose proof Hpq as (P1 & P2 & P3 & P4 & P5 & P6 & P7 & P8 & P9 & P10 & P11 & P12 & P13 & P14).
  induction k as [|k IH]; intros l l' Hl; cbn [push_loop]; [exact Hl|]. pose proof Hl as (L1 & L2 & L3 & L4 & L5 & L6).
  rewrite <- P7, <- L4, <- L1, <- P9, <- P10, <- P12. apply (both_bind run_scl); [apply run_scaled; assumption|].
  intros [[rem od] s] [[rem' od'] s'] (R1 & R2 & R3). cbn [fst snd] in *. injection R1 as <- <-. pose proof R3 as (Sx & _ & _ & _ & Sg). cbv zeta. rewrite <- Sx, <- Sg, <- L6.
  apply (both_bind best_scl).
  - destruct (rem =? 0); [|exact L5]. rewrite results_scl. destruct (results o (s_x s)) as [v|]; cbn [option_map bind both]; [|exact I].
    replace (sv_mode b) with (sv_mode a) by (symmetry; apply Hab). now apply store_value_scl.
  - intros be be' Hbe. destruct (rg_time_out ro (s_g s)) as [out g].
    assert (H2 : loop_scl (mk_loop od (with_g s g) (lp_kappa l) be (s_x s :: lp_tried l)) (mk_loop od (with_g s' g) (lp_kappa l) be' (s_x s :: lp_tried l))).
    { split; [reflexivity|]. split; [exact R2|]. split; [now apply with_g_scl|]. split; [reflexivity|]. split; [exact Hbe|reflexivity]. }
    destruct out; [exact H2|]. apply (both_bind loop_scl); [now apply push_inner_scl|]. intros; now apply IH.
Qed.
End Solver.

Section Initial.
Context {F G : Type} (fo : fops F) (ro : rops G) (std_sort : forall A : Type, (A -> A -> bool) -> list A -> list A).
Variable rel : F -> F -> Prop.
Hypothesis Hsc : scaling fo rel.
Hypothesis Hsort : sort_by_comparisons std_sort.
Hypothesis Hshuffle : shuffle_by_draws ro.
Notation "c =~ d" := (forall v, both rel (c v) (d v)) (at level 70).

Lemma init_x_scl mode u u' : rel u u' -> init_x fo mode u = init_x fo mode u'.
Proof.
  intros H. pose proof (sc_zero _ _ Hsc) as Z0. destruct mode; cbn [init_x ]; [apply (sc_lt _ _ Hsc _ _ u u' Z0 H)|apply (sc_lt _ _ Hsc u u' _ _ H Z0)].
Qed.
Lemma init_bastert_scl mode (c d : nat -> option F) : c =~ d -> forall k i x, init_bastert fo mode c k i x = init_bastert fo mode d k i x.
Proof.
  intros H. induction k as [|k IH]; intros; cbn [init_bastert]; [reflexivity|]. pose proof (H i) as Hi.
  destruct (c i) as [u|], (d i) as [u'|]; cbn [both] in Hi; try contradiction; cbn [bind]; [|reflexivity]. rewrite (init_x_scl mode u u' Hi).
  destruct (list_upd x i _); cbn [bind]; [apply IH|reflexivity].
Qed.
Definition ce_scl (a b : F * felem) : Prop := rel (fst a) (fst b) /\ snd a = snd b.
Lemma pre_costs_scl (c d : nat -> option F) l : c =~ d -> both (Forall2 ce_scl) (pre_costs c l) (pre_costs d l).
Proof.
  intros H. induction l as [|e l IH]; cbn [pre_costs]; [constructor|]. apply (both_bind rel); [apply H|]. intros u u' Hu.
  apply (both_bind (Forall2 ce_scl)); [exact IH|]. intros r r' Hr. cbn [both]. constructor; [split; [exact Hu|reflexivity]|exact Hr].
Qed.
Lemma pessimistic_scl R R' : Forall2 ce_scl R R' -> forall t s lo hi, @pessimistic F R t s lo hi = pessimistic R' t s lo hi.
Proof. induction 1 as [|[u e] [u' e'] R R' [_ He] H IH]; intros; cbn [pessimistic]; [reflexivity|]. cbn [snd] in He. subst e'. now rewrite IH. Qed.
Lemma stops_scl mode u u' : rel u u' -> stops fo mode u = stops fo mode u'.
Proof.
  intros H. pose proof (sc_zero _ _ Hsc) as Z0. destruct mode; cbn [stops ]; [apply (sc_lt _ _ Hsc u u' _ _ H Z0)|apply (sc_lt _ _ Hsc _ _ u u' Z0 H)].
Qed.
Lemma optimistic_scl mode R R' : Forall2 ce_scl R R' -> forall t s lo hi acc, optimistic fo mode R t s lo hi acc = optimistic fo mode R' t s lo hi acc.
Proof.
  induction 1 as [|[u e] [u' e'] R R' [Hu He] H IH]; intros; cbn [optimistic]; [reflexivity|]. cbn [fst snd] in *. subst e'. rewrite (stops_scl mode u u' Hu).
  destruct (if _ && _ then Some t else acc); [|apply IH]. destruct (stops _ _ _); [reflexivity|apply IH].
Qed.
Lemma set_prefix_scl R R' : Forall2 ce_scl R R' -> forall t x, @set_prefix F R t x = set_prefix R' t x.
Proof.
  induction 1 as [|[u e] [u' e'] R R' [_ He] H IH]; intros; cbn [set_prefix]; [reflexivity|]. cbn [snd] in He. subst e'.
  destruct (list_upd _ _ _); cbn [bind]; [apply IH|reflexivity].
Qed.
Lemma pre_solve_scl every mode op (c d : nat -> option F) cs : c =~ d -> forall x (g : G),
  pre_solve fo ro std_sort every mode op c cs x g = pre_solve fo ro std_sort every mode op d cs x g.
Proof.
  intros H. induction cs as [|m cs IH]; intros; cbn [pre_solve]; [reflexivity|]. destruct (rg_bernoulli ro g) as [go g1]. destruct (every || go); [|apply IH].
  pose proof (pre_costs_scl c d (m_elements m) H) as HR. destruct (pre_costs c (m_elements m)) as [R|], (pre_costs d (m_elements m)) as [R'|];
    cbn [both] in HR; try contradiction; cbn [bind]; [|reflexivity].
  destruct (Hshuffle _ _ ce_scl g1 R R' HR) as [S1 S2]. destruct (rg_shuffle ro _ g1 R) as [T g2], (rg_shuffle ro _ g1 R') as [T' g2']. cbn [fst snd] in *. subst g2'.
  set (lt := fun a b : F * felem => match mode with minimize => fl_lt fo (fst a) (fst b) | maximize => fl_lt fo (fst b) (fst a) end).
  set (lt' := fun a b : F * felem => match mode with minimize => fl_lt fo (fst a) (fst b) | maximize => fl_lt fo (fst b) (fst a) end).
  assert (U : Forall2 ce_scl (std_sort _ lt T) (std_sort _ lt' T')).
  { apply Hsort; [|exact S1]. intros x1 y1 x1' y1' [Hx _] [Hy _]. unfold lt, lt'. destruct mode; now apply (sc_lt _ _ Hsc). }
  cbv zeta. rewrite (optimistic_scl mode _ _ U), (pessimistic_scl _ _ U). rewrite (set_prefix_scl _ _ U).
  destruct (set_prefix _ _ _); cbn [bind]; [apply IH|reflexivity].
Qed.
Lemma initial_x_scl ip mode (c d : nat -> option F) cs n (g : G) : c =~ d ->
  initial_x fo ro std_sort ip mode c cs n g = initial_x fo ro std_sort ip mode d cs n g.
Proof. intros H. unfold initial_x. destruct ip; cbv zeta; [rewrite (init_bastert_scl mode c d H)|rewrite (pre_solve_scl true mode _ c d _ H)|rewrite (pre_solve_scl true mode _ c d _ H)]; reflexivity. Qed.
Lemma Forall2_repeat {A B} (R : A -> B -> Prop) a b n : R a b -> Forall2 R (repeat a n) (repeat b n).
Proof. intros H. induction n; cbn; constructor; auto. Qed.
End Initial.

Section Top.
Variable sk : Z.
Hypothesis Hpos : 0 < sk.
Context {F G : Type} (fo : fops F) (ro : rops G) (std_sort : forall A : Type, (A -> A -> bool) -> list A -> list A).
Variables raw rel : F -> F -> Prop.
Hypothesis Hraw : scaling fo raw.
Hypothesis Hsc : scaling fo rel.
Hypothesis Hsort : sort_by_comparisons std_sort.
Hypothesis Hshuffle : shuffle_by_draws ro.
Notation "c =~ d" := (forall v, both raw (c v) (d v)) (at level 70).
Lemma make_solver_scl cl cs n c d mode x (g : G) : shares_affect cl -> (forall v x, both rel (c v x) (d v x)) ->
  match make_any_solver fo cl cs n c mode [] x g, make_any_solver fo cl cs n d mode [] x g with
  | Ok (a, s), Ok (b, s') => sv_scl rel a b /\ s_scl rel s s' /\ sv_class a = cl
  | Ok _, _ => False | _, Ok _ => False
  | _, _ => True
  end.
Proof.
  intros Hcl H. unfold make_any_solver, make_solver. destruct (make_matrix _ _) as [ap|]; cbn [of_opt obind]; [|exact I].
  destruct (solver_ctor cl cs) as [b| |]; cbn [obind]; try exact I.
  assert (K : forall a b : solver F * state F G, a = a) by auto.
  destruct cl; try contradiction; (split; [repeat (split; [reflexivity || exact H|]); reflexivity|]); (split; [|reflexivity]);
    (split; [reflexivity|]); (split; [apply Forall2_repeat, (sc_zero _ _ Hsc)|]); (split; [apply Forall2_repeat, (sc_zero _ _ Hsc)|]);
    (split; [apply Forall2_repeat; split; [apply (sc_zero _ _ Hsc)|split; reflexivity]|reflexivity]).
Qed.
Lemma functor_scl fuel cl cs n c0 d0 nc nd p q mode o (g : G) : shares_affect cl -> c0 =~ d0 -> (forall v x, both rel (nc v x) (nd v x)) -> pa_scl rel p q ->
  rrun (fun x y => loop_scl sk rel (fst x) (fst y) /\ snd x = snd y)
    (functor fo ro std_sort fuel cl cs n c0 nc p mode o [] g) (functor fo ro std_sort fuel cl cs n d0 nd q mode ((scale_objective sk) o) [] g).
Proof.
  intros Hcl H0 Hc Hpq. unfold functor. pose proof (make_solver_scl cl cs n nc nd mode [] g Hcl Hc) as M.
  destruct (make_any_solver fo cl cs n nc mode [] [] g) as [[a s]| |], (make_any_solver fo cl cs n nd mode [] [] g) as [[b s']| |]; try contradiction; try exact I.
  destruct M as (Hab & Hs & Ea). pose proof Hs as (Sx & SP & Spi & SR & Sg). pose proof Hpq as (P1 & P2 & P3 & P4 & P5 & P6 & P7 & P8 & P9 & P10 & P11 & P12 & P13 & P14).
  rewrite <- P14, <- Sg, <- (initial_x_scl fo ro std_sort raw Hraw Hsort Hshuffle (pa_init p) mode c0 d0 cs n (s_g s) H0). destruct (initial_x _ _ _ _ _ _ _ _ _) as [[x g']|]; [|exact I].
  unfold functor_loop. cbn [s_x]. rewrite <- P13, <- (order_init_scl rel a b) by exact Hab.
  destruct (order_init a x (make_order (pa_order p) n)) as [od|] eqn:O; [|exact I].
  rewrite <- P3, <- P11.
  assert (L : loop_scl sk rel (mk_loop od (mk_state x (s_P s) (s_pi s) (s_R s) g') (pa_kappa_min p) best0 []) (mk_loop od (mk_state x (s_P s') (s_pi s') (s_R s') g') (pa_kappa_min p) best0 [])).
  { split; [reflexivity|]. split; [exact I|]. split; [repeat split; assumption|]. split; [reflexivity|]. split; [repeat split|reflexivity]. }
  assert (Hcl' : shares_affect (sv_class a)) by (rewrite Ea; exact Hcl).
  pose proof (main_loop_scl sk Hpos fo ro std_sort rel Hsc Hsort Hshuffle a b p q o Hab Hcl' Hpq fuel 0 int_max _ _ L) as M.
  destruct (main_loop fo ro std_sort fuel a p o 0 int_max _) as [[l e]| |], (main_loop fo ro std_sort fuel b q ((scale_objective sk) o) 0 int_max _) as [[l' e']| |];
    cbn [rrun] in M; try contradiction; try exact I. destruct M as [Ml Me]. cbn [fst snd] in Ml, Me. subst e'.
  assert (Er : forall u u' : @loop F G, loop_scl sk rel u u' -> be_remaining (lp_best u) = be_remaining (lp_best u')) by (intros u u' (_ & _ & _ & _ & (_ & _ & B) & _); exact B).
  destruct e; try (rewrite <- (Er _ _ Ml); split; [exact Ml|reflexivity]).
  pose proof (push_loop_scl sk Hpos fo ro std_sort rel Hsc Hsort Hshuffle a b p q o Hab Hcl' Hpq (Z.to_nat (pa_pushes_limit p)) _ _ Ml) as Q.
  destruct (push_loop _ _ _ _ a _ _ _) as [u|], (push_loop _ _ _ _ b _ _ _) as [u'|]; cbn [both] in Q; try contradiction; [|exact I].
  rewrite <- (Er _ _ Q). split; [exact Q|reflexivity].
Qed.
Variable ddiv : Z -> Z -> Z.
Variables random_optimizer : problem -> run_result (outcome sresult).
Variable craw : list oelem -> list qelem -> nat -> nat -> option F.
Variable cnorm : list oelem -> list qelem -> nat -> nat -> list bool -> option F.
Variable ok : list oelem -> list qelem -> Prop.
Hypothesis Hodd : scaled_costs sk ok raw rel craw cnorm.
Hypothesis Hkept : kept ok.
Lemma itm_solve_scl fuel po p q (g : G) pb : plain_pre_order po -> pa_scl rel p q -> shares_affect (dispatch (p_problem_type pb)) -> terms_ok ok pb ->
  itm_solve fo ro std_sort ddiv random_optimizer (by_terms craw) (by_terms cnorm) fuel false false po q [] g ((scale_problem sk) pb) =
  run_map (outcome_map (scale_result sk)) (itm_solve fo ro std_sort ddiv random_optimizer (by_terms craw) (by_terms cnorm) fuel false false po p [] g pb).
Proof.
  intros Hpo Hpq Hcl Hok. unfold itm_solve. cbn [negb]. change (p_problem_type ((scale_problem sk) pb)) with (p_problem_type pb). set (cl := dispatch _) in *.
  unfold solve_problem. rewrite make_merged_scl by exact Hpo. destruct (make_merged std_sort ddiv po pb) as [cs| |]; try reflexivity.
  cbn [scale_problem p_vars p_type p_objective p_affected]. destruct (negb (is_nil cs) && negb (is_nil (v_values (p_vars pb)))); [|reflexivity].
  assert (H0 : by_terms craw pb =~ by_terms craw ((scale_problem sk) pb)) by (intros v; apply Hodd; exact Hok).
  assert (H1 : forall v x, both rel (by_terms cnorm pb v x) (by_terms cnorm ((scale_problem sk) pb) v x)) by (intros v x; apply Hodd; exact Hok).
  pose proof (functor_scl fuel cl cs (length (v_values (p_vars pb))) _ _ _ _ p q (p_type pb) (p_objective pb) g Hcl H0 H1 Hpq) as M.
  destruct (functor _ _ _ _ _ _ _ (by_terms craw pb) _ _ _ _ _ _) as [[l st]| |], (functor _ _ _ _ _ _ _ (by_terms craw ((scale_problem sk) pb)) _ _ _ _ _ _) as [[l' st']| |];
    cbn [rrun] in M; try contradiction; try reflexivity.
  destruct M as [(_ & _ & _ & _ & (Bx & Bv & _) & _) Me]. cbn [fst snd] in *. subst st'. rewrite <- Bx, Bv. cbn [run_map outcome_map]. unfold scale_result. cbn [sr_status sr_solutions sr_remaining sr_names sr_affected sr_variables sr_constraints].
  destruct (is_nil (be_x (lp_best l))); reflexivity.
Qed.
Lemma user_solve_scl pfuel fuel pp po p q (g : G) pb : plain_pre_order po -> pa_scl rel p q -> unit_coefficients pb -> even_qcosts pb -> terms_ok ok pb ->
  user_solve fo ro std_sort ddiv random_optimizer (by_terms craw) (by_terms cnorm) pfuel fuel pp false false po q [] g ((scale_problem sk) pb) =
  run_map (outcome_map (scale_result sk)) (user_solve fo ro std_sort ddiv random_optimizer (by_terms craw) (by_terms cnorm) pfuel fuel pp false false po p [] g pb).
Proof.
  intros Hpo Hpq Hu He Hok. unfold user_solve. destruct pp.
  - change (unpreprocess ((scale_problem sk) pb)) with ((scale_problem sk) (unpreprocess pb)). apply itm_solve_scl; try assumption. cbn [unpreprocess p_problem_type]. now apply units_class.
  - rewrite preprocess_scl by (exact Hpos || exact He). destruct (preprocess pfuel pb) as [[r|]| |] eqn:E; cbn [outcome_map option_map]; try reflexivity.
    destruct (units_preprocess _ _ _ Hu E) as [U Et]. apply itm_solve_scl; try assumption; [rewrite Et; now apply units_class|exact (Hkept _ _ _ Hok E)].
Qed.
End Top.
