From Verif Require Import Base Problem_model Merged_model Classify_model Preprocess_model Validate_model Params_model Matrix_model
  Rows_model Rows_spec Solver_model EndToEnd_model Rewrite_spec Rewrite_proofs Mirror_spec.
Open Scope Z_scope.

(** ** The preprocessor *)
Notation mir := mirror_problem.
Lemma affects_mirror pb ch fuel : forall s, affects fuel (mir pb) ch s = affects fuel pb ch s.
Proof.
  induction fuel as [|fuel IH]; intros; cbn [affects]; [reflexivity|]. destruct (s_lifo s) as [|[v b] lf]; [reflexivity|].
  change (affect_step (mir pb) ch s v b lf) with (affect_step pb ch s v b lf). destruct (affect_step pb ch s v b lf); cbn [obind]; auto.
Qed.
Lemma ltb_neg a : (0 <? - a) = (a <? 0).
Proof. destruct (Z.ltb_spec 0 (- a)), (Z.ltb_spec a 0); lia || reflexivity. Qed.
Lemma ltb_neg' a : (- a <? 0) = (0 <? a).
Proof. destruct (Z.ltb_spec (- a) 0), (Z.ltb_spec 0 a); lia || reflexivity. Qed.
Lemma find_neg i l : find (fun e => Nat.eqb i (o_var e)) (map neg_term l) = option_map neg_term (find (fun e => Nat.eqb i (o_var e)) l).
Proof. induction l as [|e l IH]; cbn [find map]; [reflexivity|]. change (o_var (neg_term e)) with (o_var e). destruct (Nat.eqb i (o_var e)); [reflexivity|apply IH]. Qed.
Lemma unused_value_mirror pb i : unused_value (mir pb) i = unused_value pb i.
Proof.
  unfold unused_value. cbn [mirror_problem p_objective neg_objective o_elements p_type]. rewrite find_neg.
  destruct (find _ _) as [e|]; cbn [option_map]; [|reflexivity]. destruct (p_type pb); cbn [other neg_term o_factor]; [apply ltb_neg'|apply ltb_neg].
Qed.
Lemma remove_unused_mirror pb ch s is : forall vars, remove_unused (mir pb) ch s is vars = remove_unused pb ch s is vars.
Proof.
  induction is as [|i is IH]; intros; cbn [remove_unused]; [reflexivity|]. destruct (vfind vars i); [apply IH|].
  destruct (is_unused_variable ch s i); cbn [bind]; [|reflexivity]. rewrite unused_value_mirror. apply IH.
Qed.
Definition neg_merge (m : merge_obj) : merge_obj := mk_merge_obj (map neg_term (mo_elements m)) (- mo_value m).
Lemma half_neg a : Z.Even a -> half (- a) = - half a.
Proof. intros [k ->]. unfold half. replace (- (2 * k)) with ((- k) * 2) by lia. replace (2 * k) with (k * 2) by lia. rewrite !Z.div_mul by lia. reflexivity. Qed.
Lemma bqp_elem_mirror t i q mo : Z.Even (q_factor q) -> bqp_elem (other t) i (neg_qterm q) (neg_merge mo) = neg_merge (bqp_elem t i q mo).
Proof.
  intros E. unfold bqp_elem. cbn [neg_qterm q_vara q_varb q_factor]. destruct (_ || _); [|reflexivity].
  replace (match other t with maximize => 0 <? - q_factor q | minimize => - q_factor q <? 0 end) with
    (match t with maximize => 0 <? q_factor q | minimize => q_factor q <? 0 end) by (destruct t; cbn [other]; [now rewrite ltb_neg'|now rewrite ltb_neg]).
  destruct (match t with maximize => _ | minimize => _ end); [|reflexivity]. rewrite half_neg by exact E.
  destruct (Nat.eqb (q_vara q) (q_varb q)); unfold neg_merge; cbn [mo_elements mo_value]; [f_equal; lia|]. rewrite map_app. reflexivity.
Qed.
Lemma bqp_elems_mirror t i l : (forall e, In e l -> Z.Even (q_factor e)) -> forall mo,
  fold_left (fun m q => bqp_elem (other t) i q m) (map neg_qterm l) (neg_merge mo) = neg_merge (fold_left (fun m q => bqp_elem t i q m) l mo).
Proof.
  induction l as [|q l IH]; intros H mo; cbn [fold_left map]; [reflexivity|]. rewrite bqp_elem_mirror by (apply H; now left). apply IH. intros; apply H; now right.
Qed.
Lemma make_lp_mirror pb ch s : even_qcosts pb -> make_lp_from_bqp_objective (mir pb) ch s = option_map neg_merge (make_lp_from_bqp_objective pb ch s).
Proof.
  intros E. unfold make_lp_from_bqp_objective. change (Some (mk_merge_obj [] 0)) with (option_map neg_merge (Some (mk_merge_obj [] 0))) at 1.
  generalize (Some (mk_merge_obj [] 0)). induction (seq 0 (length (in_equal ch))) as [|i is IH]; intros acc; cbn [fold_left]; [reflexivity|].
  rewrite <- IH. f_equal. destruct acc as [mo|]; cbn [option_map bind]; [|reflexivity]. destruct (vfind (s_vars s) i); [reflexivity|].
  destruct (is_unused_variable ch s i) as [u|]; cbn [bind option_map]; [|reflexivity]. destruct u; [|reflexivity]. f_equal.
  cbn [mirror_problem p_type p_objective neg_objective o_qelements]. apply bqp_elems_mirror. exact E.
Qed.
Lemma copy_linear_neg m l : forall v, copy_linear m (map neg_term l) (- v) = option_map (fun r => (map neg_term (fst r), - snd r)) (copy_linear m l v).
Proof.
  induction l as [|e l IH]; intros; cbn [copy_linear map]; [reflexivity|]. cbn [neg_term o_var o_factor].
  destruct (nth_error m (o_var e)) as [[[j|] b]|]; cbn [bind fst snd option_map]; [| |reflexivity].
  - rewrite IH. destruct (copy_linear m l v); reflexivity.
  - destruct b; [|apply IH]. replace (- v + - o_factor e) with (- (v + o_factor e)) by lia. apply IH.
Qed.
Lemma copy_quadratic_neg m l : forall v, copy_quadratic m (map neg_qterm l) (- v) =
  option_map (fun r => (map neg_term (fst (fst r)), map neg_qterm (snd (fst r)), - snd r)) (copy_quadratic m l v).
Proof.
  induction l as [|e l IH]; intros; cbn [copy_quadratic map]; [reflexivity|]. cbn [neg_qterm q_vara q_varb q_factor].
  destruct (nth_error m (q_vara e)) as [[[i|] b]|]; cbn [bind fst snd option_map]; [| |reflexivity];
    (destruct (nth_error m (q_varb e)) as [[[j|] b']|]; cbn [bind fst snd option_map]; [| |reflexivity]).
  1-3: rewrite IH; destruct (copy_quadratic m l v) as [[[? ?] ?]|]; reflexivity.
  destruct (b && b'); [|apply IH]. replace (- v + - q_factor e) with (- (v + q_factor e)) by lia. apply IH.
Qed.
Lemma add_to_index_neg i f l : add_to_index i (- f) (map neg_term l) = option_map (map neg_term) (add_to_index i f l).
Proof.
  induction l as [|e l IH]; cbn [add_to_index map]; [reflexivity|]. cbn [neg_term o_var o_factor]. destruct (Nat.eqb i (o_var e)).
  - cbn. unfold neg_term at 2. cbn. do 3 f_equal. lia.
  - rewrite IH. destruct (add_to_index i f l); reflexivity.
Qed.
Lemma merge_elements_neg mo : forall i l, merge_elements i (map neg_term mo) (map neg_term l) = option_map (map neg_term) (merge_elements i mo l).
Proof.
  induction mo as [|e mo IH]; intros; cbn [merge_elements map]; [reflexivity|]. cbn [neg_term o_factor]. rewrite add_to_index_neg.
  destruct (add_to_index i (o_factor e) l); cbn [option_map bind]; [apply IH|reflexivity].
Qed.
Lemma objective_mirror m o mo :
  objective_function_exclude_copy m (neg_objective o) (neg_merge mo) = option_map neg_objective (objective_function_exclude_copy m o mo).
Proof.
  unfold objective_function_exclude_copy. cbn [neg_objective neg_merge o_elements o_qelements o_value mo_elements mo_value].
  replace (- o_value o + - mo_value mo) with (- (o_value o + mo_value mo)) by lia. rewrite copy_linear_neg.
  destruct (copy_linear m (o_elements o) (o_value o + mo_value mo)) as [[le v]|]; cbn [option_map bind fst snd]; [|reflexivity]. rewrite copy_quadratic_neg.
  destruct (copy_quadratic m (o_qelements o) v) as [[[le' qe] v']|]; cbn [option_map bind fst snd]; [|reflexivity].
  rewrite <- map_app, merge_elements_neg. destruct (merge_elements 0 (mo_elements mo) (le ++ le')); reflexivity.
Qed.
Lemma make_problem_mirror pb aff mo s : make_problem (mir pb) aff (neg_merge mo) s = outcome_map mir (make_problem pb aff mo s).
Proof.
  unfold make_problem. cbn [mirror_problem p_vars p_objective p_equal p_greater p_less p_type p_problem_type].
  destruct (Nat.eqb _ _); cbn [ensures]; [|reflexivity]. rewrite objective_mirror.
  destruct (objective_function_exclude_copy _ (p_objective pb) mo) as [o|]; cbn [option_map of_opt obind]; [|reflexivity].
  destruct (of_opt (variables_exclude_copy _ _ _ _ _)) as [[vs af]| |]; cbn [obind]; try reflexivity.
  destruct (names_kept _ _ _); cbn [ensures]; [|reflexivity].
  destruct (constraints_exclude_copy _ _ (p_equal pb)) as [e|]; cbn [of_opt obind]; [|reflexivity].
  destruct (constraints_exclude_copy _ _ (p_greater pb)) as [gr|]; cbn [of_opt obind]; [|reflexivity].
  destruct (constraints_exclude_copy _ _ (p_less pb)) as [le|]; cbn [of_opt obind]; [|reflexivity].
  destruct (_ && _); reflexivity.
Qed.
Lemma finish_mirror fuel pb aff ch s : even_qcosts pb -> finish fuel (mir pb) aff ch s = outcome_map (option_map mir) (finish fuel pb aff ch s).
Proof.
  intros E. unfold finish. rewrite affects_mirror. destruct (affects fuel pb ch s) as [[s1|]| |]; cbn [obind]; try reflexivity.
  rewrite make_lp_mirror by exact E. destruct (make_lp_from_bqp_objective pb ch s1) as [mo|]; cbn [option_map of_opt obind]; [|reflexivity].
  unfold try_remove_unused_variable. rewrite remove_unused_mirror.
  destruct (remove_unused _ _ _ _ _) as [vars|]; cbn [bind of_opt obind]; [|reflexivity]. rewrite affects_mirror.
  destruct (affects fuel pb ch _) as [[s3|]| |]; cbn [obind]; try reflexivity. rewrite make_problem_mirror.
  destruct (make_problem pb aff mo s3); reflexivity.
Qed.
Lemma preprocess_mirror fuel pb : even_qcosts pb -> preprocess fuel (mir pb) = outcome_map (option_map mir) (preprocess fuel pb).
Proof.
  intros E. unfold preprocess. change (make_caches (mir pb)) with (make_caches pb). destruct (make_caches pb) as [ch|]; cbn [of_opt obind]; [|reflexivity].
  change (try_affect_bounded_variable (mir pb)) with (try_affect_bounded_variable pb). change (init_state (mir pb)) with (init_state pb).
  change (try_affect_variable (mir pb)) with (try_affect_variable pb). destruct (try_affect_variable pb _) as [s2| |]; cbn [obind]; try reflexivity.
  apply finish_mirror, E.
Qed.
(** The class stays one with coefficients 1 and -1. *)
Definition units (l : list constraint) : Prop := forall c e, In c l -> In e (c_elements c) -> f_factor e = 1 \/ f_factor e = -1.
Lemma copy_elements_from m l : forall v r, copy_elements m l v = Some r -> forall e, In e (fst r) -> exists e', In e' l /\ f_factor e = f_factor e'.
Proof.
  induction l as [|a l IH]; intros v r H e He; cbn [copy_elements] in H; [inversion H; subst; destruct He|].
  destruct (nth_error m (f_var a)) as [[[j|] b]|]; cbn [bind fst snd] in H; [| |discriminate].
  - destruct (copy_elements m l v) as [r'|] eqn:E; cbn [bind] in H; [|discriminate]. inversion H; subst. cbn [fst] in He.
    destruct He as [<-|He]; [exists a; split; [now left|reflexivity]|]. destruct (IH _ _ E _ He) as (e' & I & Q). exists e'. split; [now right|exact Q].
  - destruct (IH _ _ H _ He) as (e' & I & Q). exists e'. split; [now right|exact Q].
Qed.
Lemma units_copy m l : forall cnt r, units l -> constraints_exclude_copy m cnt l = Some r -> units r.
Proof.
  induction l as [|a l IH]; intros cnt r U H; cbn [constraints_exclude_copy] in H; [inversion H; subst; intros c e []|]. destruct cnt as [|k cnt]; [discriminate|].
  assert (U' : units l) by (intros c e Hc; apply U; now right). destruct (Nat.leb k 1); [eapply IH; eauto|].
  destruct (copy_elements m (c_elements a) (c_value a)) as [q|] eqn:E; cbn [bind] in H; [|discriminate].
  destruct (constraints_exclude_copy m cnt l) as [r'|] eqn:E'; cbn [bind] in H; [|discriminate]. inversion H; subst. intros c e [<-|Hc] He.
  - cbn [c_elements] in He. destruct (copy_elements_from _ _ _ _ E _ He) as (e' & I & ->). apply (U a); [now left|exact I].
  - exact (IH _ _ U' E' c e Hc He).
Qed.
Lemma units_make pb aff mo s q : unit_coefficients pb -> make_problem pb aff mo s = Ok q -> unit_coefficients q /\ p_problem_type q = which_problem_type q.
Proof.
  intros U H. unfold make_problem in H. destruct (Nat.eqb _ _); cbn [ensures] in H; [|discriminate].
  destruct (of_opt (objective_function_exclude_copy _ _ _)) as [o| |]; cbn [obind] in H; try discriminate.
  destruct (of_opt (variables_exclude_copy _ _ _ _ _)) as [[vs af]| |]; cbn [obind] in H; try discriminate.
  destruct (names_kept _ _ _); cbn [ensures] in H; [|discriminate].
  destruct (constraints_exclude_copy _ _ (p_equal pb)) as [e|] eqn:E1; cbn [of_opt obind] in H; [|discriminate].
  destruct (constraints_exclude_copy _ _ (p_greater pb)) as [gr|] eqn:E2; cbn [of_opt obind] in H; [|discriminate].
  destruct (constraints_exclude_copy _ _ (p_less pb)) as [le|] eqn:E3; cbn [of_opt obind] in H; [|discriminate].
  destruct (_ && _); cbn [ensures] in H; [|discriminate]. inversion H; subst. split; [|reflexivity].
  assert (u1 : units e) by (eapply units_copy; [|exact E1]; intros c x Hc; apply U; auto).
  assert (u2 : units gr) by (eapply units_copy; [|exact E2]; intros c x Hc; apply U; auto).
  assert (u3 : units le) by (eapply units_copy; [|exact E3]; intros c x Hc; apply U; auto).
  intros c x [Hc|[Hc|Hc]] Hx; [exact (u1 c x Hc Hx)|exact (u2 c x Hc Hx)|exact (u3 c x Hc Hx)].
Qed.
Lemma units_preprocess fuel pb q : unit_coefficients pb -> preprocess fuel pb = Ok (Some q) -> unit_coefficients q /\ p_problem_type q = which_problem_type q.
Proof.
  intros U H. unfold preprocess in H. destruct (of_opt (make_caches pb)) as [ch| |]; cbn [obind] in H; try discriminate.
  destruct (try_affect_variable pb _) as [s2| |]; cbn [obind] in H; try discriminate. unfold finish in H.
  destruct (affects fuel pb ch s2) as [[s1|]| |]; cbn [obind] in H; try discriminate.
  destruct (of_opt (make_lp_from_bqp_objective pb ch s1)) as [mo| |]; cbn [obind] in H; try discriminate.
  destruct (of_opt (try_remove_unused_variable pb ch s1)) as [s3| |]; cbn [obind] in H; try discriminate.
  destruct (affects fuel pb ch s3) as [[s4|]| |]; cbn [obind] in H; try discriminate.
  destruct (make_problem pb _ mo s4) as [q'| |] eqn:E; cbn [obind] in H; try discriminate. inversion H; subst. exact (units_make _ _ _ _ _ U E).
Qed.
Lemma coef_elems_units l : (forall e, In e l -> f_factor e = 1 \/ f_factor e = -1) -> forall r, 0 <= r <= 1 -> exists r', coef_elems l r = inl r' /\ 0 <= r' <= 1.
Proof.
  induction l as [|e l IH]; intros H r Hr; cbn [coef_elems]; [eauto|].
  assert (H' : forall e, In e l -> f_factor e = 1 \/ f_factor e = -1) by (intros; apply H; now right).
  destruct (H e (or_introl eq_refl)) as [->| ->]; cbn [Z.eqb andb Z.leb orb Z.compare Pos.compare Pos.compare_cont Z.opp Pos.eqb].
  - apply IH; assumption.
  - destruct (r =? 0); apply IH; try assumption; lia.
Qed.
Lemma coef_csts_units l : units l -> forall r, 0 <= r <= 1 -> 0 <= coef_csts l r <= 1.
Proof.
  induction l as [|c l IH]; intros U r Hr; cbn [coef_csts]; [exact Hr|].
  destruct (coef_elems_units (c_elements c) (fun e => U c e (or_introl eq_refl)) r Hr) as (r' & -> & Hr'). apply IH; [intros a e Ha; apply U; now right|exact Hr'].
Qed.
Lemma units_class pb : unit_coefficients pb -> shares_affect (dispatch (which_problem_type pb)).
Proof.
  intros U. unfold which_problem_type. assert (C : 0 <= coefficient_type pb <= 1).
  { unfold coefficient_type, coefficient_type_of.
    assert (u1 : units (p_equal pb)) by (intros c e Hc; apply U; auto). assert (u2 : units (p_greater pb)) by (intros c e Hc; apply U; auto).
    assert (u3 : units (p_less pb)) by (intros c e Hc; apply U; auto).
    pose proof (coef_csts_units _ u1 0 ltac:(lia)). pose proof (coef_csts_units _ u2 0 ltac:(lia)). pose proof (coef_csts_units _ u3 0 ltac:(lia)). lia. }
  destruct (coefficient_type pb =? 0) eqn:E0; [destruct (_ && _); exact I|]. destruct (coefficient_type pb =? 1) eqn:E1; [destruct (_ && _); exact I|].
  apply Z.eqb_neq in E0, E1. lia.
Qed.
Lemma make_merged_mirror std_sort ddiv po pb : plain_pre_order po -> make_merged std_sort ddiv po (mir pb) = make_merged std_sort ddiv po pb.
Proof. destruct po; intros H; try destruct H; reflexivity. Qed.

(** ** The solver *)
Section Solver.
Context {F G : Type} (fo : fops F) (ro : rops G) (std_sort : forall A : Type, (A -> A -> bool) -> list A -> list A).
Variable opp : F -> F -> Prop.
Hypothesis Hsym : symmetric fo opp.
Hypothesis Hsort : sort_by_comparisons std_sort.
Hypothesis Hshuffle : shuffle_by_draws ro.

Definition rc_opp (a b : rc F) : Prop := opp (rc_value a) (rc_value b) /\ rc_f a = rc_f b /\ rc_id a = rc_id b.
Definition sv_opp (a b : solver F) : Prop :=
  sv_class a = sv_class b /\ sv_ap a = sv_ap b /\ sv_A a = sv_A b /\ sv_b a = sv_b b /\ sv_m a = sv_m b /\
  (forall v x, both opp (sv_c a v x) (sv_c b v x)) /\ sv_mode b = other (sv_mode a) /\ sv_after a = [] /\ sv_after b = [].
Definition s_opp (a b : state F G) : Prop :=
  s_x a = s_x b /\ Forall2 opp (s_P a) (s_P b) /\ Forall2 opp (s_pi a) (s_pi b) /\ Forall2 rc_opp (s_R a) (s_R b) /\ s_g a = s_g b.

Lemma both_bind {A A' B B'} (R : A -> A' -> Prop) (S : B -> B' -> Prop) a a' f f' :
  both R a a' -> (forall x x', R x x' -> both S (f x) (f' x')) -> both S (bind a f) (bind a' f').
Proof. destruct a, a'; cbn; intros H K; auto; contradiction. Qed.
Lemma both_nth {A B} (R : A -> B -> Prop) l l' i : Forall2 R l l' -> both R (nth_error l i) (nth_error l' i).
Proof. intros H. revert i. induction H; intros [|i]; cbn; auto. Qed.
Lemma both_upd {A B} (R : A -> B -> Prop) l l' i a b : Forall2 R l l' -> R a b -> both (Forall2 R) (list_upd l i a) (list_upd l' i b).
Proof.
  intros H Hab. revert i. induction H as [|x y l l' Hxy H IH]; intros [|i]; cbn; auto. specialize (IH i).
  destruct (list_upd l i a), (list_upd l' i b); cbn in *; auto.
Qed.
Lemma both_modify {A B} (R : A -> B -> Prop) l l' i f f' : Forall2 R l l' -> (forall a b, R a b -> R (f a) (f' b)) ->
  both (Forall2 R) (list_modify l i f) (list_modify l' i f').
Proof. intros H K. unfold list_modify. apply (both_bind R); [now apply both_nth|]. intros a b Hab. apply both_upd; auto. Qed.
Lemma both_eq_refl {A} (a : option A) : both eq a a.
Proof. destruct a; cbn; auto. Qed.

Lemma factor_opp a b slot : sv_opp a b -> factor a slot = factor b slot.
Proof. intros (E1 & _ & E3 & _). unfold factor. now rewrite E1, E3. Qed.
Lemma row_sum_opp a b x row : sv_opp a b -> forall v, row_sum a x row v = row_sum b x row v.
Proof.
  intros E. induction row as [|[slot col] row IH]; intros; cbn [row_sum]; [reflexivity|]. rewrite (factor_opp a b) by exact E.
  destruct (factor b slot); cbn [bind]; [|reflexivity]. destruct (nth_error x col); cbn [bind]; [apply IH|reflexivity].
Qed.
Lemma bound_min_opp a b k : sv_opp a b -> bound_min a k = bound_min b k.
Proof. intros (_ & _ & _ & E & _). unfold bound_min. now rewrite E. Qed.
Lemma bound_max_opp a b k : sv_opp a b -> bound_max a k = bound_max b k.
Proof. intros (_ & _ & _ & E & _). unfold bound_max. now rewrite E. Qed.
Lemma is_valid_opp a b k x : sv_opp a b -> is_valid_constraint a k x = is_valid_constraint b k x.
Proof.
  intros E. unfold is_valid_constraint. rewrite (bound_min_opp a b), (bound_max_opp a b) by exact E. replace (sv_ap a) with (sv_ap b) by (symmetry; apply E).
  destruct (mx_row (sv_ap b) k); cbn [bind]; [|reflexivity]. now rewrite (row_sum_opp a b).
Qed.
Lemma decrease_opp theta row : forall P P', Forall2 opp P P' -> both (Forall2 opp) (decrease_preference fo theta row P) (decrease_preference fo theta row P').
Proof.
  induction row as [|[slot col] row IH]; intros P P' H; cbn [decrease_preference]; [exact H|].
  apply (both_bind (Forall2 opp)); [|auto]. apply both_modify; [exact H|]. intros p p' Hp. now apply (sy_mul_r _ _ Hsym).
Qed.
Definition pair_opp (a b : F * F) : Prop := opp (fst a) (fst b) /\ opp (snd a) (snd b).
Lemma sum_column_opp a b P P' pi pi' l : sv_opp a b -> Forall2 opp P P' -> Forall2 opp pi pi' -> forall s1 s1' s2 s2', opp s1 s1' -> opp s2 s2' ->
  both pair_opp (sum_column fo a P pi l s1 s2) (sum_column fo b P' pi' l s1' s2').
Proof.
  intros E HP Hpi. induction l as [|[slot row] l IH]; intros s1 s1' s2 s2' H1 H2; cbn [sum_column]; [split; assumption|].
  apply (both_bind opp); [now apply both_nth|]. intros q q' Hq. apply (both_bind opp); [now apply both_nth|]. intros p p' Hp.
  rewrite (factor_opp a b) by exact E. replace (sv_class a) with (sv_class b) by (symmetry; apply E).
  assert (W : both pair_opp (do f <- factor b slot; let z := fl_of_Z fo f in sum_column fo a P pi l (fl_add fo s1 (fl_mul fo z q)) (fl_add fo s2 (fl_mul fo z p)))
                (do f <- factor b slot; let z := fl_of_Z fo f in sum_column fo b P' pi' l (fl_add fo s1' (fl_mul fo z q')) (fl_add fo s2' (fl_mul fo z p')))).
  { destruct (factor b slot); cbn [bind]; [|exact I]. cbv zeta. apply IH; apply (sy_add _ _ Hsym); try assumption; now apply (sy_mul_l _ _ Hsym). }
  assert (N : both pair_opp (sum_column fo a P pi l (fl_add fo s1 q) (fl_add fo s2 p)) (sum_column fo b P' pi' l (fl_add fo s1' q') (fl_add fo s2' p'))).
  { apply IH; now apply (sy_add _ _ Hsym). }
  destruct (sv_class b); assumption.
Qed.
Definition triple_opp (a b : list (rc F) * nat * Z) : Prop := Forall2 rc_opp (fst (fst a)) (fst (fst b)) /\ snd (fst a) = snd (fst b) /\ snd a = snd b.
Lemma reduced_costs_opp a b x P P' pi pi' row : sv_opp a b -> Forall2 opp P P' -> Forall2 opp pi pi' -> forall R R' r c, Forall2 rc_opp R R' ->
  both triple_opp (compute_reduced_costs fo a x P pi row R r c) (compute_reduced_costs fo b x P' pi' row R' r c).
Proof.
  intros E HP Hpi. induction row as [|[slot col] row IH]; intros R R' r c HR; cbn [compute_reduced_costs]; [split; [exact HR|split; reflexivity]|].
  replace (sv_ap a) with (sv_ap b) by (symmetry; apply E). destruct (mx_column (sv_ap b) col) as [l|]; cbn [bind]; [|exact I].
  apply (both_bind pair_opp); [apply sum_column_opp; try assumption; apply (sy_zero _ _ Hsym)|]. intros [u v] [u' v'] [Hu Hv]. cbn [fst snd] in Hu, Hv.
  apply (both_bind opp); [apply E|]. intros k k' Hk. rewrite (factor_opp a b) by exact E. destruct (factor b slot) as [f|]; cbn [bind]; [|exact I].
  cbv zeta. apply (both_bind (Forall2 rc_opp)); [|auto]. apply both_upd; [exact HR|].
  assert (Hw : opp (fl_sub fo (fl_sub fo k u) v) (fl_sub fo (fl_sub fo k' u') v')) by (apply (sy_sub _ _ Hsym); [apply (sy_sub _ _ Hsym)|]; assumption).
  destruct (f <? 0); (split; [cbn [rc_value]|split; reflexivity]); [now apply (sy_neg _ _ Hsym)|exact Hw].
Qed.
Lemma push_costs_opp a b x row amp : sv_opp a b -> forall n i R R', Forall2 rc_opp R R' ->
  both (Forall2 rc_opp) (push_costs fo a x row amp R n i) (push_costs fo b x row amp R' n i).
Proof.
  intros E. induction n as [|n IH]; intros i R R' HR; cbn [push_costs]; [exact HR|].
  apply (both_bind rc_opp); [now apply both_nth|]. intros e e' (He & Hf & Hi). rewrite Hf, Hi.
  apply (both_bind opp).
  - replace (sv_class a) with (sv_class b) by (symmetry; apply E).
    assert (W : both opp (do (_, col) <- nth_error row (rc_id e'); sv_c a col x) (do (_, col) <- nth_error row (rc_id e'); sv_c b col x)).
    { destruct (nth_error row (rc_id e')) as [[? col]|]; cbn [bind]; [apply E|exact I]. }
    assert (N : both opp (sv_c a (rc_id e') x) (sv_c b (rc_id e') x)) by apply E. destruct (sv_class b); assumption.
  - intros c c' Hc. apply (both_bind (Forall2 rc_opp)); [|auto]. apply both_upd; [exact HR|].
    split; [cbn [rc_value]|split; reflexivity]. apply (sy_add _ _ Hsym); [exact He|]. now apply (sy_mul_l _ _ Hsym).
Qed.
Lemma rc_lt_opp mode a b a' b' : rc_opp a a' -> rc_opp b b' -> rc_lt fo mode a b = rc_lt fo (other mode) a' b'.
Proof. intros (Ha & _) (Hb & _). destruct mode; cbn [rc_lt other]; now apply (sy_lt _ _ Hsym). Qed.
Lemma shuffle_runs_opp l l' : Forall2 rc_opp l l' -> forall first first' run run' (g : G), rc_opp first first' -> Forall2 rc_opp run run' ->
  Forall2 rc_opp (fst (shuffle_runs fo ro first run l g)) (fst (shuffle_runs fo ro first' run' l' g)) /\
  snd (shuffle_runs fo ro first run l g) = snd (shuffle_runs fo ro first' run' l' g).
Proof.
  induction 1 as [|b b' l l' Hb H IH]; intros first first' run run' g Hf Hr; cbn [shuffle_runs]; [now apply Hshuffle|].
  rewrite (sy_eqb _ _ Hsym (rc_value first) (rc_value first') (rc_value b) (rc_value b')) by (apply Hf || apply Hb).
  destruct (fl_eqb fo (rc_value first') (rc_value b')); [apply IH; [exact Hf|]; apply Forall2_app; [exact Hr|constructor; [exact Hb|constructor]]|].
  destruct (Hshuffle _ _ rc_opp g run run' Hr) as [S1 S2]. destruct (rg_shuffle ro _ g run) as [s g1], (rg_shuffle ro _ g run') as [s' g1'].
  cbn [fst snd] in S1, S2. subst g1'. destruct (IH b b' [b] [b'] g1 Hb (Forall2_cons _ _ Hb (Forall2_nil _))) as [T1 T2].
  destruct (shuffle_runs fo ro b [b] l g1) as [t g2], (shuffle_runs fo ro b' [b'] l' g1) as [t' g2']. cbn [fst snd] in *. subst g2'.
  split; [now apply Forall2_app|reflexivity].
Qed.
Lemma Forall2_firstn {A B} (R : A -> B -> Prop) n l l' : Forall2 R l l' -> Forall2 R (firstn n l) (firstn n l').
Proof. intros H. revert n. induction H; intros [|n]; cbn; auto. Qed.
Lemma Forall2_skipn {A B} (R : A -> B -> Prop) n l l' : Forall2 R l l' -> Forall2 R (skipn n l) (skipn n l').
Proof. intros H. revert n. induction H; intros [|n]; cbn; auto. Qed.
Lemma calculator_sort_opp mode R R' n (g : G) : Forall2 rc_opp R R' ->
  Forall2 rc_opp (fst (calculator_sort fo ro std_sort mode R n g)) (fst (calculator_sort fo ro std_sort (other mode) R' n g)) /\
  snd (calculator_sort fo ro std_sort mode R n g) = snd (calculator_sort fo ro std_sort (other mode) R' n g).
Proof.
  intros H. unfold calculator_sort. pose proof (Forall2_firstn rc_opp n _ _ H) as H1. pose proof (Forall2_skipn rc_opp n _ _ H) as H2.
  pose proof (Hsort _ _ rc_opp (rc_lt fo mode) (rc_lt fo (other mode)) _ _ (fun a b a' b' => rc_lt_opp mode a b a' b') H1) as H3.
  destruct H1 as [|e e' l l' He H1]; [split; [exact H|reflexivity]|]. destruct H1 as [|e2 e2' l l' He2 H1]; [split; [exact H|reflexivity]|].
  destruct H3 as [|u u' w w' Hu H3]; [split; [exact H2|reflexivity]|].
  destruct (shuffle_runs_opp w w' H3 u u' [u] [u'] g Hu (Forall2_cons _ _ Hu (Forall2_nil _))) as [T1 T2].
  destruct (shuffle_runs fo ro u [u] w g) as [t g2], (shuffle_runs fo ro u' [u'] w' g) as [t' g2']. cbn [fst snd] in *. subst g2'.
  split; [now apply Forall2_app|reflexivity].
Qed.
Lemma stop_iterating_opp mode v v' (g : G) : opp v v' -> stop_iterating fo ro mode v g = stop_iterating fo ro (other mode) v' g.
Proof.
  intros H. unfold stop_iterating. pose proof (sy_zero _ _ Hsym) as Z0. rewrite (sy_eqb _ _ Hsym v v' _ _ H Z0). destruct (fl_eqb _ _ _); [reflexivity|].
  destruct mode; cbn [other]; [now rewrite (sy_lt _ _ Hsym v v' _ _ H Z0)|now rewrite (sy_lt _ _ Hsym _ _ v v' Z0 H)].
Qed.
Lemma nth_Z_opp R R' i : Forall2 rc_opp R R' -> both rc_opp (nth_Z R i) (nth_Z R' i).
Proof. intros H. unfold nth_Z. destruct (i <? 0); [exact I|now apply both_nth]. Qed.
Lemma select_loop_opp mode R R' : Forall2 rc_opp R R' -> forall n i hi (g : G),
  select_loop fo ro mode R n i hi g = select_loop fo ro (other mode) R' n i hi g.
Proof.
  intros H. induction n as [|n IH]; intros; cbn [select_loop]; [reflexivity|]. pose proof (nth_Z_opp R R' i H) as K.
  destruct (nth_Z R i) as [e|], (nth_Z R' i) as [e'|]; cbn [both] in K; try contradiction; cbn [bind]; [|reflexivity].
  rewrite (stop_iterating_opp mode _ _ g (proj1 K)). destruct (stop_iterating fo ro (other mode) (rc_value e') g) as [stop g']. destruct stop; [reflexivity|apply IH].
Qed.
Lemma select_opp a b R R' r c lo hi (g : G) : sv_opp a b -> Forall2 rc_opp R R' ->
  select_variables fo ro a R r c lo hi g = select_variables fo ro b R' r c lo hi g.
Proof.
  intros E H. pose proof E as (E1 & _ & _ & _ & _ & _ & E7 & E8 & E9). unfold select_variables. rewrite E1, E7, E8, E9, !app_nil_r.
  destruct (sv_class b); try reflexivity; (destruct (lo =? hi); [reflexivity|]); cbv zeta; now apply select_loop_opp.
Qed.
Definition xP_opp (a b : list bool * list F) : Prop := fst a = fst b /\ Forall2 opp (snd a) (snd b).
Lemma assign_range_opp row R R' up d d' : Forall2 rc_opp R R' -> opp d d' -> forall n i x P P', Forall2 opp P P' ->
  both xP_opp (assign_range fo row R up d n i x P) (assign_range fo row R' up d' n i x P').
Proof.
  intros HR Hd. induction n as [|n IH]; intros i x P P' HP; cbn [assign_range]; [split; [reflexivity|exact HP]|].
  apply (both_bind rc_opp); [now apply both_nth|]. intros e e' (He & Hf & Hi). rewrite Hi. destruct (nth_error row (rc_id e')) as [[slot col]|]; cbn [bind]; [|exact I].
  cbv zeta. replace (is_negative e) with (is_negative e') by (unfold is_negative; now rewrite Hf).
  destruct (list_upd x col _) as [x'|]; cbn [bind]; [|exact I]. apply (both_bind (Forall2 opp)); [|auto].
  apply both_modify; [exact HP|]. intros p p' Hp. destruct (xorb _ _); [now apply (sy_add _ _ Hsym)|now apply (sy_sub _ _ Hsym)].
Qed.
Definition sb_opp (a b : state F G * bool) : Prop := s_opp (fst a) (fst b).
Lemma affect_opp a b k row sel r kappa delta delta' s s' : sv_opp a b -> opp delta delta' -> s_opp s s' ->
  both sb_opp (Rows_model.affect fo a k row sel r kappa delta s) (Rows_model.affect fo b k row sel r kappa delta' s').
Proof.
  intros E Hd (Sx & SP & Spi & SR & Sg). unfold Rows_model.affect. rewrite Sx, Sg. set (two := fl_of_Z fo 2). set (ratio := fl_div fo kappa _). set (middle := fl_div fo _ two).
  cbv zeta. apply (both_bind opp); [now apply both_nth|]. intros old old' Hold.
  pose (Q := fun a b : list bool * list F * list F => fst (fst a) = fst (fst b) /\ Forall2 opp (snd (fst a)) (snd (fst b)) /\ Forall2 opp (snd a) (snd b)).
  assert (Hdd : forall u u', opp u u' -> opp (fl_add fo delta (fl_mul fo ratio u)) (fl_add fo delta' (fl_mul fo ratio u'))).
  { intros u u' Hu. apply (sy_add _ _ Hsym); [exact Hd|now apply (sy_mul_l _ _ Hsym)]. }
  apply (both_bind Q).
  - destruct (sel <? 0); [|destruct (Z.of_nat r <=? sel + 1)].
    + apply (both_bind rc_opp); [now apply both_nth|]. intros r0 r0' (H0 & _).
      apply (both_bind xP_opp); [apply assign_range_opp; try assumption; apply Hdd; now apply (sy_div _ _ Hsym)|].
      intros [x P] [x' P'] [Hx HP]. cbn [fst snd] in *. subst x'. split; [reflexivity|split; assumption].
    + apply (both_bind rc_opp); [now apply nth_Z_opp|]. intros r0 r0' (H0 & _).
      apply (both_bind xP_opp); [apply assign_range_opp; try assumption; apply Hdd; now apply (sy_mul_r _ _ Hsym)|].
      intros [x P] [x' P'] [Hx HP]. cbn [fst snd] in *. subst x'. split; [reflexivity|split; assumption].
    + apply (both_bind rc_opp); [now apply nth_Z_opp|]. intros r0 r0' (H0 & _). apply (both_bind rc_opp); [now apply nth_Z_opp|]. intros r1 r1' (H1 & _).
      apply (both_bind (Forall2 opp)).
      { apply both_modify; [exact Spi|]. intros p p' Hp. apply (sy_add _ _ Hsym); [exact Hp|]. apply (sy_div _ _ Hsym). now apply (sy_add _ _ Hsym). }
      intros pi pi' Hpi. assert (D : opp (fl_sub fo (rc_value r1) (rc_value r0)) (fl_sub fo (rc_value r1') (rc_value r0'))) by now apply (sy_sub _ _ Hsym).
      apply (both_bind xP_opp); [apply assign_range_opp; try assumption; now apply Hdd|].
      intros [x P] [x' P'] [Hx HP]. cbn [fst snd] in *. subst x'. apply (both_bind xP_opp); [apply assign_range_opp; try assumption; now apply Hdd|].
      intros [y P2] [y' P2'] [Hy HP2]. cbn [fst snd] in *. subst y'. split; [reflexivity|split; assumption].
  - intros [[x P] pi] [[x' P'] pi'] (Hx & HP & Hpi). cbn [fst snd] in *. subst x'. rewrite (is_valid_opp a b) by exact E.
    destruct (is_valid_constraint b k x) as [ok|]; cbn [bind]; [|exact I]. destruct ok; [|exact I].
    apply (both_bind opp); [now apply both_nth|]. intros q q' Hq. unfold sb_opp, s_opp. cbn [fst both s_x s_P s_pi s_R s_g both]. repeat split; assumption.
Qed.
Lemma update_row_opp a b push kappa delta delta' theta k s s' : sv_opp a b -> opp delta delta' -> s_opp s s' ->
  both sb_opp (update_row fo ro std_sort a push kappa delta theta k s) (update_row fo ro std_sort b push kappa delta' theta k s').
Proof.
  intros E Hd (Sx & SP & Spi & SR & Sg). unfold update_row. replace (sv_ap a) with (sv_ap b) by (symmetry; apply E).
  destruct (mx_row (sv_ap b) k) as [row|]; cbn [bind]; [|exact I]. apply (both_bind (Forall2 opp)); [now apply decrease_opp|]. intros P P' HP.
  rewrite Sx, Sg. apply (both_bind triple_opp); [now apply reduced_costs_opp|]. intros [[R r] c] [[R' r'] c'] (HR & Hr & Hc). cbn [fst snd] in *. subst r' c'.
  apply (both_bind (Forall2 rc_opp)); [destruct push; [now apply push_costs_opp|exact HR]|]. clear R R' HR. intros R R' HR.
  replace (sv_mode b) with (other (sv_mode a)) by (symmetry; apply E). destruct (calculator_sort_opp (sv_mode a) R R' r (s_g s') HR) as [T1 T2].
  destruct (calculator_sort fo ro std_sort (sv_mode a) R r (s_g s')) as [U g], (calculator_sort fo ro std_sort (other (sv_mode a)) R' r (s_g s')) as [U' g'].
  cbn [fst snd] in *. subst g'. rewrite (bound_min_opp a b), (bound_max_opp a b) by exact E.
  destruct (bound_min b k) as [lo|]; cbn [bind]; [|exact I]. destruct (bound_max b k) as [hi|]; cbn [bind]; [|exact I].
  rewrite (select_opp a b U U') by assumption. destruct (select_variables fo ro b U' r c lo hi g) as [[sel g2]|]; cbn [bind]; [|exact I].
  apply affect_opp; [exact E|exact Hd|]. repeat split; assumption.
Qed.

Lemma update_rows_opp a b push kappa delta delta' theta ks : sv_opp a b -> shares_affect (sv_class a) -> opp delta delta' -> forall s s' c c', s_opp s s' ->
  both sb_opp (update_rows fo ro std_sort a push kappa delta theta ks s c) (update_rows fo ro std_sort b push kappa delta' theta ks s' c').
Proof.
  intros E Hcl Hd. induction ks as [|k ks IH]; intros s s' c c' Hs; cbn [update_rows]; [exact Hs|]. apply (both_bind sb_opp).
  - unfold any_update_row. replace (sv_class b) with (sv_class a) by apply E.
    pose proof (update_row_opp a b push kappa delta delta' theta k s s' E Hd Hs) as H. destruct (sv_class a); try contradiction; exact H.
  - intros [s1 b1] [s1' b1'] H1. apply IH. exact H1.
Qed.
Lemma violated_opp a b x ks : sv_opp a b -> violated_from a x ks = violated_from b x ks.
Proof. intros E. induction ks as [|k ks IH]; cbn [violated_from]; [reflexivity|]. now rewrite (is_valid_opp a b), IH. Qed.
Lemma infeasibility_opp a b x ks : sv_opp a b -> infeasibility_from a x ks = infeasibility_from b x ks.
Proof.
  intros E. induction ks as [|k ks IH]; cbn [infeasibility_from]; [reflexivity|]. rewrite (bound_min_opp a b), (bound_max_opp a b), IH by exact E.
  replace (sv_ap a) with (sv_ap b) by (symmetry; apply E). destruct (mx_row (sv_ap b) k); cbn [bind]; [|reflexivity]. now rewrite (row_sum_opp a b).
Qed.
Lemma order_init_opp a b x od : sv_opp a b -> order_init a x od = order_init b x od.
Proof.
  intros E. unfold order_init, infeasibility, violated. replace (sv_m a) with (sv_m b) by (symmetry; apply E).
  now rewrite (infeasibility_opp a b), (violated_opp a b).
Qed.
Lemma recompute_opp a b x od : sv_opp a b -> recompute a x od = recompute b x od.
Proof.
  intros E. unfold recompute, infeasibility, count_violated, violated. replace (sv_m a) with (sv_m b) by (symmetry; apply E).
  now rewrite (infeasibility_opp a b), (violated_opp a b).
Qed.
(** Not in the orders that sort by multiplier. *)
Definition plain (od : order_state) : Prop := plain_order (od_order od) /\ od_cycle od = false.
Lemma sweep_plain pi pi' od (g : G) : plain od -> sweep fo ro std_sort pi od g = sweep fo ro std_sort pi' od g.
Proof. intros [H _]. unfold sweep. destruct (od_order od); try contradiction; reflexivity. Qed.
Lemma sweep_keeps pi od (g : G) ks od' g' : plain od -> sweep fo ro std_sort pi od g = Some (ks, od', g') -> plain od'.
Proof.
  intros [H C] E. unfold sweep in E. destruct (od_order od) eqn:O; try contradiction; try (inversion E; subst; split; [|exact C]; cbn; now rewrite ?O); try discriminate.
  all: try (destruct (rg_shuffle ro _ g (od_R od)) as [R g2]; inversion E; subst; split; [|exact C]; cbn; now rewrite ?O).
  all: inversion E; subst; split; [|exact C]; cbn; rewrite ?O; exact I.
Qed.
Lemma recompute_keeps (a : solver F) x od r od' : plain od -> recompute a x od = Some (r, od') -> plain od'.
Proof.
  intros [H C] E. unfold recompute in E. destruct (od_order od) eqn:O; try contradiction.
  all: try (destruct (violated a x); cbn [bind] in E; inversion E; subst; split; [cbn; rewrite ?O; exact I|exact C]).
  all: try (destruct (infeasibility a x); cbn [bind] in E; inversion E; subst; split; [cbn; rewrite ?O; exact I|exact C]).
  destruct (count_violated a x); cbn [bind] in E; inversion E; subst. split; [rewrite O; exact I|exact C].
Qed.
Definition run_opp (a b : Z * order_state * state F G) : Prop := fst a = fst b /\ plain (snd (fst a)) /\ s_opp (snd a) (snd b).
Lemma run_mirror a b push kappa delta delta' theta od s s' : sv_opp a b -> shares_affect (sv_class a) -> opp delta delta' -> plain od -> s_opp s s' ->
  both run_opp (run fo ro std_sort a push kappa delta theta od s) (run fo ro std_sort b push kappa delta' theta od s').
Proof.
  intros E Hcl Hd Hp Hs. unfold run. pose proof Hs as (Sx & SP & Spi & SR & Sg).
  set (od1 := match push with Some _ => _ | None => _ end). assert (H1 : od1 = od) by (subst od1; destruct push; [|reflexivity]; destruct Hp as [_ ->]; reflexivity).
  rewrite H1. rewrite (sweep_plain (s_pi s) (s_pi s') od (s_g s) Hp), Sg. destruct (sweep fo ro std_sort (s_pi s') od (s_g s')) as [[[ks od2] g]|] eqn:W; cbn [bind]; [|exact I].
  pose proof (sweep_keeps _ _ _ _ _ _ Hp W) as Hp2.
  apply (both_bind sb_opp); [apply update_rows_opp; try assumption; repeat split; assumption|]. intros [s1 b1] [s1' b1'] H2. cbn [sb_opp fst] in H2. unfold sb_opp in H2. cbn [fst] in H2.
  rewrite (recompute_opp a b) by exact E. replace (s_x s1') with (s_x s1) by apply H2.
  destruct (recompute b (s_x s1) od2) as [[rem od3]|] eqn:R; cbn [bind]; [|exact I]. split; [reflexivity|]. split; [exact (recompute_keeps _ _ _ _ _ Hp2 R)|exact H2].
Qed.

(** *** The loop *)
Definition best_opp (a b : best) : Prop := be_x a = be_x b /\ be_value b = option_map Z.opp (be_value a) /\ be_remaining a = be_remaining b.
Definition loop_opp (a b : @loop F G) : Prop :=
  lp_od a = lp_od b /\ plain (lp_od a) /\ s_opp (lp_s a) (lp_s b) /\ lp_kappa a = lp_kappa b /\ best_opp (lp_best a) (lp_best b) /\ lp_tried a = lp_tried b.
Lemma results_lin_neg x l : forall v, results_lin x (map neg_term l) (- v) = option_map Z.opp (results_lin x l v).
Proof.
  induction l as [|e l IH]; intros; cbn [results_lin map]; [reflexivity|]. cbn [neg_term o_var o_factor]. destruct (nth_error x (o_var e)) as [b|]; cbn [bind option_map]; [|reflexivity].
  destruct b; [|apply IH]. replace (- v + - o_factor e) with (- (v + o_factor e)) by lia. apply IH.
Qed.
Lemma results_quad_neg x l : forall v, results_quad x (map neg_qterm l) (- v) = option_map Z.opp (results_quad x l v).
Proof.
  induction l as [|e l IH]; intros; cbn [results_quad map]; [reflexivity|]. cbn [neg_qterm q_vara q_varb q_factor].
  destruct (nth_error x (q_vara e)) as [b|]; cbn [bind option_map]; [|reflexivity].
  destruct (if b then nth_error x (q_varb e) else Some false) as [b'|]; cbn [bind option_map]; [|reflexivity].
  destruct (b && b'); [|apply IH]. replace (- v + - q_factor e) with (- (v + q_factor e)) by lia. apply IH.
Qed.
Lemma results_neg o x : results (neg_objective o) x = option_map Z.opp (results o x).
Proof.
  unfold results. cbn [neg_objective o_elements o_qelements o_value]. rewrite results_lin_neg.
  destruct (results_lin x (o_elements o) (o_value o)); cbn [option_map bind]; [apply results_quad_neg|reflexivity].
Qed.
Lemma store_value_opp mode a b x v : best_opp a b -> best_opp (store_value mode a x v) (store_value (other mode) b x (- v)).
Proof.
  intros (Hx & Hv & Hr). unfold store_value. replace (is_better (other mode) (- v) (be_value b)) with (is_better mode v (be_value a)).
  - destruct (is_better mode v (be_value a)); split; cbn; auto.
  - rewrite Hv. destruct (be_value a) as [w|]; cbn; [|reflexivity].
    destruct mode; cbn [other]; match goal with |- (?a <? ?b) = (?e <? ?f) => destruct (Z.ltb_spec a b), (Z.ltb_spec e f); lia || reflexivity end.
Qed.
Lemma store_remaining_opp a b x r : best_opp a b -> best_opp (store_remaining a x r) (store_remaining b x r).
Proof. intros (Hx & Hv & Hr). unfold store_remaining. rewrite <- Hr. destruct (r <? be_remaining a); split; cbn; auto. Qed.
(** The same parameters but for delta. *)
Definition pa_opp (a b : sparams F) : Prop :=
  pa_limit a = pa_limit b /\ pa_w a = pa_w b /\ pa_kappa_min a = pa_kappa_min b /\ pa_kappa_step a = pa_kappa_step b /\ pa_kappa_max a = pa_kappa_max b /\
  pa_alpha a = pa_alpha b /\ pa_theta a = pa_theta b /\ opp (pa_delta a) (pa_delta b) /\ pa_pushing_k_factor a = pa_pushing_k_factor b /\
  pa_amplifier a = pa_amplifier b /\ pa_pushes_limit a = pa_pushes_limit b /\ pa_pushing_iteration_limit a = pa_pushing_iteration_limit b /\
  pa_order a = pa_order b /\ pa_init a = pa_init b.
Definition rrun {A B} (R : A -> B -> Prop) (a : run_result A) (b : run_result B) : Prop :=
  match a, b with Finished x, Finished y => R x y | Aborted, Aborted => True | OutOfFuel, OutOfFuel => True | _, _ => False end.
Lemma next_kappa_opp p q m kappa rem : pa_opp p q -> next_kappa fo p m kappa rem = next_kappa fo q m kappa rem.
Proof. intros (_ & _ & _ & E & _ & E' & _). unfold next_kappa. now rewrite E, E'. Qed.
Lemma with_g_opp s s' (g : G) : s_opp s s' -> s_opp (with_g s g) (with_g s' g).
Proof. intros (A & B & C & D & _). repeat split; assumption. Qed.
Variables (a b : solver F) (p q : sparams F) (o : objective).
Hypothesis Hab : sv_opp a b.
Hypothesis Hcl : shares_affect (sv_class a).
Hypothesis Hpq : pa_opp p q.
Lemma main_loop_opp fuel : forall i br l l', loop_opp l l' ->
  rrun (fun x y => loop_opp (fst x) (fst y) /\ snd x = snd y) (main_loop fo ro std_sort fuel a p o i br l) (main_loop fo ro std_sort fuel b q (neg_objective o) i br l').
Proof.
  pose proof Hpq as (P1 & P2 & P3 & P4 & P5 & P6 & P7 & P8 & P9 & P10 & P11 & P12 & P13 & P14).
  induction fuel as [|fuel IH]; intros i br l l' Hl; cbn [main_loop]; [exact I|]. rewrite P1. pose proof Hl as (L1 & L2 & L3 & L4 & L5 & L6).
  destruct (i =? pa_limit q); [split; [exact Hl|reflexivity]|]. rewrite <- P7, <- L4, <- L1.
  pose proof (run_mirror a b None (lp_kappa l) _ _ (pa_theta p) (lp_od l) _ _ Hab Hcl P8 L2 L3) as R.
  destruct (run fo ro std_sort a None (lp_kappa l) (pa_delta p) (pa_theta p) (lp_od l) (lp_s l)) as [[[rem od] s]|],
           (run fo ro std_sort b None (lp_kappa l) (pa_delta q) (pa_theta p) (lp_od l) (lp_s l')) as [[[rem' od'] s']|]; cbn [both] in R; try contradiction; [|exact I].
  destruct R as (R1 & R2 & R3). cbn [fst snd] in *. injection R1 as <- <-. pose proof R3 as (Sx & _ & _ & _ & Sg). rewrite <- Sx, <- Sg, <- L6.
  destruct (rem =? 0).
  - rewrite results_neg. destruct (results o (s_x s)) as [v|]; cbn [option_map rrun]; [|exact I]. split; [|reflexivity].
    replace (sv_mode b) with (other (sv_mode a)) by (symmetry; apply Hab).
    split; [reflexivity|]. split; [exact R2|]. split; [exact R3|]. split; [reflexivity|]. split; [now apply store_value_opp|reflexivity].
  - rewrite <- P2, <- P5. rewrite <- (next_kappa_opp p q (sv_m b)) by exact Hpq. replace (sv_m b) with (sv_m a) by apply Hab.
    set (k := if pa_w p <? i then _ else _).
    assert (K : forall be be' br, best_opp be be' ->
      rrun (fun x y => loop_opp (fst x) (fst y) /\ snd x = snd y)
       (if fl_lt fo (pa_kappa_max p) k then Finished (mk_loop od s k be (s_x s :: lp_tried l), stop_kappa)
        else let '(out, g) := rg_time_out ro (s_g s) in let l2 := mk_loop od (with_g s g) k be (s_x s :: lp_tried l) in
             if out then Finished (l2, stop_time) else main_loop fo ro std_sort fuel a p o (i + 1) br l2)
       (if fl_lt fo (pa_kappa_max p) k then Finished (mk_loop od s' k be' (s_x s :: lp_tried l), stop_kappa)
        else let '(out, g) := rg_time_out ro (s_g s) in let l2 := mk_loop od (with_g s' g) k be' (s_x s :: lp_tried l) in
             if out then Finished (l2, stop_time) else main_loop fo ro std_sort fuel b q (neg_objective o) (i + 1) br l2)).
    { intros be be' br' Hbe. destruct (fl_lt fo (pa_kappa_max p) k); [split; [|reflexivity]; repeat (split; [reflexivity || assumption|]); reflexivity|].
      destruct (rg_time_out ro (s_g s)) as [out g]. cbv zeta.
      assert (H2 : loop_opp (mk_loop od (with_g s g) k be (s_x s :: lp_tried l)) (mk_loop od (with_g s' g) k be' (s_x s :: lp_tried l))).
      { split; [reflexivity|]. split; [exact R2|]. split; [now apply with_g_opp|]. split; [reflexivity|]. split; [exact Hbe|reflexivity]. }
      destruct out; [split; [exact H2|reflexivity]|now apply IH]. }
    destruct (rem <? br); apply K; [now apply store_remaining_opp|exact L5].
Qed.
Lemma push_inner_opp k : forall iter l l', loop_opp l l' ->
  both loop_opp (push_inner fo ro std_sort k a p o iter l) (push_inner fo ro std_sort k b q (neg_objective o) iter l').
Proof.
  pose proof Hpq as (P1 & P2 & P3 & P4 & P5 & P6 & P7 & P8 & P9 & P10 & P11 & P12 & P13 & P14).
  induction k as [|k IH]; intros iter l l' Hl; cbn [push_inner]; [exact Hl|]. pose proof Hl as (L1 & L2 & L3 & L4 & L5 & L6).
  rewrite <- P7, <- L4, <- L1. apply (both_bind run_opp); [apply run_mirror; assumption|].
  intros [[rem od] s] [[rem' od'] s'] (R1 & R2 & R3). cbn [fst snd] in *. injection R1 as <- <-. pose proof R3 as (Sx & _ & _ & _ & Sg). cbv zeta. rewrite <- Sx, <- Sg, <- L6.
  destruct (rem =? 0).
  - rewrite results_neg. destruct (results o (s_x s)) as [v|]; cbn [option_map bind both]; [|exact I].
    replace (sv_mode b) with (other (sv_mode a)) by (symmetry; apply Hab).
    split; [reflexivity|]. split; [exact R2|]. split; [exact R3|]. split; [reflexivity|]. split; [now apply store_value_opp|reflexivity].
  - rewrite <- P2, <- P5. rewrite <- (next_kappa_opp p q (sv_m b)) by exact Hpq. replace (sv_m b) with (sv_m a) by apply Hab.
    set (kk := if pa_w p <? iter then _ else _). destruct (fl_lt fo (pa_kappa_max p) kk).
    + split; [reflexivity|]. split; [exact R2|]. split; [exact R3|]. split; [reflexivity|]. split; [exact L5|reflexivity].
    + destruct (rg_time_out ro (s_g s)) as [out g].
      assert (H2 : loop_opp (mk_loop od (with_g s g) kk (lp_best l) (s_x s :: lp_tried l)) (mk_loop od (with_g s' g) kk (lp_best l') (s_x s :: lp_tried l))).
      { split; [reflexivity|]. split; [exact R2|]. split; [now apply with_g_opp|]. split; [reflexivity|]. split; [exact L5|reflexivity]. }
      destruct out; [exact H2|now apply IH].
Qed.
Lemma push_loop_opp k : forall l l', loop_opp l l' ->
  both loop_opp (push_loop fo ro std_sort k a p o l) (push_loop fo ro std_sort k b q (neg_objective o) l').
Proof.
  pose proof Hpq as (P1 & P2 & P3 & P4 & P5 & P6 & P7 & P8 & P9 & P10 & P11 & P12 & P13 & P14).
  induction k as [|k IH]; intros l l' Hl; cbn [push_loop]; [exact Hl|]. pose proof Hl as (L1 & L2 & L3 & L4 & L5 & L6).
  rewrite <- P7, <- L4, <- L1, <- P9, <- P10, <- P12. apply (both_bind run_opp); [apply run_mirror; assumption|].
  intros [[rem od] s] [[rem' od'] s'] (R1 & R2 & R3). cbn [fst snd] in *. injection R1 as <- <-. pose proof R3 as (Sx & _ & _ & _ & Sg). cbv zeta. rewrite <- Sx, <- Sg, <- L6.
  apply (both_bind best_opp).
  - destruct (rem =? 0); [|exact L5]. rewrite results_neg. destruct (results o (s_x s)) as [v|]; cbn [option_map bind both]; [|exact I].
    replace (sv_mode b) with (other (sv_mode a)) by (symmetry; apply Hab). now apply store_value_opp.
  - intros be be' Hbe. destruct (rg_time_out ro (s_g s)) as [out g].
    assert (H2 : loop_opp (mk_loop od (with_g s g) (lp_kappa l) be (s_x s :: lp_tried l)) (mk_loop od (with_g s' g) (lp_kappa l) be' (s_x s :: lp_tried l))).
    { split; [reflexivity|]. split; [exact R2|]. split; [now apply with_g_opp|]. split; [reflexivity|]. split; [exact Hbe|reflexivity]. }
    destruct out; [exact H2|]. apply (both_bind loop_opp); [now apply push_inner_opp|]. intros; now apply IH.
Qed.
End Solver.

Section Top.
Context {F G : Type} (fo : fops F) (ro : rops G) (std_sort : forall A : Type, (A -> A -> bool) -> list A -> list A).
Variable opp : F -> F -> Prop.
Hypothesis Hsym : symmetric fo opp.
Hypothesis Hsort : sort_by_comparisons std_sort.
Hypothesis Hshuffle : shuffle_by_draws ro.
Notation "c =~ d" := (forall v, both opp (c v) (d v)) (at level 70).

Lemma init_x_opp mode u u' : opp u u' -> init_x fo mode u = init_x fo (other mode) u'.
Proof.
  intros H. pose proof (sy_zero _ _ Hsym) as Z0. destruct mode; cbn [init_x other]; [apply (sy_lt _ _ Hsym _ _ u u' Z0 H)|apply (sy_lt _ _ Hsym u u' _ _ H Z0)].
Qed.
Lemma init_bastert_opp mode (c d : nat -> option F) : c =~ d -> forall k i x, init_bastert fo mode c k i x = init_bastert fo (other mode) d k i x.
Proof.
  intros H. induction k as [|k IH]; intros; cbn [init_bastert]; [reflexivity|]. pose proof (H i) as Hi.
  destruct (c i) as [u|], (d i) as [u'|]; cbn [both] in Hi; try contradiction; cbn [bind]; [|reflexivity]. rewrite (init_x_opp mode u u' Hi).
  destruct (list_upd x i _); cbn [bind]; [apply IH|reflexivity].
Qed.
Definition ce_opp (a b : F * felem) : Prop := opp (fst a) (fst b) /\ snd a = snd b.
Lemma pre_costs_opp (c d : nat -> option F) l : c =~ d -> both (Forall2 ce_opp) (pre_costs c l) (pre_costs d l).
Proof.
  intros H. induction l as [|e l IH]; cbn [pre_costs]; [constructor|]. apply (both_bind opp); [apply H|]. intros u u' Hu.
  apply (both_bind (Forall2 ce_opp)); [exact IH|]. intros r r' Hr. cbn [both]. constructor; [split; [exact Hu|reflexivity]|exact Hr].
Qed.
Lemma pessimistic_opp R R' : Forall2 ce_opp R R' -> forall t s lo hi, @pessimistic F R t s lo hi = pessimistic R' t s lo hi.
Proof. induction 1 as [|[u e] [u' e'] R R' [_ He] H IH]; intros; cbn [pessimistic]; [reflexivity|]. cbn [snd] in He. subst e'. now rewrite IH. Qed.
Lemma stops_opp mode u u' : opp u u' -> stops fo mode u = stops fo (other mode) u'.
Proof.
  intros H. pose proof (sy_zero _ _ Hsym) as Z0. destruct mode; cbn [stops other]; [apply (sy_lt _ _ Hsym u u' _ _ H Z0)|apply (sy_lt _ _ Hsym _ _ u u' Z0 H)].
Qed.
Lemma optimistic_opp mode R R' : Forall2 ce_opp R R' -> forall t s lo hi acc, optimistic fo mode R t s lo hi acc = optimistic fo (other mode) R' t s lo hi acc.
Proof.
  induction 1 as [|[u e] [u' e'] R R' [Hu He] H IH]; intros; cbn [optimistic]; [reflexivity|]. cbn [fst snd] in *. subst e'. rewrite (stops_opp mode u u' Hu).
  destruct (if _ && _ then Some t else acc); [|apply IH]. destruct (stops _ _ _); [reflexivity|apply IH].
Qed.
Lemma set_prefix_opp R R' : Forall2 ce_opp R R' -> forall t x, @set_prefix F R t x = set_prefix R' t x.
Proof.
  induction 1 as [|[u e] [u' e'] R R' [_ He] H IH]; intros; cbn [set_prefix]; [reflexivity|]. cbn [snd] in He. subst e'.
  destruct (list_upd _ _ _); cbn [bind]; [apply IH|reflexivity].
Qed.
Lemma pre_solve_opp every mode op (c d : nat -> option F) cs : c =~ d -> forall x (g : G),
  pre_solve fo ro std_sort every mode op c cs x g = pre_solve fo ro std_sort every (other mode) op d cs x g.
Proof.
  intros H. induction cs as [|m cs IH]; intros; cbn [pre_solve]; [reflexivity|]. destruct (rg_bernoulli ro g) as [go g1]. destruct (every || go); [|apply IH].
  pose proof (pre_costs_opp c d (m_elements m) H) as HR. destruct (pre_costs c (m_elements m)) as [R|], (pre_costs d (m_elements m)) as [R'|];
    cbn [both] in HR; try contradiction; cbn [bind]; [|reflexivity].
  destruct (Hshuffle _ _ ce_opp g1 R R' HR) as [S1 S2]. destruct (rg_shuffle ro _ g1 R) as [T g2], (rg_shuffle ro _ g1 R') as [T' g2']. cbn [fst snd] in *. subst g2'.
  set (lt := fun a b : F * felem => match mode with minimize => fl_lt fo (fst a) (fst b) | maximize => fl_lt fo (fst b) (fst a) end).
  set (lt' := fun a b : F * felem => match other mode with minimize => fl_lt fo (fst a) (fst b) | maximize => fl_lt fo (fst b) (fst a) end).
  assert (U : Forall2 ce_opp (std_sort _ lt T) (std_sort _ lt' T')).
  { apply Hsort; [|exact S1]. intros x1 y1 x1' y1' [Hx _] [Hy _]. unfold lt, lt'. destruct mode; cbn [other]; now apply (sy_lt _ _ Hsym). }
  cbv zeta. rewrite (optimistic_opp mode _ _ U), (pessimistic_opp _ _ U). rewrite (set_prefix_opp _ _ U).
  destruct (set_prefix _ _ _); cbn [bind]; [apply IH|reflexivity].
Qed.
Lemma initial_x_opp ip mode (c d : nat -> option F) cs n (g : G) : c =~ d ->
  initial_x fo ro std_sort ip mode c cs n g = initial_x fo ro std_sort ip (other mode) d cs n g.
Proof. intros H. unfold initial_x. destruct ip; cbv zeta; [rewrite (init_bastert_opp mode c d H)|rewrite (pre_solve_opp true mode _ c d _ H)|rewrite (pre_solve_opp true mode _ c d _ H)]; reflexivity. Qed.
Lemma Forall2_repeat {A B} (R : A -> B -> Prop) a b n : R a b -> Forall2 R (repeat a n) (repeat b n).
Proof. intros H. induction n; cbn; constructor; auto. Qed.
Lemma make_solver_opp cl cs n c d mode x (g : G) : shares_affect cl -> (forall v x, both opp (c v x) (d v x)) ->
  match make_any_solver fo cl cs n c mode [] x g, make_any_solver fo cl cs n d (other mode) [] x g with
  | Ok (a, s), Ok (b, s') => sv_opp opp a b /\ s_opp opp s s' /\ sv_class a = cl
  | Ok _, _ => False | _, Ok _ => False
  | _, _ => True
  end.
Proof.
  intros Hcl H. unfold make_any_solver, make_solver. destruct (make_matrix _ _) as [ap|]; cbn [of_opt obind]; [|exact I].
  destruct (solver_ctor cl cs) as [b| |]; cbn [obind]; try exact I.
  assert (K : forall a b : solver F * state F G, a = a) by auto.
  destruct cl; try contradiction; (split; [repeat (split; [reflexivity || exact H|]); reflexivity|]); (split; [|reflexivity]);
    (split; [reflexivity|]); (split; [apply Forall2_repeat, (sy_zero _ _ Hsym)|]); (split; [apply Forall2_repeat, (sy_zero _ _ Hsym)|]);
    (split; [apply Forall2_repeat; split; [apply (sy_zero _ _ Hsym)|split; reflexivity]|reflexivity]).
Qed.
Lemma functor_opp fuel cl cs n c0 d0 nc nd p q mode o (g : G) : shares_affect cl -> c0 =~ d0 -> (forall v x, both opp (nc v x) (nd v x)) -> pa_opp opp p q -> plain_order (pa_order p) ->
  rrun (fun x y => loop_opp opp (fst x) (fst y) /\ snd x = snd y)
    (functor fo ro std_sort fuel cl cs n c0 nc p mode o [] g) (functor fo ro std_sort fuel cl cs n d0 nd q (other mode) (neg_objective o) [] g).
Proof.
  intros Hcl H0 Hc Hpq Hord. unfold functor. pose proof (make_solver_opp cl cs n nc nd mode [] g Hcl Hc) as M.
  destruct (make_any_solver fo cl cs n nc mode [] [] g) as [[a s]| |], (make_any_solver fo cl cs n nd (other mode) [] [] g) as [[b s']| |]; try contradiction; try exact I.
  destruct M as (Hab & Hs & Ea). pose proof Hs as (Sx & SP & Spi & SR & Sg). pose proof Hpq as (P1 & P2 & P3 & P4 & P5 & P6 & P7 & P8 & P9 & P10 & P11 & P12 & P13 & P14).
  rewrite <- P14, <- Sg, <- (initial_x_opp (pa_init p) mode c0 d0 cs n (s_g s) H0). destruct (initial_x _ _ _ _ _ _ _ _ _) as [[x g']|]; [|exact I].
  unfold functor_loop. cbn [s_x]. rewrite <- P13, <- (order_init_opp opp a b) by exact Hab.
  destruct (order_init a x (make_order (pa_order p) n)) as [od|] eqn:O; [|exact I].
  assert (Hod : plain od).
  { clear - O Hord. unfold order_init, make_order in O. destruct (pa_order p); try contradiction; cbn [od_order od_R od_m od_cycle] in O.
    all: try (destruct (violated a x); cbn [bind] in O; inversion O; subst; split; [exact I|reflexivity]).
    all: try (destruct (infeasibility a x); cbn [bind] in O; inversion O; subst; split; [exact I|reflexivity]).
    inversion O; subst; split; [exact I|reflexivity]. }
  rewrite <- P3, <- P11.
  assert (L : loop_opp opp (mk_loop od (mk_state x (s_P s) (s_pi s) (s_R s) g') (pa_kappa_min p) best0 []) (mk_loop od (mk_state x (s_P s') (s_pi s') (s_R s') g') (pa_kappa_min p) best0 [])).
  { split; [reflexivity|]. split; [exact Hod|]. split; [repeat split; assumption|]. split; [reflexivity|]. split; [repeat split|reflexivity]. }
  assert (Hcl' : shares_affect (sv_class a)) by (rewrite Ea; exact Hcl).
  pose proof (main_loop_opp fo ro std_sort opp Hsym Hsort Hshuffle a b p q o Hab Hcl' Hpq fuel 0 int_max _ _ L) as M.
  destruct (main_loop fo ro std_sort fuel a p o 0 int_max _) as [[l e]| |], (main_loop fo ro std_sort fuel b q (neg_objective o) 0 int_max _) as [[l' e']| |];
    cbn [rrun] in M; try contradiction; try exact I. destruct M as [Ml Me]. cbn [fst snd] in Ml, Me. subst e'.
  assert (Er : forall u u' : @loop F G, loop_opp opp u u' -> be_remaining (lp_best u) = be_remaining (lp_best u')) by (intros u u' (_ & _ & _ & _ & (_ & _ & B) & _); exact B).
  destruct e; try (rewrite <- (Er _ _ Ml); split; [exact Ml|reflexivity]).
  pose proof (push_loop_opp fo ro std_sort opp Hsym Hsort Hshuffle a b p q o Hab Hcl' Hpq (Z.to_nat (pa_pushes_limit p)) _ _ Ml) as Q.
  destruct (push_loop _ _ _ _ a _ _ _) as [u|], (push_loop _ _ _ _ b _ _ _) as [u'|]; cbn [both] in Q; try contradiction; [|exact I].
  rewrite <- (Er _ _ Q). split; [exact Q|reflexivity].
Qed.
Variable ddiv : Z -> Z -> Z.
Variables random_optimizer : problem -> run_result (outcome sresult).
Variable craw : list oelem -> list qelem -> nat -> nat -> option F.
Variable cnorm : list oelem -> list qelem -> nat -> nat -> list bool -> option F.
Hypothesis Hodd : odd_costs opp craw cnorm.
Lemma itm_solve_opp fuel po p q (g : G) pb : plain_pre_order po -> pa_opp opp p q -> plain_order (pa_order p) -> shares_affect (dispatch (p_problem_type pb)) ->
  itm_solve fo ro std_sort ddiv random_optimizer (by_terms craw) (by_terms cnorm) fuel false false po q [] g (mir pb) =
  run_map (outcome_map mirror_result) (itm_solve fo ro std_sort ddiv random_optimizer (by_terms craw) (by_terms cnorm) fuel false false po p [] g pb).
Proof.
  intros Hpo Hpq Hord Hcl. unfold itm_solve. cbn [negb]. change (p_problem_type (mir pb)) with (p_problem_type pb). set (cl := dispatch _) in *.
  unfold solve_problem. rewrite make_merged_mirror by exact Hpo. destruct (make_merged std_sort ddiv po pb) as [cs| |]; try reflexivity.
  cbn [mirror_problem p_vars p_type p_objective p_affected]. destruct (negb (is_nil cs) && negb (is_nil (v_values (p_vars pb)))); [|reflexivity].
  assert (H0 : by_terms craw pb =~ by_terms craw (mir pb)) by (intros v; apply Hodd).
  assert (H1 : forall v x, both opp (by_terms cnorm pb v x) (by_terms cnorm (mir pb) v x)) by (intros v x; apply Hodd).
  pose proof (functor_opp fuel cl cs (length (v_values (p_vars pb))) _ _ _ _ p q (p_type pb) (p_objective pb) g Hcl H0 H1 Hpq Hord) as M.
  destruct (functor _ _ _ _ _ _ _ (by_terms craw pb) _ _ _ _ _ _) as [[l st]| |], (functor _ _ _ _ _ _ _ (by_terms craw (mir pb)) _ _ _ _ _ _) as [[l' st']| |];
    cbn [rrun] in M; try contradiction; try reflexivity.
  destruct M as [(_ & _ & _ & _ & (Bx & Bv & _) & _) Me]. cbn [fst snd] in *. subst st'. rewrite <- Bx, Bv. cbn [run_map outcome_map]. unfold mirror_result. cbn [sr_status sr_solutions sr_remaining sr_names sr_affected sr_variables sr_constraints].
  destruct (is_nil (be_x (lp_best l))); reflexivity.
Qed.
Lemma user_solve_opp pfuel fuel pp po p q (g : G) pb : plain_pre_order po -> pa_opp opp p q -> plain_order (pa_order p) -> unit_coefficients pb -> even_qcosts pb ->
  user_solve fo ro std_sort ddiv random_optimizer (by_terms craw) (by_terms cnorm) pfuel fuel pp false false po q [] g (mir pb) =
  run_map (outcome_map mirror_result) (user_solve fo ro std_sort ddiv random_optimizer (by_terms craw) (by_terms cnorm) pfuel fuel pp false false po p [] g pb).
Proof.
  intros Hpo Hpq Hord Hu He. unfold user_solve. destruct pp.
  - change (unpreprocess (mir pb)) with (mir (unpreprocess pb)). apply itm_solve_opp; try assumption. cbn [unpreprocess p_problem_type]. now apply units_class.
  - rewrite preprocess_mirror by exact He. destruct (preprocess pfuel pb) as [[r|]| |] eqn:E; cbn [outcome_map option_map]; try reflexivity.
    destruct (units_preprocess _ _ _ Hu E) as [U Et]. apply itm_solve_opp; try assumption. rewrite Et. now apply units_class.
Qed.
End Top.
