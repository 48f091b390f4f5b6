From Coq Require Import Permutation Sorted.
From Verif Require Import Base Problem_model Merged_model Merged_spec Classify_model Preprocess_model Validate_model Params_model
  Rows_model Solver_model EndToEnd_model Rewrite_spec Layout_spec Layout_proofs Merged_model.
Open Scope Z_scope.

(** ** Preprocessing does not read the places *)
Section Pre.
Variable I : Z -> Z -> Prop.
Notation L := (Forall2 (moved I)).
Lemma cache_csts_mv l l' : L l l' -> forall i c, cache_csts l' i c = cache_csts l i c.
Proof. induction 1 as [|a a' l l' (A & B & C) H IH]; intros; cbn [cache_csts]; [reflexivity|]. rewrite A. destruct (cache_elems _ _ _); cbn [bind]; auto. Qed.
Lemma lengths_mv l l' : L l l' -> lengths l' = lengths l.
Proof. unfold lengths. induction 1 as [|a a' l l' (A & B & C) H IH]; cbn [map]; [reflexivity|]. now rewrite IH, A. Qed.
Lemma nth_mv l l' i : L l l' -> match nth_error l i with Some c => exists c', nth_error l' i = Some c' /\ moved I c c' | None => nth_error l' i = None end.
Proof. intros H. revert i. induction H as [|a a' l l' A H IH]; intros [|i]; cbn [nth_error]; [reflexivity|reflexivity|eauto|apply IH]. Qed.
Lemma reduce_mv op vars c c' : moved I c c' -> reduce_constraint op vars c' = reduce_constraint op vars c.
Proof. intros (A & B & C). unfold reduce_constraint, reduce. rewrite A, B. reflexivity. Qed.
Lemma affect_csts_mv op l l' vars idx : L l l' -> forall cnt lf, affect_csts op l' vars idx cnt lf = affect_csts op l vars idx cnt lf.
Proof.
  intros H. induction idx as [|i idx IH]; intros; cbn [affect_csts]; [reflexivity|].
  destruct (of_opt (nth_error cnt i)) as [k| |]; cbn [obind]; [|reflexivity|reflexivity].
  destruct (Nat.eqb k 0); [apply IH|]. destruct (Nat.eqb (Nat.pred k) 1).
  - pose proof (nth_mv _ _ i H) as N. destruct (nth_error l i) as [c|]; [destruct N as (c' & -> & N)|rewrite N; reflexivity]. cbn [of_opt obind].
    rewrite (reduce_mv _ _ _ _ N). destruct (reduce_constraint op vars c) as [v| |]; cbn [obind]; [|reflexivity|reflexivity].
    destruct (of_opt (list_upd cnt i 0%nat)) as [c2| |]; cbn [obind]; [apply IH|reflexivity|reflexivity].
  - destruct (of_opt (list_upd cnt i (Nat.pred k))) as [c'| |]; cbn [obind]; [apply IH|reflexivity|reflexivity].
Qed.
Lemma affect_units_mv op vars l l' : L l l' -> forall cnt lf, affect_units op vars l' cnt lf = affect_units op vars l cnt lf.
Proof.
  induction 1 as [|c c' l l' A H IH]; intros; cbn [affect_units]; [reflexivity|]. destruct cnt as [|k cnt]; [reflexivity|].
  replace (affect_unit op vars c' k lf) with (affect_unit op vars c k lf) by (unfold affect_unit, is_all_factor_ge_than_zero, sum_factor; rewrite (reduce_mv _ _ _ _ A); destruct A as (A & B & C); rewrite ?A, ?B; reflexivity).
  destruct (affect_unit op vars c k lf) as [[k' lf']| |]; cbn [obind]; [|reflexivity|reflexivity]. rewrite IH. reflexivity.
Qed.
Lemma exclude_mv m l l' : L l l' -> forall cnt, match constraints_exclude_copy m cnt l with
  | Some r => exists r', constraints_exclude_copy m cnt l' = Some r' /\ L r r' | None => constraints_exclude_copy m cnt l' = None end.
Proof.
  induction 1 as [|c c' l l' (A & B & C) H IH]; intros; cbn [constraints_exclude_copy]; [eauto|]. destruct cnt as [|k cnt]; [reflexivity|].
  destruct (Nat.leb k 1); [apply IH|]. rewrite A, B. destruct (copy_elements m (c_elements c) (c_value c)) as [r|]; cbn [bind]; [|reflexivity].
  specialize (IH cnt). destruct (constraints_exclude_copy m cnt l) as [t|]; [destruct IH as (t' & -> & IH)|rewrite IH; reflexivity]. cbn [bind].
  eexists. split; [reflexivity|]. constructor; [|exact IH]. repeat split; cbn. exact C.
Qed.
Lemma is_valid_mv l l' size : L l l' -> is_valid_variable_index l' size = is_valid_variable_index l size.
Proof. unfold is_valid_variable_index. induction 1 as [|c c' l l' (A & B & C) H IH]; cbn [forallb]; [reflexivity|]. now rewrite IH, A. Qed.
Lemma coef_csts_mv l l' : L l l' -> forall r, coef_csts l' r = coef_csts l r.
Proof. induction 1 as [|c c' l l' (A & B & C) H IH]; intros; cbn [coef_csts]; [reflexivity|]. rewrite A. destruct (coef_elems _ _); auto. Qed.
Lemma is_nil_mv l l' : L l l' -> is_nil l' = is_nil l.
Proof. now destruct 1. Qed.
Notation LL := (line_by_line (moved I)).
Lemma which_mv pb pb' : LL pb pb' -> which_problem_type pb' = which_problem_type pb.
Proof.
  intros (_ & _ & _ & _ & _ & A & B & C). unfold which_problem_type, coefficient_type, coefficient_type_of.
  now rewrite (is_nil_mv _ _ B), (is_nil_mv _ _ C), (coef_csts_mv _ _ A), (coef_csts_mv _ _ B), (coef_csts_mv _ _ C).
Qed.
Lemma caches_mv pb pb' : LL pb pb' -> make_caches pb' = make_caches pb.
Proof.
  intros (_ & V & _ & _ & _ & A & B & C). unfold make_caches, make_cache. rewrite V.
  now rewrite (cache_csts_mv _ _ A), (cache_csts_mv _ _ B), (cache_csts_mv _ _ C).
Qed.
Lemma affect_step_mv pb pb' ch s v b lf : LL pb pb' -> affect_step pb' ch s v b lf = affect_step pb ch s v b lf.
Proof.
  intros (_ & _ & _ & _ & _ & A & B & C). unfold affect_step.
  destruct (of_opt (nth_error (in_equal ch) v)) as [ie| |]; cbn [obind]; [|reflexivity|reflexivity]. rewrite (affect_csts_mv _ _ _ _ _ A).
  destruct (affect_csts op_equal _ _ _ _ _) as [[e l1]| |]; cbn [obind]; [|reflexivity|reflexivity].
  destruct (of_opt (nth_error (in_greater ch) v)) as [ig| |]; cbn [obind]; [|reflexivity|reflexivity]. rewrite (affect_csts_mv _ _ _ _ _ B).
  destruct (affect_csts op_greater _ _ _ _ _) as [[e2 l2]| |]; cbn [obind]; [|reflexivity|reflexivity].
  destruct (of_opt (nth_error (in_less ch) v)) as [il| |]; cbn [obind]; [|reflexivity|reflexivity]. rewrite (affect_csts_mv _ _ _ _ _ C). reflexivity.
Qed.
Lemma affects_mv pb pb' ch fuel : LL pb pb' -> forall s, affects fuel pb' ch s = affects fuel pb ch s.
Proof.
  intros H. induction fuel as [|fuel IH]; intros; cbn [affects]; [reflexivity|]. destruct (s_lifo s) as [|[v b] lf]; [reflexivity|].
  rewrite (affect_step_mv _ _ _ _ _ _ _ H). destruct (affect_step pb ch s v b lf); cbn [obind]; auto.
Qed.
Lemma remove_unused_mv pb pb' ch s is : LL pb pb' -> forall vars, remove_unused pb' ch s is vars = remove_unused pb ch s is vars.
Proof.
  intros (O & V & A & T & _). induction is as [|i is IH]; intros; cbn [remove_unused]; [reflexivity|]. destruct (vfind vars i); [apply IH|].
  destruct (is_unused_variable ch s i); cbn [bind]; [|reflexivity].
  replace (unused_value pb' i) with (unused_value pb i) by (unfold unused_value; now rewrite ?O, ?V, ?T). apply IH.
Qed.
Definition pmv (x y : outcome (option problem)) : Prop :=
  match x with Ok (Some q) => exists q', y = Ok (Some q') /\ LL q q' | Ok None => y = Ok None | Throw => y = Throw | Crash => y = Crash end.
Lemma make_problem_mv pb pb' aff mo s : LL pb pb' ->
  match make_problem pb aff mo s with Ok q => exists q', make_problem pb' aff mo s = Ok q' /\ LL q q' | Throw => make_problem pb' aff mo s = Throw | Crash => make_problem pb' aff mo s = Crash end.
Proof.
  intros (O & V & Af & T & K & A & B & C). unfold make_problem. rewrite O, V, T, K.
  set (n := length (v_values (p_vars pb))). set (m := make_mapping (s_vars s) (seq 0 n) 0).
  destruct (Nat.eqb _ _); cbn [ensures]; [|reflexivity].
  destruct (objective_function_exclude_copy m (p_objective pb) mo) as [o|]; cbn [of_opt obind]; [|reflexivity].
  destruct (variables_exclude_copy (s_vars s) (p_vars pb) (seq 0 n) (mk_variables [] []) aff) as [[vs af]|]; cbn [of_opt obind]; [|reflexivity].
  destruct (names_kept _ _ _); cbn [ensures]; [|reflexivity].
  pose proof (exclude_mv m _ _ A (s_equal s)) as E1.
  destruct (constraints_exclude_copy m (s_equal s) (p_equal pb)) as [eq|]; [destruct E1 as (eq' & -> & E1)|rewrite E1; reflexivity]. cbn [of_opt obind].
  pose proof (exclude_mv m _ _ B (s_greater s)) as E2.
  destruct (constraints_exclude_copy m (s_greater s) (p_greater pb)) as [gr|]; [destruct E2 as (gr' & -> & E2)|rewrite E2; reflexivity]. cbn [of_opt obind].
  pose proof (exclude_mv m _ _ C (s_less s)) as E3.
  destruct (constraints_exclude_copy m (s_less s) (p_less pb)) as [le|]; [destruct E3 as (le' & -> & E3)|rewrite E3; reflexivity]. cbn [of_opt obind].
  rewrite (is_valid_mv _ _ _ E1), (is_valid_mv _ _ _ E2), (is_valid_mv _ _ _ E3). destruct (_ && _); cbn [ensures]; [|reflexivity].
  eexists. split; [reflexivity|]. unfold line_by_line. cbn [p_objective p_equal p_greater p_less p_vars p_affected p_type p_problem_type].
  repeat split; try assumption. apply which_mv. unfold line_by_line. cbn. auto 10.
Qed.
Lemma finish_mv fuel pb pb' aff ch s : LL pb pb' -> pmv (finish fuel pb aff ch s) (finish fuel pb' aff ch s).
Proof.
  intros H. unfold finish. rewrite (affects_mv _ _ _ _ H). destruct (affects fuel pb ch s) as [[s1|]| |]; cbn [obind pmv]; try reflexivity.
  pose proof H as (O & V & _ & T & _).
  replace (make_lp_from_bqp_objective pb' ch s1) with (make_lp_from_bqp_objective pb ch s1) by (unfold make_lp_from_bqp_objective; rewrite ?O, ?V, ?T; reflexivity).
  destruct (make_lp_from_bqp_objective pb ch s1) as [mo|]; cbn [of_opt obind]; [|reflexivity].
  unfold try_remove_unused_variable. rewrite (remove_unused_mv _ _ _ _ _ H).
  destruct (remove_unused _ _ _ _ _) as [vars|]; cbn [bind of_opt obind]; [|reflexivity]. rewrite (affects_mv _ _ _ _ H).
  destruct (affects fuel pb ch _) as [[s3|]| |]; cbn [obind pmv]; try reflexivity. pose proof (make_problem_mv _ _ aff mo s3 H) as M.
  destruct (make_problem pb aff mo s3) as [q| |]; [destruct M as (q' & -> & M)|rewrite M; reflexivity|rewrite M; reflexivity]. cbn [obind pmv]. exists q'. split; [reflexivity|exact M].
Qed.
Lemma preprocess_mv fuel pb pb' : LL pb pb' -> pmv (preprocess fuel pb) (preprocess fuel pb').
Proof.
  intros H. unfold preprocess. rewrite (caches_mv _ _ H). destruct (make_caches pb) as [ch|]; cbn [of_opt obind]; [|reflexivity].
  pose proof H as (O & V & _ & T & _ & A & B & C).
  unfold init_state, try_affect_variable. cbn [s_vars s_lifo s_equal s_greater s_less].
  rewrite (lengths_mv _ _ A), (lengths_mv _ _ B), (lengths_mv _ _ C), (affect_units_mv _ _ _ _ A).
  replace (try_affect_bounded_variable pb' []) with (try_affect_bounded_variable pb []) by (unfold try_affect_bounded_variable; rewrite ?O, ?V, ?T; reflexivity).
  destruct (affect_units op_equal _ _ _ _) as [[e l1]| |]; cbn [obind]; try reflexivity. rewrite (affect_units_mv _ _ _ _ B).
  destruct (affect_units op_greater _ _ _ _) as [[e2 l2]| |]; cbn [obind]; try reflexivity. rewrite (affect_units_mv _ _ _ _ C).
  destruct (affect_units op_less _ _ _ _) as [[e3 l3]| |]; cbn [obind]; try reflexivity. now apply finish_mv.
Qed.
Lemma unpreprocess_mv pb pb' : LL pb pb' -> LL (unpreprocess pb) (unpreprocess pb').
Proof.
  intros H. pose proof (which_mv _ _ H) as W. destruct H as (O & V & _ & T & _ & A & B & C). unfold line_by_line, unpreprocess.
  cbn [p_objective p_equal p_greater p_less p_vars p_affected p_type p_problem_type]. auto 10.
Qed.
End Pre.

(** ** The ids *)
Inductive sub {A} : list A -> list A -> Prop :=
| sub_nil : sub [] []
| sub_keep a l l' : sub l l' -> sub (a :: l) (a :: l')
| sub_drop a l l' : sub l l' -> sub l (a :: l').
Lemma sub_refl {A} (l : list A) : sub l l.
Proof. induction l; constructor; assumption. Qed.
Lemma sub_app {A} (a a' b b' : list A) : sub a a' -> sub b b' -> sub (a ++ b) (a' ++ b').
Proof. intros H K. induction H; cbn; [exact K|constructor; assumption|constructor; assumption]. Qed.
Lemma sub_In {A} (l l' : list A) a : sub l l' -> In a l -> In a l'.
Proof. induction 1; cbn; intuition. Qed.
Lemma sub_NoDup {A} (l l' : list A) : sub l l' -> NoDup l' -> NoDup l.
Proof.
  induction 1 as [|a l l' H IH|a l l' H IH]; intros N; inversion N; subst; [constructor| |auto]. constructor; [|auto].
  intros K. now apply (sub_In _ _ _ H) in K.
Qed.
Lemma sub_trans {A} (a b c : list A) : sub a b -> sub b c -> sub a c.
Proof.
  intros H K. revert a H. induction K as [|x l l' K IH|x l l' K IH]; intros a H; [exact H| |constructor; auto].
  inversion H; subst; constructor; auto.
Qed.
Lemma exclude_ids m l : forall cnt r, constraints_exclude_copy m cnt l = Some r -> sub (map c_id r) (map c_id l).
Proof.
  induction l as [|c l IH]; intros cnt r H; cbn [constraints_exclude_copy] in H; [injection H as <-; constructor|].
  destruct cnt as [|k cnt]; [discriminate|]. cbn [map]. destruct (Nat.leb k 1); [constructor; eapply IH; eauto|].
  destruct (copy_elements m _ _); cbn [bind] in H; [|discriminate]. destruct (constraints_exclude_copy m cnt l) eqn:E; cbn [bind] in H; [|discriminate].
  injection H as <-. cbn [map c_id]. constructor. eapply IH; eauto.
Qed.
Lemma make_problem_places pb aff mo s q : make_problem pb aff mo s = Ok q -> places_differ pb -> places_differ q.
Proof.
  unfold make_problem. intros H N. destruct (Nat.eqb _ _); cbn [ensures] in H; [|discriminate].
  destruct (objective_function_exclude_copy _ _ _) as [o|]; cbn [of_opt obind] in H; [|discriminate].
  destruct (variables_exclude_copy _ _ _ _ _) as [[vs af]|]; cbn [of_opt obind] in H; [|discriminate].
  destruct (names_kept _ _ _); cbn [ensures] in H; [|discriminate].
  destruct (constraints_exclude_copy _ (s_equal s) _) as [eq|] eqn:E1; cbn [of_opt obind] in H; [|discriminate].
  destruct (constraints_exclude_copy _ (s_greater s) _) as [gr|] eqn:E2; cbn [of_opt obind] in H; [|discriminate].
  destruct (constraints_exclude_copy _ (s_less s) _) as [le|] eqn:E3; cbn [of_opt obind] in H; [|discriminate].
  destruct (_ && _); cbn [ensures] in H; [|discriminate]. injection H as <-. unfold places_differ in *. cbn [p_equal p_greater p_less].
  eapply sub_NoDup; [|exact N]. rewrite !map_app. repeat apply sub_app; eapply exclude_ids; eauto.
Qed.
Lemma preprocess_places fuel pb q : preprocess fuel pb = Ok (Some q) -> places_differ pb -> places_differ q.
Proof.
  unfold preprocess, finish. intros H N. destruct (make_caches pb); cbn [of_opt obind] in H; [|discriminate].
  destruct (try_affect_variable pb _); cbn [obind] in H; try discriminate. destruct (affects fuel pb _ _) as [[s1|]| |]; cbn [obind] in H; try discriminate.
  destruct (make_lp_from_bqp_objective _ _ _); cbn [of_opt obind] in H; [|discriminate]. destruct (try_remove_unused_variable _ _ _); cbn [of_opt obind] in H; [|discriminate].
  destruct (affects fuel pb _ _) as [[s3|]| |]; cbn [obind] in H; try discriminate. destruct (make_problem _ _ _ _) as [q0| |] eqn:E; cbn [obind] in H; try discriminate.
  injection H as <-. eapply make_problem_places; eauto.
Qed.

Lemma upd_ids l : forall i m m0 l', nth_error l i = Some m0 -> m_id m = m_id m0 -> list_upd l i m = Some l' -> map m_id l' = map m_id l.
Proof.
  induction l as [|a l IH]; intros [|i] m m0 l' N E H; cbn [nth_error list_upd] in *; try discriminate.
  - injection N as ->. injection H as <-. cbn [map]. now rewrite E.
  - destruct (list_upd l i m) eqn:U; cbn [bind] in H; [|discriminate]. injection H as <-. cbn [map]. f_equal. eapply IH; eauto.
Qed.
Lemma fill_ids op s c s' : fill_op op s c = Ok s' -> sub (map m_id (snd s')) (map m_id (snd s) ++ [c_id c]).
Proof.
  destruct s as [ca ret]. cbn [snd]. assert (Same : forall r, map m_id r = map m_id ret -> sub (map m_id r) (map m_id ret ++ [c_id c])).
  { intros r ->. rewrite <- (app_nil_r (map m_id ret)) at 1. apply sub_app; [apply sub_refl|repeat constructor]. }
  destruct op; cbn [fill_op]; unfold fill_equal, fill_less, fill_greater; intros H;
    (destruct (cache_find ca (c_elements c)) as [i|]; [|injection H as <-; cbn [snd]; rewrite map_app; apply sub_refl]);
    (destruct (nth_error ret i) as [m|] eqn:N; cbn [of_opt obind] in H; [|discriminate]).
  - destruct (_ && _); [|discriminate]. destruct (list_upd ret i _) as [t|] eqn:U; cbn [of_opt obind] in H; [|discriminate]. injection H as <-. cbn [snd].
    apply Same. eapply upd_ids; [exact N| |exact U]; reflexivity.
  - destruct (list_upd ret i _) as [t|] eqn:U; cbn [of_opt obind] in H; [|discriminate]. injection H as <-. cbn [snd]. apply Same. eapply upd_ids; [exact N| |exact U]; reflexivity.
  - destruct (list_upd ret i _) as [t|] eqn:U; cbn [of_opt obind] in H; [|discriminate]. injection H as <-. cbn [snd]. apply Same. eapply upd_ids; [exact N| |exact U]; reflexivity.
Qed.
Lemma fill_list_ids op l : forall s s', fill_list (fill_op op) s l = Ok s' -> sub (map m_id (snd s')) (map m_id (snd s) ++ map c_id l).
Proof.
  induction l as [|c l IH]; intros s s' H; cbn [fill_list] in H; [injection H as <-; cbn; rewrite app_nil_r; apply sub_refl|].
  destruct (fill_op op s c) as [t| |] eqn:E; cbn [obind] in H; try discriminate. eapply sub_trans; [apply (IH _ _ H)|]. cbn [map].
  change (c_id c :: map c_id l) with ([c_id c] ++ map c_id l). rewrite app_assoc. apply sub_app; [|apply sub_refl]. eapply fill_ids; eauto.
Qed.
Lemma fill3_places pb r : fill3 op_equal op_less op_greater pb = Ok r -> places_differ pb -> NoDup (map m_id r).
Proof.
  unfold fill3. cbn [fill_merged]. intros H N. destruct (fill_list fill_equal _ _) as [s1| |] eqn:E1; cbn [obind] in H; try discriminate.
  destruct (fill_list fill_less _ _) as [s2| |] eqn:E2; cbn [obind] in H; try discriminate.
  destruct (fill_list fill_greater _ _) as [s3| |] eqn:E3; cbn [obind] in H; try discriminate. injection H as <-.
  pose proof (fill_list_ids op_equal _ _ _ E1) as A. pose proof (fill_list_ids op_less _ _ _ E2) as B. pose proof (fill_list_ids op_greater _ _ _ E3) as C.
  cbn [snd map app] in A. eapply (sub_NoDup _ ((map c_id (p_equal pb) ++ map c_id (p_less pb)) ++ map c_id (p_greater pb))).
  - eapply sub_trans; [exact C|]. apply sub_app; [|apply sub_refl]. eapply sub_trans; [exact B|]. apply sub_app; [exact A|apply sub_refl].
  - unfold places_differ in N. rewrite !map_app in N. eapply Permutation_NoDup; [|exact N]. rewrite <- app_assoc. apply Permutation_app_head, Permutation_app_comm.
Qed.
