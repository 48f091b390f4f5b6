(** Lemmas on the branch optimizer: splitting ends and removes a variable; the loop never ends well. *)
From Coq Require Import Lia Arith.
From Verif Require Import Base Problem_model Problem_spec Classify_model Merged_proofs Preprocess_model Preprocess_proofs Tuning_model Tuning_spec.
Open Scope nat_scope.

Section Split.
Variable pb : problem.
Notation n := (length (v_values (p_vars pb))).
Hypothesis Hidx : index_ok pb.

(** The variables to assign are new and not assigned yet. *)
Definition fresh (vars : vmap) (lf : lifo) : Prop :=
  NoDup (vkeys vars) /\ NoDup (vkeys lf) /\ (forall v, In v (vkeys vars) -> v < n) /\
  (forall v, In v (vkeys lf) -> v < n /\ vfind vars v = None).
Lemma reduce_loop_remaining vars l : forall res rem e z, reduce_loop vars l res rem = Ok (Some e, z) ->
  rem = Some e \/ (In e l /\ vfind vars (f_var e) = None).
Proof.
  induction l as [ |a l IH ]; intros res rem e z H; cbn [reduce_loop] in H.
  - injection H as -> ->. auto.
  - destruct (vfind vars (f_var a)) as [ b | ] eqn:E.
    + apply IH in H. cbn [In]. tauto.
    + destruct rem; [ discriminate H | ]. apply IH in H. destruct H as [ H | (H1 & H2) ]; [ injection H as ->; right; cbn; auto | right; cbn; auto ].
Qed.
Lemma reduce_fresh op vars c v b : reduce_constraint op vars c = Ok (Some (v, b)) ->
  vfind vars v = None /\ exists e, In e (c_elements c) /\ f_var e = v.
Proof.
  unfold reduce_constraint, reduce. destruct (reduce_loop vars (c_elements c) (c_value c) None) as [ [ [ e | ] z ] | | ] eqn:E; cbn [obind]; try discriminate.
  apply reduce_loop_remaining in E. destruct E as [ E | (E1 & E2) ]; [ discriminate E | ].
  intros H.
  assert (f_var e = v). { destruct (compare_op op (f_factor e * 0) z), (compare_op op (f_factor e * 1) z); cbn in H; try discriminate H; injection H; auto. }
  subst v. split; [ exact E2 | eauto ].
Qed.
Lemma emplace_fresh vars lf v b : fresh vars lf -> v < n -> vfind vars v = None -> fresh vars (lifo_emplace lf v b).
Proof.
  intros (H1 & H2 & H3 & H4) Hv Hn. unfold lifo_emplace. destruct (vfind lf v) eqn:E; [ split; auto | ].
  apply vfind_none in E. split; [ exact H1 | ]. split; [ cbn; constructor; assumption | ]. split; [ exact H3 | ].
  intros u [ <- | Hu ]; [ auto | apply H4; exact Hu ].
Qed.
Lemma affect_csts_fresh op csts vars idx : (forall c, In c csts -> In c (all_constraints pb)) ->
  forall cnt lf cnt' lf', fresh vars lf -> affect_csts op csts vars idx cnt lf = Ok (cnt', lf') -> fresh vars lf'.
Proof.
  intros Hc. induction idx as [ |i idx IH ]; intros cnt lf cnt' lf' Hf H; cbn [affect_csts] in H.
  - injection H as <- <-. exact Hf.
  - destruct (nth_error cnt i) as [ k | ]; cbn [of_opt obind] in H; [ | discriminate H ].
    destruct (Nat.eqb k 0); [ eapply IH; eassumption | ].
    destruct (Nat.eqb (Nat.pred k) 1).
    + destruct (nth_error csts i) as [ c | ] eqn:Ec; cbn [of_opt obind] in H; [ | discriminate H ].
      destruct (reduce_constraint op vars c) as [ r | | ] eqn:Er; cbn [obind] in H; try discriminate H.
      destruct (list_upd cnt i 0) as [ cnt1 | ]; cbn [of_opt obind] in H; [ | discriminate H ].
      eapply IH; [ | exact H ]. destruct r as [ [v b] | ]; [ | exact Hf ].
      apply reduce_fresh in Er. destruct Er as (Hv & e & He & <-). cbn [lifo_emplace_opt].
      apply emplace_fresh; [ exact Hf | | exact Hv ]. apply (Hidx c e); [ apply Hc; apply (nth_error_In _ _ Ec) | exact He ].
    + destruct (list_upd cnt i (Nat.pred k)) as [ cnt1 | ]; cbn [of_opt obind] in H; [ | discriminate H ]. eapply IH; eassumption.
Qed.
Lemma affect_step_fresh ch s v b lf s' : fresh (s_vars s) ((v, b) :: lf) -> affect_step pb ch s v b lf = Ok s' ->
  fresh (s_vars s') (s_lifo s') /\ s_vars s' = s_vars s ++ [(v, b)].
Proof.
  intros (H1 & H2 & H3 & H4) H. unfold affect_step in H.
  destruct (H4 v) as [ Hv Hn ]; [ cbn; auto | ].
  rewrite (vemplace_fresh (s_vars s) v b) in H by (apply vfind_none; exact Hn).
  assert (F : fresh (s_vars s ++ [(v, b)]) lf).
  { inversion H2 as [ |x y N1 N2 ]; subst. split; [ | split; [ exact N2 | split ] ].
    - unfold vkeys. rewrite map_app. cbn. apply NoDup_app_one; [ exact H1 | apply vfind_none; exact Hn ].
    - intros u Hu. unfold vkeys in Hu. rewrite map_app in Hu. apply in_app_or in Hu. destruct Hu as [ Hu | [ <- | [] ] ]; [ apply H3; exact Hu | exact Hv ].
    - intros u Hu. destruct (H4 u) as [ A B ]; [ cbn; auto | ]. split; [ exact A | ]. rewrite vfind_app, B. cbn.
      destruct (Nat.eqb_spec v u) as [ -> | ]; [ contradiction | reflexivity ]. }
  destruct (nth_error (in_equal ch) v); cbn [of_opt obind] in H; [ | discriminate ].
  destruct (affect_csts op_equal _ _ _ _ _) as [ [e1 w1] | | ] eqn:A1; cbn [obind] in H; try discriminate.
  destruct (nth_error (in_greater ch) v); cbn [of_opt obind] in H; [ | discriminate ].
  destruct (affect_csts op_greater _ _ _ _ _) as [ [e2 w2] | | ] eqn:A2; cbn [obind] in H; try discriminate.
  destruct (nth_error (in_less ch) v); cbn [of_opt obind] in H; [ | discriminate ].
  destruct (affect_csts op_less _ _ _ _ _) as [ [e3 w3] | | ] eqn:A3; cbn [obind] in H; try discriminate.
  injection H as <-. cbn [s_vars s_lifo]. split; [ | reflexivity ].
  apply affect_csts_fresh in A1; [ | intros c Hc; unfold all_constraints; rewrite !in_app_iff; tauto | exact F ].
  apply affect_csts_fresh in A2; [ | intros c Hc; unfold all_constraints; rewrite !in_app_iff; tauto | exact A1 ].
  apply affect_csts_fresh in A3; [ | intros c Hc; unfold all_constraints; rewrite !in_app_iff; tauto | exact A2 ].
  exact A3.
Qed.
Lemma affect_csts_keeps op csts vars idx : forall cnt lf cnt' lf', affect_csts op csts vars idx cnt lf = Ok (cnt', lf') ->
  incl (vkeys lf) (vkeys lf').
Proof.
  induction idx as [ |i idx IH ]; intros cnt lf cnt' lf' H; cbn [affect_csts] in H.
  - injection H as <- <-. apply incl_refl.
  - destruct (nth_error cnt i) as [ k | ]; cbn [of_opt obind] in H; [ | discriminate H ].
    destruct (Nat.eqb k 0); [ eapply IH; eassumption | ].
    destruct (Nat.eqb (Nat.pred k) 1).
    + destruct (nth_error csts i) as [ c | ]; cbn [of_opt obind] in H; [ | discriminate H ].
      destruct (reduce_constraint op vars c) as [ r | | ]; cbn [obind] in H; try discriminate H.
      destruct (list_upd cnt i 0) as [ cnt1 | ]; cbn [of_opt obind] in H; [ | discriminate H ].
      eapply incl_tran; [ | eapply IH; exact H ]. destruct r as [ [v b] | ]; cbn [lifo_emplace_opt]; [ | apply incl_refl ].
      unfold lifo_emplace. destruct (vfind lf v); [ apply incl_refl | cbn; apply incl_tl, incl_refl ].
    + destruct (list_upd cnt i (Nat.pred k)) as [ cnt1 | ]; cbn [of_opt obind] in H; [ | discriminate H ]. eapply IH; eassumption.
Qed.
Lemma affect_step_lifo ch s v b lf s' : affect_step pb ch s v b lf = Ok s' -> incl (vkeys lf) (vkeys (s_lifo s')).
Proof.
  intros H. unfold affect_step in H.
  destruct (nth_error (in_equal ch) v); cbn [of_opt obind] in H; [ | discriminate ].
  destruct (affect_csts op_equal _ _ _ _ _) as [ [e1 w1] | | ] eqn:A1; cbn [obind] in H; try discriminate.
  destruct (nth_error (in_greater ch) v); cbn [of_opt obind] in H; [ | discriminate ].
  destruct (affect_csts op_greater _ _ _ _ _) as [ [e2 w2] | | ] eqn:A2; cbn [obind] in H; try discriminate.
  destruct (nth_error (in_less ch) v); cbn [of_opt obind] in H; [ | discriminate ].
  destruct (affect_csts op_less _ _ _ _ _) as [ [e3 w3] | | ] eqn:A3; cbn [obind] in H; try discriminate.
  injection H as <-. cbn [s_lifo]. eapply incl_tran; [ eapply affect_csts_keeps; exact A1 | ].
  eapply incl_tran; [ eapply affect_csts_keeps; exact A2 | eapply affect_csts_keeps; exact A3 ].
Qed.
Lemma fresh_length vars lf : fresh vars lf -> length vars + length lf <= n.
Proof.
  intros (H1 & H2 & H3 & H4). rewrite <- (map_length fst vars), <- (map_length fst lf), <- app_length, <- (seq_length n 0).
  apply NoDup_incl_length.
  - apply NoDup_app'; [ exact H1 | exact H2 | ]. intros v Hv Hl. destruct (H4 v Hl) as [ _ E ]. apply vfind_none in E. contradiction.
  - intros v Hv. apply in_seq. apply in_app_or in Hv. destruct Hv as [ Hv | Hv ]; [ specialize (H3 v Hv); lia | destruct (H4 v Hv); lia ].
Qed.
Lemma affects_ends ch fuel : forall s, fresh (s_vars s) (s_lifo s) -> n < fuel + length (s_vars s) ->
  affects fuel pb ch s <> Ok None /\
  forall s', affects fuel pb ch s = Ok (Some s') -> s_lifo s' = [] /\
    (forall v, In v (vkeys (s_vars s)) \/ In v (vkeys (s_lifo s)) -> In v (vkeys (s_vars s'))).
Proof.
  induction fuel as [ |fuel IH ]; intros s Hf Hn.
  - pose proof (fresh_length _ _ Hf). lia.
  - cbn [affects]. destruct (s_lifo s) as [ |[v b] lf ] eqn:El.
    + split; [ discriminate | ]. intros s' E. injection E as <-. split; [ exact El | ]. intros v [ H | [] ]. exact H.
    + destruct (affect_step pb ch s v b lf) as [ s1 | | ] eqn:Es; cbn [obind]; [ | split; [ discriminate | intros s' E; discriminate E ] | split; [ discriminate | intros s' E; discriminate E ] ].
      pose proof (affect_step_lifo ch s v b lf s1 Es) as Hkeep.
      apply affect_step_fresh in Es; [ | exact Hf ]. destruct Es as [ F Ev ].
      destruct (IH s1 F) as [ I1 I2 ]; [ rewrite Ev, app_length; cbn; lia | ].
      split; [ exact I1 | ]. intros s' E. destruct (I2 s' E) as [ J1 J2 ]. split; [ exact J1 | ].
      intros u Hu. apply J2. cbn in Hu. rewrite Ev. unfold vkeys. rewrite map_app, in_app_iff. cbn.
      destruct Hu as [ Hu | [ Hu | Hu ] ]; auto.
Qed.

(** The copy of the variables *)
Lemma exclude_length vars vs is : forall rv ra rv' ra', variables_exclude_copy vars vs is rv ra = Some (rv', ra') ->
  length (v_values rv') = length (v_values rv) + length (filter (fun i => match vfind vars i with None => true | Some _ => false end) is).
Proof.
  induction is as [ |i is IH ]; intros rv ra rv' ra' H; cbn [variables_exclude_copy] in H.
  - injection H as <- <-. cbn. lia.
  - destruct (nth_error (v_names vs) i); cbn [bind] in H; [ | discriminate H ].
    cbn [filter]. destruct (vfind vars i).
    + apply IH in H. exact H.
    + destruct (nth_error (v_values vs) i); cbn [bind] in H; [ | discriminate H ]. apply IH in H. rewrite H. cbn [v_values length].
      rewrite app_length. cbn [length]. lia.
Qed.
Lemma filter_less {A} (f : A -> bool) l a : In a l -> f a = false -> length (filter f l) < length l.
Proof.
  induction l as [ |b l IH ]; intros H E; [ destruct H | ]. cbn [filter]. destruct H as [ -> | H ].
  - rewrite E. assert (length (filter f l) <= length l) by (clear; induction l as [ |c l IH ]; cbn; [ lia | destruct (f c); cbn; lia ]). cbn [length]. lia.
  - specialize (IH H E). destruct (f b); cbn [length]; lia.
Qed.
Lemma valid_index_ok l size : is_valid_variable_index l size = true -> forall c e, In c l -> In e (c_elements c) -> f_var e < size.
Proof.
  unfold is_valid_variable_index. rewrite forallb_forall. intros H c e Hc He. specialize (H c Hc). rewrite forallb_forall in H.
  specialize (H e He). apply Nat.ltb_lt in H. exact H.
Qed.
Lemma make_problem_less aff mo s q v : make_problem pb aff mo s = Ok q -> In v (vkeys (s_vars s)) -> v < n ->
  index_ok q /\ length (v_values (p_vars q)) < n.
Proof.
  intros H Hv Hn. unfold make_problem in H.
  destruct (Nat.eqb _ _) in H; cbn [ensures] in H; [ | discriminate H ].
  destruct (objective_function_exclude_copy _ _ _) in H; cbn [of_opt obind] in H; [ | discriminate H ].
  destruct (variables_exclude_copy _ _ _ _ _) as [ [vs af] | ] eqn:Ev in H; cbn [of_opt obind] in H; [ | discriminate H ].
  destruct (names_kept _ _ _) in H; cbn [ensures] in H; [ | discriminate H ].
  destruct (constraints_exclude_copy _ _ (p_equal pb)) as [ eq | ] in H; cbn [of_opt obind] in H; [ | discriminate H ].
  destruct (constraints_exclude_copy _ _ (p_greater pb)) as [ gr | ] in H; cbn [of_opt obind] in H; [ | discriminate H ].
  destruct (constraints_exclude_copy _ _ (p_less pb)) as [ le | ] in H; cbn [of_opt obind] in H; [ | discriminate H ].
  destruct (is_valid_variable_index eq _ && is_valid_variable_index gr _ && is_valid_variable_index le _) eqn:V in H; cbn [ensures] in H; [ | discriminate H ].
  injection H as <-. apply andb_true_iff in V. destruct V as [ V V3 ]. apply andb_true_iff in V. destruct V as [ V1 V2 ]. split.
  - intros c e Hc He. unfold all_constraints in Hc. cbn [p_equal p_greater p_less p_vars] in *. rewrite !in_app_iff in Hc.
    destruct Hc as [ Hc | [ Hc | Hc ] ]; [ exact (valid_index_ok _ _ V1 c e Hc He) | exact (valid_index_ok _ _ V2 c e Hc He) | exact (valid_index_ok _ _ V3 c e Hc He) ].
  - cbn [p_vars]. apply exclude_length in Ev. rewrite Ev. cbn [v_values length Nat.add].
    rewrite <- (seq_length n 0) at 2. apply (filter_less _ _ v); [ apply in_seq; lia | ].
    destruct (vfind (s_vars s) v) eqn:E; [ reflexivity | ]. apply vfind_none in E. contradiction.
Qed.
Lemma remove_unused_keeps ch s is : forall vars vars', remove_unused pb ch s is vars = Some vars' -> incl (vkeys vars) (vkeys vars').
Proof.
  induction is as [ |i is IH ]; intros vars vars' H; cbn [remove_unused] in H.
  - injection H as <-. apply incl_refl.
  - destruct (vfind vars i); [ apply IH; exact H | ].
    destruct (is_unused_variable ch s i) as [ u | ]; cbn [bind] in H; [ | discriminate H ].
    eapply incl_tran; [ | apply IH; exact H ]. destruct u; [ | apply incl_refl ].
    unfold vkeys. rewrite map_app. apply incl_appl, incl_refl.
Qed.
Lemma finish_less ch aff s v : fresh (s_vars s) (s_lifo s) -> In v (vkeys (s_lifo s)) ->
  finish (S n) pb aff ch s <> Ok None /\
  forall q, finish (S n) pb aff ch s = Ok (Some q) -> index_ok q /\ length (v_values (p_vars q)) < n.
Proof.
  intros F Hv. unfold finish. destruct (affects_ends ch (S n) s F ltac:(lia)) as [ A1 A2 ].
  assert (Hvn : v < n). { destruct F as (_ & _ & _ & F4). destruct (F4 v Hv) as [ B _ ]. exact B. }
  destruct (affects (S n) pb ch s) as [ [ s1 | ] | | ]; cbn [obind]; try (split; [ discriminate | intros q E; discriminate E ]); [ | destruct A1; reflexivity ].
  destruct (A2 s1 eq_refl) as [ L1 K1 ].
  destruct (make_lp_from_bqp_objective pb ch s1); cbn [of_opt obind]; [ | split; [ discriminate | intros q E; discriminate E ] ].
  unfold try_remove_unused_variable. destruct (remove_unused pb ch s1 _ (s_vars s1)) as [ vars | ] eqn:R; cbn [of_opt obind bind]; [ | split; [ discriminate | intros q E; discriminate E ] ].
  apply remove_unused_keeps in R.
  cbn [affects s_lifo]. rewrite L1. cbn [obind].
  destruct (make_problem pb aff m _) as [ q | | ] eqn:Q; cbn [obind]; try (split; [ discriminate | intros q' E; discriminate E ]).
  split; [ discriminate | ]. intros q' E. injection E as <-.
  apply (make_problem_less _ _ _ _ v) in Q; [ exact Q | | exact Hvn ]. cbn [s_vars]. apply R. apply K1. right. exact Hv.
Qed.
Lemma affect_less v b : affect (S n) pb v b <> Ok None /\
  forall q, affect (S n) pb v b = Ok (Some q) -> index_ok q /\ length (v_values (p_vars q)) < n.
Proof.
  unfold affect. destruct (Nat.ltb_spec v n) as [ L | L ]; cbn [ensures]; [ | split; [ discriminate | intros q E; discriminate E ] ].
  destruct (make_caches pb) as [ ch | ]; cbn [of_opt obind]; [ | split; [ discriminate | intros q E; discriminate E ] ].
  apply (finish_less ch _ _ v).
  - cbn. split; [ constructor | ]. split; [ cbn; constructor; [ intros [] | constructor ] | ]. split; [ intros u [] | ]. intros u [ <- | [] ]. split; [ exact L | reflexivity ].
  - cbn. auto.
Qed.
End Split.
Lemma split_ends pb v : index_ok pb -> forall a b, split_all pb v = Ok (a, b) ->
  exists q1 q0, a = Some q1 /\ b = Some q0 /\ index_ok q1 /\ index_ok q0 /\
    length (v_values (p_vars q1)) < length (v_values (p_vars pb)) /\ length (v_values (p_vars q0)) < length (v_values (p_vars pb)).
Proof.
  intros Hi a b H. unfold split_all in H. destruct (Z.ltb v 0); [ discriminate H | ].
  unfold split in H. destruct (Nat.ltb (Z.to_nat v) (length (v_values (p_vars pb)))); cbn [ensures] in H; [ | discriminate H ].
  pose proof (affect_less pb Hi (Z.to_nat v) true) as [ N1 Q1 ]. pose proof (affect_less pb Hi (Z.to_nat v) false) as [ N0 Q0 ].
  destruct (affect _ pb (Z.to_nat v) true) as [ [ q1 | ] | | ]; cbn [obind] in H; try discriminate H; [ | destruct N1; reflexivity ].
  destruct (affect _ pb (Z.to_nat v) false) as [ [ q0 | ] | | ]; cbn [obind] in H; try discriminate H; [ | destruct N0; reflexivity ].
  injection H as <- <-. exists q1, q0. destruct (Q1 q1 eq_refl), (Q0 q0 eq_refl). auto 10.
Qed.

(** *** The loop *)
Definition weight (l : list node) : nat := fold_right (fun j acc => 3 ^ length (v_values (p_vars (n_problem j))) + acc) 0 l.
Lemma weight_emplace a l : weight (jobs_emplace a l) = 3 ^ length (v_values (p_vars (n_problem a))) + weight l.
Proof. induction l as [ |b l IH ]; cbn; [ reflexivity | ]. destruct (node_less a b); cbn; [ reflexivity | ]. unfold weight in IH. rewrite IH. lia. Qed.
Lemma emplace_in a b l : In b (jobs_emplace a l) -> b = a \/ In b l.
Proof. induction l as [ |c l IH ]; cbn; [ intuition | ]. destruct (node_less a c); cbn; intuition. Qed.
Lemma emplace_not_nil a l : jobs_emplace a l <> [].
Proof. destruct l as [ |b l ]; cbn; [ discriminate | destruct (node_less a b); discriminate ]. Qed.
Section Loop.
Variable run : nat -> problem -> outcome bresult.
Lemma branch_turn_jobs k an it jobs best r : index_ok (n_problem it) -> branch_turn run k an it jobs best = Ok r ->
  exists n0 n1 best2, r = Some (jobs_emplace n1 (jobs_emplace n0 jobs), best2) /\ index_ok (n_problem n0) /\ index_ok (n_problem n1) /\
    length (v_values (p_vars (n_problem n0))) < length (v_values (p_vars (n_problem it))) /\
    length (v_values (p_vars (n_problem n1))) < length (v_values (p_vars (n_problem it))).
Proof.
  intros Hi H. unfold branch_turn in H.
  destruct (at_index _ _) in H; cbn [of_opt obind] in H; [ | discriminate H ].
  destruct (split_all (n_problem it) an) as [ [a b] | | ] eqn:Es; cbn [obind] in H; try discriminate H.
  apply (split_ends _ _ Hi) in Es. destruct Es as (q1 & q0 & -> & -> & I1 & I0 & L1 & L0).
  destruct (run k q1) as [ r0 | | ]; cbn [obind] in H; try discriminate H.
  destruct (is_best r0 best _) as [ i0 | ]; cbn [of_opt obind] in H; [ | discriminate H ].
  unfold make_node at 1 in H. destruct (if b_success r0 then back r0 else Some 0%Z); cbn [bind of_opt obind] in H; [ | discriminate H ].
  destruct (run (S k) q0) as [ r1 | | ]; cbn [obind] in H; try discriminate H.
  destruct (is_best r1 _ _) as [ i1 | ]; cbn [of_opt obind] in H; [ | discriminate H ].
  unfold make_node at 1 in H. destruct (if b_success r1 then back r1 else Some 0%Z); cbn [bind of_opt obind] in H; [ | discriminate H ].
  injection H as <-. eexists _, _, _. split; [ reflexivity | ]. cbn [n_problem]. auto.
Qed.
Lemma branch_loop_fails fuel : forall k an jobs best, Forall (fun j => index_ok (n_problem j)) jobs -> jobs <> [] -> weight jobs < fuel ->
  branch_loop run fuel k an jobs best = Br_throw \/ branch_loop run fuel k an jobs best = Br_crash.
Proof.
  induction fuel as [ |fuel IH ]; intros k an jobs best Hi Hn Hw; [ lia | ].
  destruct jobs as [ |it jobs ]; [ congruence | ]. inversion Hi; subst. cbn [branch_loop].
  destruct (branch_turn run k an it jobs best) as [ r | | ] eqn:E; [ | auto | auto ].
  apply branch_turn_jobs in E; [ | assumption ]. destruct E as (n0 & n1 & best2 & -> & I0 & I1 & L0 & L1).
  destruct (jobs_emplace n1 (jobs_emplace n0 jobs)) as [ |j jobs2 ] eqn:Ej; [ destruct (emplace_not_nil _ _ Ej) | ].
  rewrite <- Ej. apply IH.
  - apply Forall_forall. intros x Hx. apply emplace_in in Hx. destruct Hx as [ -> | Hx ]; [ exact I1 | ].
    apply emplace_in in Hx. destruct Hx as [ -> | Hx ]; [ exact I0 | ]. revert x Hx. apply Forall_forall. assumption.
  - rewrite Ej. discriminate.
  - rewrite !weight_emplace. unfold weight in Hw. cbn [fold_right] in Hw. fold (weight jobs) in Hw.
    set (s := length (v_values (p_vars (n_problem it)))) in *. destruct s as [ |s ]; [ lia | ].
    assert (3 ^ length (v_values (p_vars (n_problem n0))) <= 3 ^ s) by (apply Nat.pow_le_mono_r; lia).
    assert (3 ^ length (v_values (p_vars (n_problem n1))) <= 3 ^ s) by (apply Nat.pow_le_mono_r; lia).
    pose proof (Nat.pow_nonzero 3 s ltac:(lia)). rewrite Nat.pow_succ_r' in Hw. lia.
Qed.
Lemma branch_loop_never fuel : forall k an jobs best b, branch_loop run fuel k an jobs best <> Br_done b.
Proof.
  induction fuel as [ |fuel IH ]; intros k an jobs best b; cbn [branch_loop]; [ discriminate | ].
  destruct jobs as [ |it jobs ]; [ discriminate | ].
  destruct (branch_turn run k an it jobs best) as [ [ [ [ |j jobs2 ] best2 ] | ] | | ] eqn:E; try discriminate; [ | apply IH ].
  exfalso. unfold branch_turn in E.
  destruct (at_index _ _) in E; cbn [of_opt obind] in E; [ | discriminate E ].
  destruct (split_all (n_problem it) an) as [ [ [ q1 | ] [ q0 | ] ] | | ]; cbn [obind] in E; try discriminate E.
  destruct (run k q1) as [ r0 | | ]; cbn [obind] in E; try discriminate E.
  destruct (is_best r0 best _); cbn [of_opt obind] in E; [ | discriminate E ].
  destruct (make_node q1 r0); cbn [of_opt obind] in E; [ | discriminate E ].
  destruct (run (S k) q0) as [ r1 | | ]; cbn [obind] in E; try discriminate E.
  destruct (is_best r1 _ _); cbn [of_opt obind] in E; [ | discriminate E ].
  destruct (make_node q0 r1); cbn [of_opt obind] in E; [ | discriminate E ].
  injection E as E _. destruct (emplace_not_nil _ _ E).
Qed.
End Loop.
