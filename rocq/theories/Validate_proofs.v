(** Proofs about checking results. *)
From Verif Require Import Base Problem_model Problem_spec Merged_model Merged_spec Merged_proofs Classify_model
  Preprocess_model Preprocess_spec Preprocess_proofs Preprocess_proofs2 Preprocess_proofs3 Preprocess_proofs4
  Validate_model Validate_spec.
Open Scope Z_scope.

Lemma text_eqb_spec a b : reflect (a = b) (text_eqb a b).
Proof. unfold text_eqb. destruct (list_eq_dec ascii_dec a b); constructor; assumption. Qed.

Lemma cache_fill_find names : forall c values k,
  length names = length values -> NoDup names ->
  (forall j nm b, nth_error names j = Some nm -> nth_error values j = Some b -> cache_find (cache_fill c names values) nm = Some b) /\
  (~ In k names -> cache_find (cache_fill c names values) k = cache_find c k).
Proof.
  induction names as [|a names IH]; intros c values k Hl Hnd.
  - split; [intros [|j] nm b H; discriminate|reflexivity].
  - destruct values as [|v values]; [discriminate|]. assert (Hl' : length names = length values) by (cbn in Hl; lia). inversion Hnd as [|? ? Hnot Hnd']; subst.
    cbn [cache_fill]. split.
    + intros j nm b Hj Hb. destruct j as [|j]; cbn in Hj, Hb.
      * inversion Hj; inversion Hb; subst. rewrite (proj2 (IH _ _ nm Hl' Hnd') Hnot). cbn.
        destruct (text_eqb_spec nm nm); [reflexivity|contradiction].
      * exact (proj1 (IH _ _ k Hl' Hnd') j nm b Hj Hb).
    + intros Hk. rewrite (proj2 (IH _ _ k Hl' Hnd')) by (intros H; apply Hk; right; assumption).
      cbn. destruct (text_eqb_spec a k) as [->|]; [|reflexivity]. exfalso. apply Hk. left; reflexivity.
Qed.

Lemma read_cache_ok c names (f : nat -> bool) : forall s,
  (forall i nm, nth_error names i = Some nm -> cache_find c nm = Some (f (s + i)%nat)) ->
  read_cache c names = Some (map f (seq s (length names))).
Proof.
  induction names as [|a names IH]; intros s H; cbn [read_cache length seq map]; [reflexivity|].
  rewrite (H 0%nat a eq_refl), Nat.add_0_r. cbn [bind]. rewrite (IH (S s)); [reflexivity|].
  intros i nm Hi. rewrite (H (S i) nm Hi). f_equal. f_equal. lia.
Qed.

Lemma make_variable_value_ok pb r x : proper_result r -> describes r pb x ->
  make_variable_value pb r = Ok (map x (seq 0 (length (v_names (p_vars pb))))).
Proof.
  intros (Hst & (s & Hs & Hls) & Hla & Hnd) (Hn & Hg). unfold make_variable_value, r_ok. rewrite Hst, Hs.
  cbn [negb]. unfold ensures. rewrite Hla, Nat.eqb_refl, <- Hls, Nat.eqb_refl.
  rewrite (read_cache_ok _ _ x 0); [reflexivity|]. intros i nm Hi. cbn [plus].
  assert (Hnd1 : NoDup (r_names r)) by (eapply NoDup_app_left; eassumption).
  assert (Hnd2 : NoDup (a_names (r_affected r))).
  { clear - Hnd. induction (r_names r) as [|a l IH]; [assumption|]. apply IH. cbn in Hnd. inversion Hnd; assumption. }
  destruct (cache_fill_find (r_names r) (cache_fill [] (a_names (r_affected r)) (a_values (r_affected r))) (sl_variables s) nm
              (eq_sym Hls) Hnd1) as [H1 H2].
  destruct (Hg i nm Hi) as [(s' & k & Hs' & Hk & Hb)|(k & Hk & Hb)].
  - rewrite Hs in Hs'. inversion Hs'; subst s'. eapply H1; eassumption.
  - rewrite H2.
    + eapply (proj1 (cache_fill_find _ _ _ nm Hla Hnd2)); eassumption.
    + intros Hin. eapply NoDup_app_disjoint; [exact Hnd|exact Hin|]. eapply nth_error_In; eassumption.
Qed.

Lemma abs_sum_nonneg l : 0 <= abs_sum l.
Proof. unfold abs_sum. induction l as [|e l IH]; cbn; lia. Qed.

Lemma nth_map_seq (x : assignment) n i : (i < n)%nat -> nth_error (map x (seq 0 n)) i = Some (x i).
Proof.
  intros H. rewrite nth_error_map, nth_error_seq.
  destruct (Nat.ltb_spec i n); [reflexivity|lia].
Qed.

Lemma compute_function_ok (x : assignment) n l : (forall e, In e l -> (f_var e < n)%nat) -> forall v,
  Z.abs v + abs_sum l <= int_max ->
  compute_function (map x (seq 0 n)) l v = Some (v + lhs x l).
Proof.
  intros Hl v. revert v. induction l as [|e l IH]; intros v Hv; cbn [compute_function lhs].
  - f_equal. lia.
  - rewrite nth_map_seq by (apply Hl; left; reflexivity). cbn [bind].
    change (abs_sum (e :: l)) with (Z.abs (f_factor e) + abs_sum l) in Hv. pose proof (abs_sum_nonneg l).
    set (v' := v + (if x (f_var e) then 1 else 0) * f_factor e).
    assert (Hv' : Z.abs v' + abs_sum l <= int_max) by (unfold v'; destruct (x (f_var e)); lia).
    assert (Hok : int_ok v' = true).
    { unfold int_ok. apply andb_true_iff. rewrite !Z.leb_le. unfold int_min, int_max in *. lia. }
    rewrite Hok, IH; [|intros z Hz; apply Hl; right; assumption|assumption].
    f_equal. unfold v', bz. destruct (x (f_var e)); lia.
Qed.
Lemma compute_function_sound (x : assignment) n l : forall v w,
  compute_function (map x (seq 0 n)) l v = Some w -> w = v + lhs x l.
Proof.
  induction l as [|e l IH]; intros v w H; cbn [compute_function lhs] in *; [inversion H; lia|].
  destruct (nth_error (map x (seq 0 n)) (f_var e)) as [b|] eqn:E; cbn [bind] in H; [|discriminate].
  assert (b = x (f_var e)) as ->.
  { rewrite nth_error_map, nth_error_seq in E. destruct (Nat.ltb (f_var e) n); cbn in E; congruence. }
  destruct (int_ok _); [|discriminate]. apply IH in H. rewrite H. unfold bz. destruct (x (f_var e)); lia.
Qed.

Lemma check_all_sound bad (x : assignment) n l b : check_all bad (map x (seq 0 n)) l = Some b ->
  (b = true <-> forall c, In c l -> bad (lhs x (c_elements c)) (c_value c) = false).
Proof.
  induction l as [|c l IH]; cbn [check_all]; intros H.
  - inversion H; subst. split; [intros _ c []|reflexivity].
  - destruct (compute_function _ _ 0) as [v|] eqn:E; cbn [bind] in H; [|discriminate].
    apply compute_function_sound in E. cbn in E. subst v.
    destruct (bad (lhs x (c_elements c)) (c_value c)) eqn:Eb.
    + inversion H; subst. split; [discriminate|]. intros G. rewrite (G c (or_introl eq_refl)) in Eb. discriminate.
    + rewrite (IH H). split; [intros G c' [<-|Hc]; auto|intros G c' Hc; apply G; right; assumption].
Qed.
Lemma check_all_defined bad (x : assignment) n l :
  (forall c e, In c l -> In e (c_elements c) -> (f_var e < n)%nat) ->
  (forall c, In c l -> abs_sum (c_elements c) <= int_max) ->
  exists b, check_all bad (map x (seq 0 n)) l = Some b.
Proof.
  induction l as [|c l IH]; intros Hi Hs; cbn [check_all]; [eauto|].
  rewrite compute_function_ok; cbn [bind].
  - destruct (bad _ _); [eauto|]. apply IH; intros; [eapply Hi|eapply Hs]; try right; eassumption.
  - intros e He. apply (Hi c e); [left; reflexivity|assumption].
  - cbn. apply Hs. left; reflexivity.
Qed.

Lemma valid_impl_sound pb (x : assignment) b :
  is_valid_solution_impl pb (map x (seq 0 (length (v_names (p_vars pb))))) = Ok b -> (b = true <-> feasible x pb).
Proof.
  unfold is_valid_solution_impl, ensures. destruct (negb _); [|discriminate].
  destruct (Nat.eqb _ _); [|discriminate]. destruct (Nat.eqb _ _); [|discriminate].
  set (n := length (v_names (p_vars pb))).
  destruct (check_all _ _ (p_equal pb)) as [a|] eqn:Ea; cbn [of_opt obind]; [|discriminate].
  apply check_all_sound in Ea.
  assert (He : a = true <-> forall c, In c (p_equal pb) -> sat_equal x c).
  { rewrite Ea. unfold sat_equal. split; intros H c Hc; specialize (H c Hc).
    - apply Bool.negb_false_iff, Z.eqb_eq in H. assumption.
    - apply Bool.negb_false_iff, Z.eqb_eq. assumption. }
  destruct a; cbn [negb].
  2:{ intros H; inversion H; subst. split; [discriminate|]. intros (G & _). apply He in G. discriminate. }
  destruct (check_all _ _ (p_less pb)) as [l|] eqn:El; cbn [of_opt obind]; [|discriminate].
  apply check_all_sound in El.
  assert (Hl : l = true <-> forall c, In c (p_less pb) -> sat_less x c).
  { rewrite El. unfold sat_less. split; intros H c Hc; specialize (H c Hc); lia. }
  destruct l; cbn [negb].
  2:{ intros H; inversion H; subst. split; [discriminate|]. intros (_ & _ & G). apply Hl in G. discriminate. }
  destruct (check_all _ _ (p_greater pb)) as [g|] eqn:Eg; cbn [of_opt]; [|discriminate].
  intros H; inversion H; subst. apply check_all_sound in Eg.
  assert (Hg : b = true <-> forall c, In c (p_greater pb) -> sat_greater x c).
  { rewrite Eg. unfold sat_greater. split; intros G c Hc; specialize (G c Hc); lia. }
  unfold feasible. rewrite Hg. split; [|tauto]. intros G. split; [apply He; reflexivity|]. split; [assumption|apply Hl; reflexivity].
Qed.
Lemma valid_impl_defined pb (x : assignment) : well_formed pb -> small_sums pb -> v_names (p_vars pb) <> [] ->
  exists b, is_valid_solution_impl pb (map x (seq 0 (length (v_names (p_vars pb))))) = Ok b.
Proof.
  intros (Hl & _ & Hi & _) Hs Hne. unfold is_valid_solution_impl, ensures. rewrite map_length, seq_length, Nat.eqb_refl, Hl, Nat.eqb_refl.
  rewrite <- Hl. destruct (v_names (p_vars pb)) as [|nm nms] eqn:En; [contradiction|]. rewrite <- En.
  replace (length (v_names (p_vars pb)) =? 0)%nat with false by (rewrite En; reflexivity). cbn [negb].
  assert (Hd : forall bad l, (forall c, In c l -> In c (all_constraints pb)) ->
     exists b, check_all bad (map x (seq 0 (length (v_names (p_vars pb))))) l = Some b).
  { intros bad l Hin. apply check_all_defined.
    - intros c e Hc He. rewrite En, Hl. apply (Hi c e); auto.
    - intros c Hc. apply Hs. auto. }
  unfold all_constraints in Hd.
  destruct (Hd (fun v r => negb (v =? r)) (p_equal pb)) as [a Ha]; [intros; rewrite !in_app_iff; auto|].
  destruct (Hd (fun v r => v >? r) (p_less pb)) as [b Hb]; [intros; rewrite !in_app_iff; auto|].
  destruct (Hd (fun v r => v <? r) (p_greater pb)) as [c Hc]; [intros; rewrite !in_app_iff; auto|].
  rewrite Ha. cbn [of_opt obind]. destruct a; cbn [negb]; [|eauto]. rewrite Hb. cbn [of_opt obind].
  destruct b; cbn [negb]; [|eauto]. rewrite Hc. cbn. eauto.
Qed.

Lemma is_valid_solution_exact pb r x :
  well_formed pb -> small_sums pb -> v_names (p_vars pb) <> [] -> proper_result r -> describes r pb x ->
  exists b, is_valid_solution pb r = Ok b /\ (b = true <-> feasible x pb).
Proof.
  intros Hwf Hs Hne Hp Hd. pose proof (make_variable_value_ok pb r x Hp Hd) as Hm.
  destruct Hp as (Hst & (s & Hls & Hlen) & Hla & Hnd). destruct Hd as [Hn Hg].
  destruct (valid_impl_defined pb x Hwf Hs Hne) as [b Hb]. exists b. split; [|apply valid_impl_sound; assumption].
  unfold is_valid_solution, r_ok. rewrite Hls, Hst. cbn [negb]. unfold ensures.
  rewrite (proj1 Hwf), Nat.eqb_refl, <- (proj1 Hwf), Hn, Nat.eqb_refl, Hlen, Nat.eqb_refl, Hm. exact Hb.
Qed.

Lemma add_linear_ok (x : assignment) n l : (forall e, In e l -> (o_var e < n)%nat) -> forall v,
  add_linear (map x (seq 0 n)) l v = Some (v + lin_value x l).
Proof.
  intros Hl. induction l as [|e l IH]; intros v; cbn [add_linear lin_value]; [f_equal; lia|].
  rewrite nth_map_seq by (apply Hl; left; reflexivity). cbn [bind].
  rewrite IH by (intros z Hz; apply Hl; right; assumption). f_equal. unfold bz. destruct (x (o_var e)); lia.
Qed.
Lemma add_quadratic_ok (x : assignment) n l : (forall e, In e l -> (q_vara e < n)%nat /\ (q_varb e < n)%nat) -> forall v,
  add_quadratic (map x (seq 0 n)) l v = Some (v + quad_value x l).
Proof.
  intros Hl. induction l as [|e l IH]; intros v; cbn [add_quadratic quad_value]; [f_equal; lia|].
  destruct (Hl e (or_introl eq_refl)) as [Ha Hb].
  rewrite (nth_map_seq x n _ Ha), (nth_map_seq x n _ Hb). cbn [bind].
  rewrite IH by (intros z Hz; apply Hl; right; assumption). f_equal. unfold bz.
  destruct (x (q_vara e)), (x (q_varb e)); lia.
Qed.
Lemma compute_solution_exact pb r x :
  well_formed pb -> v_names (p_vars pb) <> [] -> proper_result r -> describes r pb x ->
  compute_solution pb r = Ok (objective_value x (p_objective pb)).
Proof.
  intros Hwf Hne Hp Hd. pose proof (make_variable_value_ok pb r x Hp Hd) as Hm.
  destruct Hp as (Hst & (s & Hls & Hlen) & Hla & Hnd). destruct Hd as [Hn Hg].
  unfold compute_solution, r_ok. rewrite Hls, Hst. unfold ensures.
  rewrite (proj1 Hwf), Nat.eqb_refl, <- (proj1 Hwf), Hn, (Nat.add_comm (length (a_names _))), Nat.eqb_refl, Hlen, Nat.eqb_refl, Hm.
  cbn [obind]. unfold compute_solution_impl, ensures. rewrite map_length, seq_length.
  destruct (Nat.eqb_spec (length (v_names (p_vars pb))) 0) as [E|E].
  { destruct (v_names (p_vars pb)); [contradiction|discriminate]. }
  cbn [negb]. destruct Hwf as (Hl & _ & _ & _ & Ho & _ & Hq).
  rewrite add_linear_ok by (intros e He; rewrite Hl; auto). cbn [of_opt obind].
  rewrite add_quadratic_ok by (intros e He; rewrite Hl; auto). reflexivity.
Qed.
