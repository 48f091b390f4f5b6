(** Proofs about the preprocessor: shape of the result, and affect. *)
From Verif Require Import Base Problem_model Problem_spec Merged_model Merged_spec Merged_proofs Classify_model
  Preprocess_model Preprocess_spec Preprocess_proofs Preprocess_proofs2 Preprocess_proofs3.
Open Scope Z_scope.

(** ** The partition of the variables (any problem) *)
Lemma preprocess_make fuel pb q : preprocess fuel pb = Ok (Some q) ->
  exists mo s, make_problem pb (mk_affected [] []) mo s = Ok q.
Proof.
  unfold preprocess, finish.
  destruct (make_caches pb); cbn [of_opt obind]; [|discriminate].
  destruct (try_affect_variable pb _); cbn [obind]; try discriminate.
  destruct (affects fuel pb c _) as [[s1|]| |]; cbn [obind]; try discriminate.
  destruct (make_lp_from_bqp_objective pb c s1); cbn [of_opt obind]; [|discriminate].
  destruct (try_remove_unused_variable pb c s1); cbn [of_opt obind]; [|discriminate].
  destruct (affects fuel pb c _) as [[s3|]| |]; cbn [obind]; try discriminate.
  destruct (make_problem pb _ _ _) eqn:E; cbn [obind]; try discriminate. intros H; inversion H; subst. eauto.
Qed.

Lemma filter_partition {A} (f : A -> bool) l : Permutation (filter f l ++ filter (fun a => negb (f a)) l) l.
Proof.
  induction l as [|a l IH]; [constructor|]. cbn [filter]. destruct (f a); cbn [negb app].
  - constructor. assumption.
  - apply Permutation_sym, Permutation_cons_app, Permutation_sym. assumption.
Qed.
Lemma Forall2_nth_map {A} (l : list A) d is r : Forall2 (fun i a => nth_error l i = Some a) is r ->
  r = map (fun i => nth i l d) is.
Proof.
  intros H. induction H as [|i a is r H1 H2 IH]; [reflexivity|]. cbn [map]. rewrite <- IH. f_equal.
  symmetry. apply nth_error_nth. assumption.
Qed.
Lemma map_nth_seq {A} (l : list A) d : map (fun i => nth i l d) (seq 0 (length l)) = l.
Proof. symmetry. apply Forall2_nth_map. apply Forall2_seq. Qed.
Lemma sublist_filter_map {A B} (f : A -> bool) (g : A -> B) l : sublist (map g (filter f l)) (map g l).
Proof.
  induction l as [|a l IH]; cbn; [constructor|]. destruct (f a); cbn; constructor; assumption.
Qed.
Lemma combine_map {A B C} (f : A -> B) (g : A -> C) l : combine (map f l) (map g l) = map (fun a => (f a, g a)) l.
Proof. induction l; cbn; congruence. Qed.

Lemma rebuilt_partition pb aff mo s q : rebuilt pb aff mo s q ->
  length (v_names (p_vars pb)) = length (v_values (p_vars pb)) ->
  exists nms vals, a_names (p_affected q) = a_names aff ++ nms /\ a_values (p_affected q) = a_values aff ++ vals /\
    length nms = length vals /\
    Permutation (v_names (p_vars q) ++ nms) (v_names (p_vars pb)) /\
    length (v_names (p_vars q)) = length (v_values (p_vars q)) /\
    sublist (combine (v_names (p_vars q)) (v_values (p_vars q))) (combine (v_names (p_vars pb)) (v_values (p_vars pb))).
Proof.
  intros R Hlen.
  destruct (variables_copy_spec _ _ _ _ _ _ _ (rb_vars _ _ _ _ _ R)) as (nms & vals & anms & avals & H1 & H2 & H3 & H4 & H5 & H6 & H7 & H8).
  cbn [v_names v_values app] in H1, H2.
  exists anms, avals. split; [assumption|]. split; [assumption|]. split; [|split; [|split]].
  - rewrite <- (Forall2_len _ _ _ H7), <- (Forall2_len _ _ _ H8). reflexivity.
  - rewrite H1, (Forall2_nth_map _ [] _ _ H5), (Forall2_nth_map _ [] _ _ H7), <- map_app.
    eapply Permutation_trans; [apply Permutation_map, filter_partition|]. rewrite <- Hlen, map_nth_seq. apply Permutation_refl.
  - rewrite H1, H2, <- (Forall2_len _ _ _ H5), <- (Forall2_len _ _ _ H6). reflexivity.
  - set (d := mk_variable_value 0 0 vt_real).
    rewrite H1, H2, (Forall2_nth_map _ [] _ _ H5), (Forall2_nth_map _ d _ _ H6).
    rewrite combine_map.
    assert (E : combine (v_names (p_vars pb)) (v_values (p_vars pb)) =
                map (fun i => (nth i (v_names (p_vars pb)) [], nth i (v_values (p_vars pb)) d)) (seq 0 (length (v_values (p_vars pb))))).
    { rewrite <- combine_map, map_nth_seq, <- Hlen, map_nth_seq. reflexivity. }
    rewrite E. apply sublist_filter_map.
Qed.

(** ** The result is well formed *)
Lemma copy_elements_shape vars n l : forall v l' v',
  copy_elements (make_mapping vars (seq 0 n) 0) l v = Some (l', v') ->
  Forall2 (fun e e' => nth_error (kept vars n) (f_var e') = Some (f_var e)) (filter (fun e => free vars (f_var e)) l) l'.
Proof.
  induction l as [|e l IH]; intros v l' v' H; cbn [copy_elements filter] in *.
  - inversion H; subst. constructor.
  - destruct (nth_error (make_mapping vars (seq 0 n) 0) (f_var e)) as [mi|] eqn:E; cbn [bind] in H; [|discriminate].
    pose proof (mapping_nth vars n (f_var e) (mapping_defined _ _ _ _ E)) as Hm.
    assert (Hfree : free vars (f_var e) = match vfind vars (f_var e) with None => true | Some _ => false end) by reflexivity.
    destruct (vfind vars (f_var e)) as [b|]; rewrite Hfree.
    + rewrite Hm in E. inversion E; subst. cbn [fst] in H. eapply IH; eassumption.
    + destruct Hm as (j & Hj & Hk). rewrite Hj in E. inversion E; subst. cbn [fst] in H.
      destruct (copy_elements _ l v) as [[l1 v1]|] eqn:Ec; cbn [bind] in H; [|discriminate].
      inversion H; subst. constructor; [exact Hk|]. eapply IH; eassumption.
Qed.
Lemma copy_linear_shape vars n l : forall v l' v',
  copy_linear (make_mapping vars (seq 0 n) 0) l v = Some (l', v') ->
  Forall2 (fun e e' => nth_error (kept vars n) (o_var e') = Some (o_var e)) (filter (fun e => free vars (o_var e)) l) l'.
Proof.
  induction l as [|e l IH]; intros v l' v' H; cbn [copy_linear filter] in *.
  - inversion H; subst. constructor.
  - destruct (nth_error (make_mapping vars (seq 0 n) 0) (o_var e)) as [mi|] eqn:E; cbn [bind] in H; [|discriminate].
    pose proof (mapping_nth vars n (o_var e) (mapping_defined _ _ _ _ E)) as Hm.
    assert (Hfree : free vars (o_var e) = match vfind vars (o_var e) with None => true | Some _ => false end) by reflexivity.
    destruct (vfind vars (o_var e)) as [b|]; rewrite Hfree.
    + rewrite Hm in E. inversion E; subst. cbn [fst] in H. eapply IH; eassumption.
    + destruct Hm as (j & Hj & Hk). rewrite Hj in E. inversion E; subst. cbn [fst] in H.
      destruct (copy_linear _ l v) as [[l1 v1]|] eqn:Ec; cbn [bind] in H; [|discriminate].
      inversion H; subst. constructor; [exact Hk|]. eapply IH; eassumption.
Qed.
Lemma nodup_image {A B} (f : A -> nat) (g : B -> nat) (k : list nat) l l' :
  Forall2 (fun e e' => nth_error k (g e') = Some (f e)) l l' -> NoDup (map f l) -> NoDup (map g l').
Proof.
  intros HF. induction HF as [|a b l l' Hab HF IH]; intros Hnd; cbn [map] in *; [constructor|].
  inversion Hnd as [|? ? Hnot Hnd']; subst. constructor; [|auto]. intros Hin. apply Hnot.
  apply in_map_iff in Hin. destruct Hin as (b' & Hb' & Hin).
  destruct (In_nth_error _ _ Hin) as [i Hi]. destruct (Forall2_nth' _ _ _ HF i b' Hi) as (a' & Ha' & Hr).
  rewrite Hb', Hab in Hr. inversion Hr as [Hr']. apply in_map_iff. exists a'. split; [congruence|]. eapply nth_error_In; eassumption.
Qed.
Lemma nodup_filter_map {A} (f : A -> nat) (p : A -> bool) l : NoDup (map f l) -> NoDup (map f (filter p l)).
Proof.
  induction l as [|a l IH]; cbn [map filter]; intros H; [constructor|].
  inversion H as [|? ? Hnot H']; subst. destruct (p a); cbn [map]; [constructor|]; auto.
  intros Hin. apply Hnot. apply in_map_iff in Hin. destruct Hin as (a' & Ha & Hin). apply filter_In in Hin.
  apply in_map_iff. exists a'. tauto.
Qed.
Lemma Forall2_image_lt {A B} (f : A -> nat) (g : B -> nat) (k : list nat) l l' :
  Forall2 (fun e e' => nth_error k (g e') = Some (f e)) l l' -> forall e, In e l' -> (g e < length k)%nat.
Proof.
  intros HF e He. destruct (In_nth_error _ _ He) as [i Hi]. destruct (Forall2_nth' _ _ _ HF i e Hi) as (a & _ & Ha).
  apply nth_error_Some. congruence.
Qed.
Lemma all_constraints_ops pb c : In c (all_constraints pb) <-> exists op, In c (op_constraints op pb).
Proof.
  unfold all_constraints. rewrite !in_app_iff. split.
  - intros [H|[H|H]]; [exists op_equal|exists op_greater|exists op_less]; exact H.
  - intros [op H]. destruct op; cbn in H; auto.
Qed.
Lemma NoDup_app_disjoint {A} (a b : list A) x : NoDup (a ++ b) -> In x a -> ~ In x b.
Proof.
  induction a as [|y a IH]; cbn [app In]; intros H Hx Hb; [destruct Hx|]. inversion H as [|? ? Hnot H']; subst.
  destruct Hx as [->|Hx].
  - apply Hnot. apply in_or_app; right; assumption.
  - exact (IH H' Hx Hb).
Qed.
Lemma NoDup_app_left {A} (a b : list A) : NoDup (a ++ b) -> NoDup a.
Proof.
  induction a as [|y a IH]; cbn; intros H; [constructor|]. inversion H; subst. constructor; [|auto].
  intros Hy. apply H2. apply in_or_app; left; assumption.
Qed.

Lemma unaff_filter vars l : unaff vars l = length (filter (fun e => free vars (f_var e)) l).
Proof.
  unfold unaff. f_equal.
Qed.

Section Shape.
Variable pb : problem.
Let n := length (v_values (p_vars pb)).
Hypothesis Hwf : well_formed pb.
Variable Sol : assignment -> Prop.
Variable ch : caches.
Variable aff : affected_variables.
Hypothesis Haff : length (a_names aff) = length (a_values aff).
Hypothesis Haffn : forall nm, In nm (a_names aff) -> ~ In nm (v_names (p_vars pb)).
Variables (s s1 : pstate) (U : vmap) (mo : merge_obj) (q : problem).
Hypothesis F : final pb Sol ch aff s s1 U mo q.
Let vars := s_vars s1 ++ U.

Lemma result_sizes : length (v_values (p_vars q)) = length (kept vars n).
Proof.
  destruct (variables_copy_spec _ _ _ _ _ _ _ (rb_vars _ _ _ _ _ (fi_rebuilt _ _ _ _ _ _ _ _ _ F)))
    as (nms & vals & anms & avals & H1 & H2 & H3 & H4 & H5 & H6 & H7 & H8).
  rewrite H2. cbn [v_values app]. rewrite <- (Forall2_len _ _ _ H6). reflexivity.
Qed.
Lemma result_constraint c' : In c' (all_constraints q) ->
  exists op i c k, nth_error (op_constraints op pb) i = Some c /\ nth_error (cnt_of op s1) i = Some k /\ (2 <= k)%nat /\
    Forall2 (fun e e' => nth_error (kept vars n) (f_var e') = Some (f_var e))
      (filter (fun e => free vars (f_var e)) (c_elements c)) (c_elements c').
Proof.
  intros H. apply all_constraints_ops in H. destruct H as [op H].
  pose proof (rb_csts _ _ _ _ _ (fi_rebuilt _ _ _ _ _ _ _ _ _ F) op) as Hcc.
  cbn [s_vars final_state] in Hcc.
  assert (Hcnt : cnt_of op (final_state s1 U) = cnt_of op s1) by (destruct op; reflexivity).
  rewrite Hcnt in Hcc. destruct (constraints_copy_spec _ _ _ _ _ Hcc) as [_ G].
  destruct (G c' H) as (i & c & k & H1 & H2 & H3 & ([l v] & Hr & ->)).
  exists op, i, c, k. repeat split; try assumption. cbn [c_elements fst]. eapply copy_elements_shape. eassumption.
Qed.
Lemma result_reduced : reduced q.
Proof.
  intros c' Hc'. destruct (result_constraint c' Hc') as (op & i & c & k & Hi & Hk & H2 & HF).
  rewrite <- (Forall2_len _ _ _ HF).
  destruct (proj2 (proj2 (fi_inv _ _ _ _ _ _ _ _ _ F) op) i c k Hi Hk) as (_ & Hu & _).
  rewrite (in_dec_not i [] (fun f => f)), Nat.add_0_r, unaff_filter in Hu.
  replace (filter (fun e => free vars (f_var e)) (c_elements c))
    with (filter (fun e => free (s_vars s1) (f_var e)) (c_elements c)); [lia|].
  apply filter_ext_in. intros e He. unfold free, vars. rewrite vfind_app.
  destruct (vfind (s_vars s1) (f_var e)); [reflexivity|].
  destruct (vfind U (f_var e)) as [b|] eqn:E; [|reflexivity]. exfalso.
  apply vfind_some in E. destruct (f_U pb Hwf Sol ch aff Haff _ _ _ _ _ F _ _ E) as (_ & _ & Hun & _).
  assert (k = 0%nat) by (apply (Hun op i c k Hi Hk); unfold mentions; apply in_map; assumption). lia.
Qed.
Lemma Forall2_nth_left {A B} (R : A -> B -> Prop) l l' : Forall2 R l l' -> forall a, In a l -> exists b, In b l' /\ R a b.
Proof.
  intros H. induction H as [|a b l l' Hab HF IH]; intros x [].
  - subst. exists b. split; [left; reflexivity|assumption].
  - destruct (IH x H) as (y & Hy & Hr). exists y. split; [right; assumption|assumption].
Qed.
(** Every variable left is in a constraint left. *)
Lemma result_used j : (j < length (v_values (p_vars q)))%nat ->
  exists c e, In c (all_constraints q) /\ In e (c_elements c) /\ f_var e = j.
Proof.
  intros Hj. rewrite result_sizes in Hj. destruct (nth_error (kept vars n) j) as [i|] eqn:Ei; [|apply nth_error_None in Ei; lia].
  assert (Hin : In i (kept vars n)) by (eapply nth_error_In; eassumption). apply kept_in in Hin. destruct Hin as [Hlt Hfree].
  destruct (Exists_dec (fun c => In j (map f_var (c_elements c))) (all_constraints q)) as [H|H].
  { intros c. destruct (in_dec Nat.eq_dec j (map f_var (c_elements c))); [left|right]; assumption. }
  - apply Exists_exists in H. destruct H as (c & Hc & H). apply in_map_iff in H. destruct H as (e & He1 & He2). exists c, e. auto.
  - exfalso. destruct (proj2 (proj2 (fi_removed _ _ _ _ _ _ _ _ _ F)) i) as [Hk|Hu]; [apply in_seq; fold n; lia| |].
    { apply vfind_none in Hfree. contradiction. }
    apply Hu. intros op i0 c k Hc Hk Hm. destruct k as [|[|k]]; [reflexivity| |]; exfalso.
    { destruct (proj2 (proj2 (fi_inv _ _ _ _ _ _ _ _ _ F) op) i0 c 1%nat Hc Hk) as [H1 _]. congruence. }
    pose proof (rb_csts _ _ _ _ _ (fi_rebuilt _ _ _ _ _ _ _ _ _ F) op) as Hcc. cbn [s_vars final_state] in Hcc.
    assert (Hcnt : cnt_of op (final_state s1 U) = cnt_of op s1) by (destruct op; reflexivity).
    rewrite Hcnt in Hcc. destruct (constraints_copy_spec _ _ _ _ _ Hcc) as [G _].
    destruct (G i0 c _ Hc Hk ltac:(lia)) as (c' & Hc' & ([l v] & Hr & ->)).
    apply H. apply Exists_exists. eexists. split; [apply all_constraints_ops; exists op; exact Hc'|]. cbn [c_elements fst].
    unfold mentions in Hm. apply in_map_iff in Hm. destruct Hm as (e & He1 & He2).
    destruct (Forall2_nth_left _ _ _ (copy_elements_shape _ _ _ _ _ _ Hr) e) as (e' & Hin' & He').
    { apply filter_In. split; [assumption|]. unfold free. rewrite He1. fold vars. rewrite Hfree. reflexivity. }
    apply in_map_iff. exists e'. split; [|assumption].
    fold n vars in He'. apply (proj1 (NoDup_nth_error (kept vars n)) (kept_nodup vars n)); [apply nth_error_Some; congruence|congruence].
Qed.
Lemma result_apart : affected_apart q.
Proof.
  destruct (rebuilt_partition pb aff mo _ q (fi_rebuilt _ _ _ _ _ _ _ _ _ F) (proj1 Hwf))
    as (nms & vals & H1 & H2 & H3 & H4 & H5 & H6).
  split; [rewrite H1, H2, !app_length; lia|].
  assert (Hnd : NoDup (v_names (p_vars q) ++ nms)).
  { eapply Permutation_NoDup; [apply Permutation_sym; eassumption|]. exact (proj1 (proj2 Hwf)). }
  intros nm Hin Hq. rewrite H1 in Hin. apply in_app_or in Hin. destruct Hin as [Hin|Hin].
  - apply (Haffn nm Hin). eapply Permutation_in; [exact H4|]. apply in_or_app; left; assumption.
  - eapply NoDup_app_disjoint; eassumption.
Qed.
Lemma result_linear : linear_objective pb -> linear_objective q /\
  exists v v', copy_linear (make_mapping vars (seq 0 n) 0) (o_elements (p_objective pb)) v = Some (o_elements (p_objective q), v').
Proof.
  intros Hl. pose proof (rb_obj _ _ _ _ _ (fi_rebuilt _ _ _ _ _ _ _ _ _ F)) as Ho.
  unfold objective_function_exclude_copy in Ho. unfold linear_objective in *. rewrite Hl in Ho.
  rewrite (make_lp_linear pb ch s1 mo Hl (fi_mo _ _ _ _ _ _ _ _ _ F)) in Ho. cbn [mo_value mo_elements s_vars final_state] in Ho.
  fold n vars in Ho.
  destruct (copy_linear _ _ _) as [[le v]|] eqn:E; cbn [bind copy_quadratic fst snd merge_elements] in Ho; [|discriminate].
  inversion Ho as [Heq]. rewrite app_nil_r. cbn. split; [reflexivity|]. eexists; eexists; exact E.
Qed.
Lemma result_wf : linear_objective pb -> well_formed q.
Proof.
  intros Hl. destruct (result_linear Hl) as [Hlq (v & v' & Hcl)]. pose proof (copy_linear_shape _ _ _ _ _ _ Hcl) as HFl.
  destruct (rebuilt_partition pb aff mo _ q (fi_rebuilt _ _ _ _ _ _ _ _ _ F) (proj1 Hwf))
    as (nms & vals & H1 & H2 & H3 & H4 & H5 & H6).
  destruct Hwf as (W1 & W2 & W3 & W4 & W5 & W6 & W7).
  split; [assumption|]. split.
  { eapply (NoDup_app_left _ nms). eapply Permutation_NoDup; [apply Permutation_sym; eassumption|assumption]. }
  rewrite result_sizes. split; [|split; [|split; [|split]]].
  - intros c' e Hc' He. destruct (result_constraint c' Hc') as (op & i & c & k & Hi & Hk & Hk2 & HF).
    eapply (Forall2_image_lt f_var f_var); eassumption.
  - intros c' Hc'. destruct (result_constraint c' Hc') as (op & i & c & k & Hi & Hk & Hk2 & HF).
    eapply (nodup_image f_var f_var); [exact HF|]. apply nodup_filter_map. apply W4.
    apply all_constraints_ops. exists op. eapply nth_error_In; eassumption.
  - intros e He. eapply (Forall2_image_lt o_var o_var); eassumption.
  - eapply (nodup_image o_var o_var); [exact HFl|]. apply nodup_filter_map. assumption.
  - intros e He. rewrite Hlq in He. destruct He.
Qed.
Lemma result_wf_rows : well_formed_rows q.
Proof.
  destruct (rebuilt_partition pb aff mo _ q (fi_rebuilt _ _ _ _ _ _ _ _ _ F) (proj1 Hwf))
    as (nms & vals & H1 & H2 & H3 & H4 & H5 & H6).
  destruct Hwf as (W1 & W2 & W3 & W4 & W5 & W6 & W7).
  split; [assumption|]. split.
  { eapply (NoDup_app_left _ nms). eapply Permutation_NoDup; [apply Permutation_sym; eassumption|assumption]. }
  rewrite result_sizes. split.
  - intros c' e Hc' He. destruct (result_constraint c' Hc') as (op & i & c & k & Hi & Hk & Hk2 & HF).
    eapply (Forall2_image_lt f_var f_var); eassumption.
  - intros c' Hc'. destruct (result_constraint c' Hc') as (op & i & c & k & Hi & Hk & Hk2 & HF).
    eapply (nodup_image f_var f_var); [exact HF|]. apply nodup_filter_map. apply W4.
    apply all_constraints_ops. exists op. eapply nth_error_In; eassumption.
Qed.
Lemma result_type : p_type q = p_type pb.
Proof. exact (rb_type _ _ _ _ _ (fi_rebuilt _ _ _ _ _ _ _ _ _ F)). Qed.
End Shape.

(** ** affect *)
Section Affect.
Variable pb : problem.
Let n := length (v_values (p_vars pb)).
Hypothesis Hwf : well_formed pb.
Hypothesis Hred : reduced pb.
Hypothesis Hapart : affected_apart pb.
Variables (v : nat) (b : bool).
Hypothesis Hv : (v < n)%nat.
Variable x0 : assignment.
Hypothesis Hx0 : feasible x0 pb.
Hypothesis Hx0v : x0 v = b.
Let Sol := fun x => feasible x pb /\ x v = b.
Let HSol : forall x, Sol x -> feasible x pb := fun x H => proj1 H.
Let Hx0S : Sol x0 := conj Hx0 Hx0v.

Definition affect_start : pstate :=
  mk_pstate [] [(v, b)] (lengths (p_equal pb)) (lengths (p_greater pb)) (lengths (p_less pb)).
Lemma affect_start_inv : Inv pb Sol affect_start.
Proof.
  split.
  - split; [|split; [constructor|split]]; cbn [affect_start s_vars s_lifo].
    + intros u c [[]|[H|[]]]. inversion H; subst u c. split; [intros x Hx; exact (proj2 Hx)|exact Hv].
    + constructor; [intros []|constructor].
    + intros u [].
  - intros op. split.
    + destruct op; cbn; unfold lengths; apply map_length.
    + intros i c k Hc Hk.
      assert (Hkc : k = length (c_elements c)).
      { assert (Hm : cnt_of op affect_start = lengths (op_constraints op pb)) by (destruct op; reflexivity).
        rewrite Hm in Hk. unfold lengths in Hk. rewrite nth_error_map, Hc in Hk. cbn in Hk. congruence. }
      assert (H2 : (2 <= length (c_elements c))%nat).
      { apply Hred. apply all_constraints_ops. exists op. eapply nth_error_In; eassumption. }
      split; [lia|]. split; [|lia]. intros _. rewrite (in_dec_not i [] (fun f => f)), Nat.add_0_r, Hkc.
      symmetry. apply unaff_nil.
Qed.
Lemma affect_finish fuel ch : make_caches pb = Some ch ->
  affect fuel pb v b = finish fuel pb (p_affected pb) ch affect_start.
Proof.
  intros Hch. unfold affect, ensures. fold n. destruct (Nat.ltb_spec v n); [|lia]. rewrite Hch. reflexivity.
Qed.
Lemma affect_run fuel q : affect fuel pb v b = Ok (Some q) ->
  exists ch s1 U mo, final pb Sol ch (p_affected pb) affect_start s1 U mo q.
Proof.
  intros H. destruct (caches_exist pb Hwf) as [ch Hch]. rewrite (affect_finish fuel ch Hch) in H.
  destruct (finish_run pb Hwf Sol x0 Hx0S HSol ch Hch _ (proj1 Hapart) _ fuel q affect_start_inv H) as (s1 & U & mo & F).
  eauto.
Qed.
Lemma affect_terminates : linear_objective pb ->
  exists q, forall fuel, (n < fuel)%nat -> affect fuel pb v b = Ok (Some q).
Proof.
  intros Hl. destruct (caches_exist pb Hwf) as [ch Hch].
  destruct (finish_ok pb Hwf Sol x0 Hx0S HSol ch Hch _ (proj1 Hapart) _ affect_start_inv Hl) as [q Hq].
  exists q. intros fuel Hf. rewrite (affect_finish fuel ch Hch). auto.
Qed.

Variable fuel : nat.
Variable q : problem.
Hypothesis Hq : affect fuel pb v b = Ok (Some q).

Lemma affect_sound y x : completes y q x pb -> feasible y q -> feasible x pb /\ x v = b.
Proof.
  destruct (affect_run fuel q Hq) as (ch & s1 & U & mo & F). intros Hc Hy.
  split; [eapply f_sound; try eassumption; exact (proj1 Hapart)|].
  pose proof (f_compat pb Hwf Sol ch _ (proj1 Hapart) _ _ _ _ _ F y x Hc) as Hco.
  apply (compat_agrees pb Hwf Sol ch _ (proj1 Hapart) _ _ _ _ _ F y x Hco). apply in_or_app; left.
  apply (fi_pending _ _ _ _ _ _ _ _ _ F). left. reflexivity.
Qed.
Lemma affect_complete x : feasible x pb -> x v = b ->
  exists y x', feasible y q /\ completes y q x' pb /\ feasible x' pb /\ x' v = b /\
    (linear_objective pb -> no_worse (p_type pb) (objective_value x' (p_objective pb)) (objective_value x (p_objective pb))).
Proof.
  destruct (affect_run fuel q Hq) as (ch & s1 & U & mo & F). intros Hx Hxv.
  assert (HxS : Sol x) by (split; assumption).
  exists (restricted pb s1 U (overridden U x)), (overridden U x).
  assert (Hc : completes (restricted pb s1 U (overridden U x)) q (overridden U x) pb).
  { eapply (restricted_completes pb Hwf Sol); try eassumption; apply Hapart. }
  assert (Hf : feasible (restricted pb s1 U (overridden U x)) q).
  { eapply (restricted_feasible pb Hwf Sol HSol); try eassumption; apply Hapart. }
  destruct (affect_sound _ _ Hc Hf) as [Hs Hsv].
  split; [exact Hf|]. split; [exact Hc|]. split; [exact Hs|]. split; [exact Hsv|].
  intros Hl. eapply (overridden_no_worse pb Hwf Sol); try eassumption; apply Hapart.
Qed.
Lemma affect_objective y x : linear_objective pb -> completes y q x pb ->
  objective_value y (p_objective q) = objective_value x (p_objective pb).
Proof.
  destruct (affect_run fuel q Hq) as (ch & s1 & U & mo & F).
  eapply (f_objective pb Hwf Sol); try eassumption; apply Hapart.
Qed.
Lemma affect_shape : linear_objective pb ->
  well_formed q /\ reduced q /\ affected_apart q /\ linear_objective q /\ p_type q = p_type pb.
Proof.
  destruct (affect_run fuel q Hq) as (ch & s1 & U & mo & F). intros Hl.
  split; [eapply result_wf; eassumption|].
  split; [eapply (result_reduced pb Hwf Sol); try eassumption; apply Hapart|].
  split; [eapply (result_apart pb Hwf Sol); try eassumption; apply Hapart|].
  split; [eapply result_linear; eassumption|eapply result_type; eassumption].
Qed.
End Affect.

(** ** shape of the result of preprocess *)
Lemma preprocess_shape pb x0 fuel q : well_formed pb -> solution x0 pb -> preprocess fuel pb = Ok (Some q) ->
  well_formed_rows q /\ reduced q /\ affected_apart q /\ (linear_objective pb -> well_formed q /\ linear_objective q) /\ p_type q = p_type pb.
Proof.
  intros Hwf Hx0 Hq. destruct (preprocess_run pb Hwf x0 Hx0 fuel q Hq) as (ch & s & s1 & U & mo & Hch & Hb & F).
  split; [eapply result_wf_rows; eassumption|].
  split; [eapply result_reduced; try eassumption; reflexivity|].
  split; [eapply result_apart; try eassumption; [reflexivity|intros nm []]|].
  split; [intros Hl; split; [eapply result_wf; eassumption|eapply result_linear; eassumption]|eapply result_type; eassumption].
Qed.

Lemma preprocess_used pb x0 fuel q : well_formed pb -> solution x0 pb -> preprocess fuel pb = Ok (Some q) ->
  forall j, (j < length (v_values (p_vars q)))%nat ->
  exists c e, In c (all_constraints q) /\ In e (c_elements c) /\ f_var e = j.
Proof.
  intros Hwf Hx0 Hq. destruct (preprocess_run pb Hwf x0 Hx0 fuel q Hq) as (ch & s & s1 & U & mo & Hch & Hb & F).
  eapply result_used; try exact F; try reflexivity; intros nm [].

Qed.

(** ** optima *)
Lemma preprocess_optimum pb x0 fuel q z : well_formed pb -> solution x0 pb -> binary_bounds pb -> linear_objective pb ->
  preprocess fuel pb = Ok (Some q) -> (is_optimum q z <-> is_optimum pb z).
Proof.
  intros Hwf Hx0 Hbin Hl Hq.
  destruct (preprocess_shape pb x0 fuel q Hwf Hx0 Hq) as (_ & _ & _ & _ & Ht).
  assert (Hback : forall y, solution y q -> exists x, solution x pb /\ completes y q x pb).
  { intros y Hy. destruct (preprocess_run pb Hwf x0 Hx0 fuel q Hq) as (ch & s & s1 & U & mo & Hch & Hb & F).
    set (vars := s_vars s1 ++ U). set (n := length (v_values (p_vars pb))).
    assert (Hnth : forall i, In i (kept vars n) -> exists j, nth_error (kept vars n) j = Some i) by (intros; apply In_nth_error; assumption).
    set (x := fun i => match vfind vars i with
                       | Some b => b
                       | None => match find (fun j => match nth_error (kept vars n) j with Some i' => Nat.eqb i' i | None => false end)
                                       (seq 0 (length (kept vars n))) with Some j => y j | None => false end end).
    assert (Hco : compat vars n y x).
    { split.
      - intros i b _ Hb'. unfold x. rewrite Hb'. reflexivity.
      - intros j i Hj. unfold x.
        assert (Hin : In i (kept vars n)) by (eapply nth_error_In; eassumption). apply kept_in in Hin.
        rewrite (proj2 Hin).
        destruct (find _ _) as [j'|] eqn:E.
        + apply find_some in E. destruct E as [_ E]. destruct (nth_error (kept vars n) j') as [i'|] eqn:Ej'; [|discriminate].
          apply Nat.eqb_eq in E. subst i'.
          assert (j = j'); [|subst; reflexivity].
          apply (proj1 (NoDup_nth_error (kept vars n)) (kept_nodup vars n)); [|congruence]. apply nth_error_Some. congruence.
        + exfalso. pose proof (find_none _ _ E j) as Hn. cbv beta in Hn. rewrite Hj, Nat.eqb_refl in Hn.
          assert (In j (seq 0 (length (kept vars n)))).
          { apply in_seq. split; [lia|]. apply nth_error_Some. congruence. }
          specialize (Hn H). discriminate. }
    exists x.
    assert (Hc : completes y q x pb).
    { eapply (compat_completes pb); [exact (fi_rebuilt _ _ _ _ _ _ _ _ _ F)|reflexivity|exact (proj1 (proj2 Hwf))|intros nm []|exact Hco]. }
    split; [|assumption]. eapply (preprocess_sound_bounds pb Hwf x0 Hx0 fuel q Hq); [eassumption|eassumption|exact (proj1 Hy)]. }
  assert (Hobj : forall y x, completes y q x pb -> objective_value y (p_objective q) = objective_value x (p_objective pb)).
  { intros y x. eapply (preprocess_objective pb Hwf x0 Hx0 fuel q Hq); assumption. }
  pose proof (preprocess_complete pb Hwf x0 Hx0 fuel q Hq) as Hcomp.
  unfold is_optimum. rewrite Ht. split.
  - intros [(y & Hy & Hz) Hbest]. split.
    + destruct (Hback y Hy) as (x & Hx & Hc). exists x. split; [assumption|]. rewrite <- (Hobj y x Hc). assumption.
    + intros x Hx. destruct (Hcomp x Hx Hbin) as (y' & x' & Hy' & Hc' & Hx' & _ & Hnw).
      specialize (Hbest y' Hy'). specialize (Hnw Hl). rewrite (Hobj y' x' Hc') in Hbest.
      unfold no_worse in *. destruct (p_type pb); lia.
  - intros [(x & Hx & Hz) Hbest]. split.
    + destruct (Hcomp x Hx Hbin) as (y' & x' & Hy' & Hc' & Hx' & _ & Hnw). exists y'. split; [assumption|].
      rewrite (Hobj y' x' Hc'). specialize (Hnw Hl). specialize (Hbest x' Hx'). unfold no_worse in *. destruct (p_type pb); lia.
    + intros y Hy. destruct (Hback y Hy) as (x' & Hx' & Hc). rewrite (Hobj y x' Hc). apply Hbest. assumption.
Qed.

(** ** Facts that need no solution: any problem on which preprocess succeeds *)
Lemma preprocess_make' fuel pb q : preprocess fuel pb = Ok (Some q) ->
  exists ch s1 mo vars s3, make_lp_from_bqp_objective pb ch s1 = Some mo /\
    remove_unused pb ch s1 (seq 0 (length (in_equal ch))) (s_vars s1) = Some vars /\
    affects fuel pb ch (mk_pstate vars (s_lifo s1) (s_equal s1) (s_greater s1) (s_less s1)) = Ok (Some s3) /\
    make_problem pb (mk_affected [] []) mo s3 = Ok q.
Proof.
  unfold preprocess, finish.
  destruct (make_caches pb) as [ch|]; cbn [of_opt obind]; [|discriminate].
  destruct (try_affect_variable pb _); cbn [obind]; try discriminate.
  destruct (affects fuel pb ch _) as [[s1|]| |]; cbn [obind]; try discriminate.
  destruct (make_lp_from_bqp_objective pb ch s1) eqn:E1; cbn [of_opt obind]; [|discriminate].
  unfold try_remove_unused_variable.
  destruct (remove_unused pb ch s1 _ _) eqn:E2; cbn [bind of_opt obind]; [|discriminate].
  destruct (affects fuel pb ch (mk_pstate _ _ _ _ _)) as [[s3|]| |] eqn:E3; cbn [obind]; try discriminate.
  destruct (make_problem pb _ _ _) eqn:E; cbn [obind]; try discriminate. intros H; inversion H; subst. eauto 10.
Qed.

Lemma preprocess_objective_any pb fuel q y x :
  length (v_names (p_vars pb)) = length (v_values (p_vars pb)) ->
  preprocess fuel pb = Ok (Some q) -> linear_objective pb -> completes y q x pb ->
  objective_value y (p_objective q) = objective_value x (p_objective pb).
Proof.
  intros Hlen Hq Hl Hc. destruct (preprocess_make' fuel pb q Hq) as (ch & s1 & mo & vars & s3 & E1 & E2 & E3 & E4).
  apply make_problem_rebuilt in E4.
  refine (proj1 (linear_objective_value pb _ mo s3 q E4 eq_refl Hlen y x Hl _ _)).
  - eapply make_lp_linear; eassumption.
  - eapply completes_compat; try eassumption; reflexivity.
Qed.

(** Completion of an assignment by names. *)
Fixpoint pos_of (nm : text) (l : list text) : option nat :=
  match l with
  | [] => None
  | a :: l' => if list_eq_dec ascii_dec a nm then Some 0%nat else option_map S (pos_of nm l')
  end.
Lemma pos_of_some nm l : forall j, pos_of nm l = Some j -> nth_error l j = Some nm.
Proof.
  induction l as [|a l IH]; intros j; cbn [pos_of]; [discriminate|].
  destruct (list_eq_dec ascii_dec a nm); [intros H; inversion H; subst; reflexivity|].
  destruct (pos_of nm l); [|discriminate]. intros H; inversion H; subst. cbn. auto.
Qed.
Lemma pos_of_in nm l j : nth_error l j = Some nm -> exists i, pos_of nm l = Some i.
Proof.
  revert j. induction l as [|a l IH]; intros j H; [destruct j; discriminate|]. cbn [pos_of].
  destruct (list_eq_dec ascii_dec a nm) as [Heq|Hne]; [eauto|]. destruct j as [|j]; [cbn in H; congruence|].
  destruct (IH j H) as [i ->]. eexists; reflexivity.
Qed.
Lemma completion_exists y q pb : NoDup (v_names (p_vars q) ++ a_names (p_affected q)) ->
  exists x, completes y q x pb.
Proof.
  intros Hnd.
  exists (fun i => match nth_error (v_names (p_vars pb)) i with
                   | None => false
                   | Some nm => match pos_of nm (v_names (p_vars q)) with
                                | Some j => y j
                                | None => match pos_of nm (a_names (p_affected q)) with
                                          | Some k => nth k (a_values (p_affected q)) false
                                          | None => false
                                          end
                                end
                   end).
  intros i nm Hc. unfold called in Hc. rewrite Hc.
  assert (Hu : forall l, NoDup l -> forall j j', nth_error l j = Some nm -> pos_of nm l = Some j' -> j' = j).
  { intros l Hl j j' Hj Hp. apply pos_of_some in Hp. symmetry.
    apply (proj1 (NoDup_nth_error l) Hl); [apply nth_error_Some; congruence|congruence]. }
  split.
  - intros j Hj. destruct (pos_of_in _ _ _ Hj) as [j' Hj']. rewrite Hj'. f_equal.
    eapply Hu; [|exact Hj|exact Hj']. eapply NoDup_app_left; eassumption.
  - intros b (k & Hk & Hb).
    destruct (pos_of nm (v_names (p_vars q))) as [j|] eqn:E.
    + exfalso. apply pos_of_some in E. eapply NoDup_app_disjoint; [exact Hnd|eapply nth_error_In; exact E|eapply nth_error_In; exact Hk].
    + destruct (pos_of_in _ _ _ Hk) as [k' Hk']. rewrite Hk'.
      assert (k' = k) as ->.
      { eapply Hu; [|exact Hk|exact Hk'].
        clear - Hnd. induction (v_names (p_vars q)) as [|a l IH]; [assumption|]. apply IH. cbn in Hnd. inversion Hnd; assumption. }
      apply nth_error_nth. assumption.
Qed.

(** The quadratic part when none of its variables is fixed. *)
Lemma remove_unused_mono pb ch s is : forall vars vars', remove_unused pb ch s is vars = Some vars' ->
  (forall i, vfind vars i <> None -> vfind vars' i <> None) /\
  (forall i, In i is -> is_unused_variable ch s i = Some true -> vfind vars' i <> None).
Proof.
  induction is as [|a is IH]; intros vars vars' H; cbn [remove_unused] in H.
  - inversion H; subst. split; [auto|intros i []].
  - destruct (vfind vars a) as [b|] eqn:E.
    + destruct (IH _ _ H) as [H1 H2]. split; [assumption|]. intros i [->|Hi] Hu; [|auto]. apply H1. congruence.
    + destruct (is_unused_variable ch s a) as [u|] eqn:Eu; cbn [bind] in H; [|discriminate].
      destruct (IH _ _ H) as [H1 H2]. split.
      * intros i Hi. apply H1. destruct u; [|assumption]. rewrite vfind_app. destruct (vfind vars i); [discriminate|contradiction].
      * intros i [->|Hi] Hu; [|auto]. apply H1. rewrite Eu in Hu. inversion Hu; subst u. rewrite vfind_app, E. cbn.
        rewrite Nat.eqb_refl. discriminate.
Qed.
Lemma vemplace_keeps vars v b i : vfind vars i <> None -> vfind (vemplace vars v b) i <> None.
Proof.
  intros H. unfold vemplace. destruct (vfind vars v); [assumption|]. rewrite vfind_app. destruct (vfind vars i); [discriminate|contradiction].
Qed.
Lemma affects_keeps pb ch fuel : forall s s', affects fuel pb ch s = Ok (Some s') ->
  forall i, vfind (s_vars s) i <> None -> vfind (s_vars s') i <> None.
Proof.
  induction fuel as [|fuel IH]; intros s s' H i Hi; cbn [affects] in H; [discriminate|].
  destruct (s_lifo s) as [|[v b] lf]; [inversion H; subst; assumption|].
  destruct (affect_step pb ch s v b lf) as [s2| |] eqn:E; cbn [obind] in H; try discriminate.
  apply (IH _ _ H). unfold affect_step in E.
  destruct (nth_error (in_equal ch) v); cbn [of_opt obind] in E; [|discriminate].
  destruct (affect_csts op_equal _ _ _ _ _) as [[]| |]; cbn [obind] in E; try discriminate.
  destruct (nth_error (in_greater ch) v); cbn [of_opt obind] in E; [|discriminate].
  destruct (affect_csts op_greater _ _ _ _ _) as [[]| |]; cbn [obind] in E; try discriminate.
  destruct (nth_error (in_less ch) v); cbn [of_opt obind] in E; [|discriminate].
  destruct (affect_csts op_less _ _ _ _ _) as [[]| |]; cbn [obind] in E; try discriminate.
  inversion E; subst. cbn [s_vars]. apply vemplace_keeps. assumption.
Qed.

Lemma make_lp_untouched pb ch s :
  (forall i q, In q (o_qelements (p_objective pb)) -> (i = q_vara q \/ i = q_varb q) ->
     (i < length (in_equal ch))%nat -> is_unused_variable ch s i = Some true -> vfind (s_vars s) i <> None) ->
  forall mo, make_lp_from_bqp_objective pb ch s = Some mo -> mo = mk_merge_obj [] 0.
Proof.
  intros Hq. unfold make_lp_from_bqp_objective.
  assert (G : forall is, (forall i, In i is -> (i < length (in_equal ch))%nat) ->
     forall acc : option merge_obj, (forall m, acc = Some m -> m = mk_merge_obj [] 0) ->
     forall mo, fold_left (fun acc i => do mo <- acc;
        match vfind (s_vars s) i with
        | Some _ => Some mo
        | None => do u <- is_unused_variable ch s i;
                  Some (if u then fold_left (fun m q => bqp_elem (p_type pb) i q m) (o_qelements (p_objective pb)) mo else mo)
        end) is acc = Some mo -> mo = mk_merge_obj [] 0).
  { induction is as [|i is IH]; intros His acc Hacc mo H; cbn [fold_left] in H; [auto|].
    revert H; apply IH; [intros j Hj; apply His; right; assumption|].
    intros m Hm. destruct acc as [m0|]; cbn [bind] in Hm; [|discriminate].
    pose proof (Hacc m0 eq_refl) as ->.
    destruct (vfind (s_vars s) i) eqn:Ev; [inversion Hm; reflexivity|].
    destruct (is_unused_variable ch s i) as [u|] eqn:Eu; cbn [bind] in Hm; [|discriminate].
    destruct u; [|inversion Hm; reflexivity]. inversion Hm; subst m. clear Hm.
    assert (Hno : forall q, In q (o_qelements (p_objective pb)) -> Nat.eqb i (q_vara q) || Nat.eqb i (q_varb q) = false).
    { intros q Hin. destruct (Nat.eqb_spec i (q_vara q)) as [Ha|Ha]; [|destruct (Nat.eqb_spec i (q_varb q)) as [Hb|Hb]; [|reflexivity]];
        exfalso; apply (Hq i q Hin); auto using in_eq; apply His; left; reflexivity. }
    clear - Hno. induction (o_qelements (p_objective pb)) as [|a l IHl]; [reflexivity|]. cbn [fold_left].
    unfold bqp_elem at 2. rewrite (Hno a (or_introl eq_refl)). apply IHl. intros q Hin. apply Hno. right; assumption. }
  apply G; [intros i Hi; apply in_seq in Hi; lia|]. intros m Hm. inversion Hm. reflexivity.
Qed.
Lemma copy_quadratic_untouched vars n y x l : compat vars n y x ->
  (forall q, In q l -> vfind vars (q_vara q) = None /\ vfind vars (q_varb q) = None) ->
  forall v le qe v', copy_quadratic (make_mapping vars (seq 0 n) 0) l v = Some (le, qe, v') ->
  le = [] /\ v' = v /\ quad_value y qe = quad_value x l.
Proof.
  intros Hc. induction l as [|q l IH]; intros Hq v le qe v' H; cbn [copy_quadratic] in H.
  - inversion H; subst. auto.
  - destruct (nth_error _ (q_vara q)) as [va|] eqn:Ea; cbn [bind] in H; [|discriminate].
    destruct (nth_error _ (q_varb q)) as [vb|] eqn:Eb; cbn [bind] in H; [|discriminate].
    destruct (Hq q (or_introl eq_refl)) as [Ha Hb].
    pose proof (mapping_nth vars n (q_vara q) (mapping_defined _ _ _ _ Ea)) as Ma. rewrite Ha in Ma.
    pose proof (mapping_nth vars n (q_varb q) (mapping_defined _ _ _ _ Eb)) as Mb. rewrite Hb in Mb.
    destruct Ma as (i & Mi & Ki). destruct Mb as (j & Mj & Kj).
    rewrite Mi in Ea. rewrite Mj in Eb. inversion Ea; subst va. inversion Eb; subst vb. cbn [fst] in H.
    destruct (copy_quadratic _ l v) as [[[le1 qe1] v1]|] eqn:E; cbn [bind] in H; [|discriminate].
    inversion H; subst. destruct (IH (fun z Hz => Hq z (or_intror Hz)) _ _ _ _ E) as (-> & -> & Hv).
    repeat split. cbn [quad_value q_factor q_vara q_varb]. rewrite Hv, (proj2 Hc i _ Ki), (proj2 Hc j _ Kj). reflexivity.
Qed.
Lemma preprocess_quadratic_untouched pb fuel q y x :
  length (v_names (p_vars pb)) = length (v_values (p_vars pb)) -> NoDup (v_names (p_vars pb)) ->
  preprocess fuel pb = Ok (Some q) -> completes y q x pb ->
  (forall t i nm, In t (o_qelements (p_objective pb)) -> (i = q_vara t \/ i = q_varb t) -> called pb i nm ->
      exists j, called q j nm) ->
  objective_value y (p_objective q) = objective_value x (p_objective pb).
Proof.
  intros Hlen Hnd Hq Hc Hkeep. destruct (preprocess_make' fuel pb q Hq) as (ch & s1 & mo & vars & s3 & E1 & E2 & E3 & E4).
  apply make_problem_rebuilt in E4.
  pose proof (completes_compat pb _ mo s3 q E4 eq_refl Hlen y x Hc) as Hco.
  assert (Hfree : forall t i, In t (o_qelements (p_objective pb)) -> (i = q_vara t \/ i = q_varb t) ->
            (i < length (v_values (p_vars pb)))%nat -> vfind (s_vars s3) i = None).
  { intros t i Ht Hi Hlt.
    destruct (nth_error (v_names (p_vars pb)) i) as [nm|] eqn:En; [|apply nth_error_None in En; lia].
    destruct (Hkeep t i nm Ht Hi En) as [j Hj].
    destruct (rb_called_inv pb _ mo s3 q E4 j nm Hj) as (i' & Hk & Hc').
    rewrite <- (called_unique pb Hnd i i' nm En Hc') in Hk. apply nth_error_In, kept_in in Hk. tauto. }
  pose proof (rb_obj _ _ _ _ _ E4) as Ho. unfold objective_function_exclude_copy in Ho.
  set (n := length (v_values (p_vars pb))) in *.
  destruct (copy_linear _ _ _) as [[le v]|] eqn:El; cbn [bind fst snd] in Ho; [|discriminate].
  destruct (copy_quadratic _ _ _) as [[[lq qe] v']|] eqn:Eq; cbn [bind] in Ho; [|discriminate].
  assert (Hrange : forall t, In t (o_qelements (p_objective pb)) -> (q_vara t < n)%nat /\ (q_varb t < n)%nat).
  { clear - Eq. revert v lq qe v' Eq. induction (o_qelements (p_objective pb)) as [|q0 l IH]; intros v lq qe v' Eq; cbn [copy_quadratic] in Eq.
    - intros t [].
    - destruct (nth_error _ (q_vara q0)) as [va|] eqn:Ea; cbn [bind] in Eq; [|discriminate].
      destruct (nth_error _ (q_varb q0)) as [vb|] eqn:Eb; cbn [bind] in Eq; [|discriminate].
      intros t [<-|Ht]; [split; eapply mapping_defined; eassumption|].
      destruct (fst va); destruct (fst vb);
        try (destruct (copy_quadratic _ l _) as [[[? ?] ?]|] eqn:Er; cbn [bind] in Eq; [|discriminate]); eapply IH; eassumption. }
  assert (Hmo : mo = mk_merge_obj [] 0).
  { eapply make_lp_untouched; [|exact E1]. intros i t Ht Hi Hlt Hu Hnone.
    destruct (remove_unused_mono _ _ _ _ _ _ E2) as [_ Hadd].
    assert (Hin : In i (seq 0 (length (in_equal ch)))) by (apply in_seq; lia).
    pose proof (affects_keeps _ _ _ _ _ E3 i (Hadd i Hin Hu)) as Hsome. apply Hsome.
    apply (Hfree t i Ht Hi). destruct (Hrange t Ht). destruct Hi; subst; assumption. }
  subst mo. cbn [mo_value mo_elements merge_elements] in Ho, El.
  destruct (copy_quadratic_untouched _ _ y x _ Hco ltac:(intros t Ht; destruct (Hrange t Ht); split; apply (Hfree t); auto) _ _ _ _ Eq)
    as (-> & -> & Hqv).
  rewrite app_nil_r in Ho. inversion Ho as [Heq]. unfold objective_value. cbn [o_value o_elements o_qelements].
  rewrite Hqv. pose proof (copy_linear_value _ _ y x _ Hco _ _ _ El). lia.
Qed.
