(** Proofs about the preprocessor: the whole of operator(). *)
From Verif Require Import Base Problem_model Problem_spec Merged_model Merged_spec Merged_proofs Classify_model
  Preprocess_model Preprocess_spec Preprocess_proofs Preprocess_proofs2.
Open Scope Z_scope.

Lemma affects_mono k pb ch fuel : forall s s', affects fuel pb ch s = Ok (Some s') ->
  affects (fuel + k) pb ch s = Ok (Some s').
Proof.
  induction fuel as [|fuel IH]; intros s s' H; cbn [affects plus] in *; [discriminate|].
  destruct (s_lifo s) as [|[v b] lf]; [assumption|].
  destruct (affect_step pb ch s v b lf); cbn [obind] in *; try discriminate. auto.
Qed.
Lemma finish_mono k pb aff ch fuel s q : finish fuel pb aff ch s = Ok (Some q) ->
  finish (fuel + k) pb aff ch s = Ok (Some q).
Proof.
  unfold finish. destruct (affects fuel pb ch s) as [[s1|]| |] eqn:E1; cbn [obind]; try discriminate.
  rewrite (affects_mono k _ _ _ _ _ E1). cbn [obind].
  destruct (make_lp_from_bqp_objective pb ch s1); cbn [of_opt obind]; [|discriminate].
  destruct (try_remove_unused_variable pb ch s1) as [s2|]; cbn [of_opt obind]; [|discriminate].
  destruct (affects fuel pb ch s2) as [[s3|]| |] eqn:E2; cbn [obind]; try discriminate.
  rewrite (affects_mono k _ _ _ _ _ E2). cbn [obind]. auto.
Qed.

Lemma filter_mapping vars is : forall c,
  length (filter (fun mi : option nat * bool => match fst mi with Some _ => true | None => false end)
                 (make_mapping vars is c)) = length (filter (free vars) is).
Proof.
  induction is as [|i is IH]; intros c; cbn [make_mapping filter]; [reflexivity|].
  unfold free at 1. destruct (vfind vars i); cbn [filter fst length]; rewrite IH; reflexivity.
Qed.

Lemma names_kept_ok vars all copy is : forall c names,
  Forall2 (fun i nm => nth_error all i = Some nm) is names ->
  (forall j i, nth_error (filter (free vars) is) j = Some i -> nth_error copy (c + j) = nth_error all i) ->
  names_kept (make_mapping vars is c) names copy = true.
Proof.
  induction is as [|i is IH]; intros c names HF Hc; cbn [make_mapping]; [reflexivity|].
  inversion HF as [|? nm ? names' Hnm HF']; subst. cbn [filter] in Hc. 
  assert (Hfree : free vars i = match vfind vars i with None => true | Some _ => false end) by reflexivity.
  destruct (vfind vars i) as [b|]; rewrite Hfree in Hc; cbn [names_kept].
  - apply IH; assumption.
  - specialize (Hc 0%nat i eq_refl) as Hc0. rewrite Nat.add_0_r in Hc0. rewrite Hc0, Hnm.
    destruct (list_eq_dec ascii_dec nm nm); [|contradiction]. cbn [andb].
    apply IH; [assumption|]. intros j i' Hj. rewrite <- (Hc (S j) i' Hj). f_equal. lia.
Qed.

Lemma Forall2_seq {A} (l : list A) :
  Forall2 (fun i a => nth_error l i = Some a) (seq 0 (length l)) l.
Proof.
  assert (H : forall l' pre, l = pre ++ l' -> Forall2 (fun i a => nth_error l i = Some a) (seq (length pre) (length l')) l').
  { induction l' as [|a l' IH]; intros pre Heq; cbn [length seq]; constructor.
    - rewrite Heq, nth_error_app2, Nat.sub_diag by lia. reflexivity.
    - specialize (IH (pre ++ [a])). rewrite app_length in IH. cbn [length] in IH.
      replace (length pre + 1)%nat with (S (length pre)) in IH by lia. apply IH. rewrite <- app_assoc. exact Heq. }
  exact (H l [] eq_refl).
Qed.

Lemma Forall2_len {A B} (R : A -> B -> Prop) a b : Forall2 R a b -> length a = length b.
Proof. intros H. induction H; cbn; congruence. Qed.

Lemma Forall2_combine {A B} (R : A -> B -> Prop) la lb : Forall2 R la lb ->
  (forall a b, In (a, b) (combine la lb) -> R a b) /\
  (forall a b, (forall b', R a b' -> b' = b) -> In a la -> In (a, b) (combine la lb)).
Proof.
  intros HF. induction HF as [|a b la lb Hab HF [IH1 IH2]]; cbn [combine].
  - split; [intros a b []|intros a b _ []].
  - split.
    + intros a' b' [Heq|Hin]; [inversion Heq; subst; assumption|auto].
    + intros a' b' Hu [->|Hin]; [left; rewrite (Hu b Hab); reflexivity|right; auto].
Qed.
Lemma in_combine_seq {A} (l : list A) i v : In (i, v) (combine (seq 0 (length l)) l) <-> nth_error l i = Some v.
Proof.
  destruct (Forall2_combine _ _ _ (Forall2_seq l)) as [H1 H2]. split; [apply H1|].
  intros H. apply H2.
  - intros b' Hb'. congruence.
  - apply in_seq. split; [lia|]. apply nth_error_Some. congruence.
Qed.

Section Whole.
Variable pb : problem.
Let n := length (v_values (p_vars pb)).
Hypothesis Hwf : well_formed pb.
Variable Sol : assignment -> Prop.
Variable x0 : assignment.
Hypothesis Hx0 : Sol x0.
Hypothesis HSol : forall x, Sol x -> feasible x pb.
Variable ch : caches.
Hypothesis Hch : make_caches pb = Some ch.
Variable aff : affected_variables.
Hypothesis Haff : length (a_names aff) = length (a_values aff).
Hypothesis Haffn : forall nm, In nm (a_names aff) -> ~ In nm (v_names (p_vars pb)).

Let Hlen : length (v_names (p_vars pb)) = n := proj1 Hwf.
Let Hnames : NoDup (v_names (p_vars pb)) := proj1 (proj2 Hwf).
Let Hidx := proj1 (proj2 (proj2 Hwf)).
Let Hnd := proj1 (proj2 (proj2 (proj2 Hwf))).
Let Hoi := proj1 (proj2 (proj2 (proj2 (proj2 Hwf)))).
Let Hon := proj1 (proj2 (proj2 (proj2 (proj2 (proj2 Hwf))))).

Definition final_state (s1 : pstate) (U : vmap) : pstate :=
  mk_pstate (s_vars s1 ++ U) [] (s_equal s1) (s_greater s1) (s_less s1).
Record final (s s1 : pstate) (U : vmap) (mo : merge_obj) (q : problem) : Prop := {
  fi_inv : Inv pb Sol s1;
  fi_lifo : s_lifo s1 = [];
  fi_vars : incl (s_vars s) (s_vars s1);
  fi_pending : incl (s_lifo s) (s_vars s1);
  fi_mo : make_lp_from_bqp_objective pb ch s1 = Some mo;
  fi_removed : removed pb s1 (s_vars s1) U (seq 0 n);
  fi_rebuilt : rebuilt pb aff mo (final_state s1 U) q }.

Lemma inv_lengths s : Inv pb Sol s -> cnt_lengths pb s.
Proof. intros [_ H] op. exact (proj1 (H op)). Qed.

Lemma cache_length : length (in_equal ch) = n.
Proof. exact (proj1 (cache_of_spec pb ch Hch op_equal)). Qed.

Lemma remove_step s1 : Inv pb Sol s1 -> s_lifo s1 = [] ->
  exists U, try_remove_unused_variable pb ch s1 = Some (final_state s1 U) /\ removed pb s1 (s_vars s1) U (seq 0 n).
Proof.
  intros Hi Hl. unfold try_remove_unused_variable. rewrite cache_length.
  destruct (remove_unused_spec pb ch Hch s1 (seq 0 n) (s_vars s1)) as (U & H1 & H2).
  { exact (proj1 (proj2 (proj1 Hi))). }
  { intros i Hin. apply in_seq in Hin. unfold n in Hin. lia. }
  { apply inv_lengths; assumption. }
  rewrite H1. cbn [bind]. exists U. split; [|assumption]. unfold final_state. rewrite Hl. reflexivity.
Qed.

Lemma finish_run s fuel q : Inv pb Sol s -> finish fuel pb aff ch s = Ok (Some q) ->
  exists s1 U mo, final s s1 U mo q.
Proof.
  intros Hi H. apply (finish_mono (S n)) in H. unfold finish in H.
  destruct (affects_ok pb Hidx Hnd Sol x0 Hx0 HSol ch Hch (fuel + S n) s Hi ltac:(unfold n; lia))
    as (s1 & E1 & I1 & L1 & V1 & P1).
  rewrite E1 in H. cbn [obind] in H.
  destruct (make_lp_from_bqp_objective pb ch s1) as [mo|] eqn:Em; cbn [of_opt obind] in H; [|discriminate].
  destruct (remove_step s1 I1 L1) as (U & E2 & R2). rewrite E2 in H. cbn [of_opt obind] in H.
  replace (fuel + S n)%nat with (S (fuel + n)) in H by lia. cbn [affects final_state s_lifo obind] in H.
  destruct (make_problem pb aff mo _) as [q'| |] eqn:E3; cbn [obind] in H; try discriminate.
  inversion H; subst q'. exists s1, U, mo. constructor; try assumption. apply make_problem_rebuilt. exact E3.
Qed.

(** ** Facts about a final state *)
Section Final.
Variables (s s1 : pstate) (U : vmap) (mo : merge_obj) (q : problem).
Hypothesis F : final s s1 U mo q.
Let vars := s_vars s1 ++ U.

Lemma f_nodup : NoDup (vkeys vars).
Proof. exact (proj1 (proj2 (fi_removed _ _ _ _ _ F))). Qed.
Lemma f_known v b : In (v, b) (s_vars s1) -> forced Sol v b /\ (v < n)%nat.
Proof. intros H. exact (proj1 (proj1 (fi_inv _ _ _ _ _ F)) v b (or_introl H)). Qed.
Lemma f_U v b : In (v, b) U -> (v < n)%nat /\ ~ In v (vkeys (s_vars s1)) /\ unused pb s1 v /\ b = unused_value pb v.
Proof.
  intros H. destruct (proj1 (fi_removed _ _ _ _ _ F) v b H) as (H1 & H2 & H3 & H4).
  apply in_seq in H1. repeat split; try assumption. lia.
Qed.
Lemma f_lt v : In v (vkeys vars) -> (v < n)%nat.
Proof.
  intros H. apply vkeys_in in H. destruct H as [b H]. apply in_app_or in H.
  destruct H as [H|H]; [apply (f_known v b H)|apply (f_U v b H)].
Qed.
Lemma f_count op i c : nth_error (op_constraints op pb) i = Some c ->
  exists k, nth_error (cnt_of op s1) i = Some k /\ k <> 1%nat /\
    (k = 0%nat -> forall x, agrees x (s_vars s1) -> csat op x c).
Proof.
  intros Hc. destruct (nth_error (cnt_of op s1) i) as [k|] eqn:E.
  - exists k. split; [reflexivity|]. destruct (proj2 (proj2 (fi_inv _ _ _ _ _ F) op) i c k Hc E) as (H1 & _ & H3).
    split; [assumption|]. intros H0 x Hx. apply (H3 H0). rewrite (fi_lifo _ _ _ _ _ F). intros v b [Hv|[]]. auto.
  - exfalso. apply nth_error_None in E. rewrite (proj1 (proj2 (fi_inv _ _ _ _ _ F) op)) in E.
    assert (nth_error (op_constraints op pb) i <> None) by congruence. apply nth_error_Some in H. lia.
Qed.

Lemma compat_agrees y x : compat vars n y x -> agrees x vars.
Proof.
  intros [H _] v b Hv. apply H; [|apply vfind_in; [exact f_nodup|assumption]].
  apply f_lt. apply vkeys_in. eauto.
Qed.

Lemma f_sound_compat y x : compat vars n y x -> feasible y q -> feasible x pb.
Proof.
  intros Hc Hy. apply feasible_ops. intros op c Hin. apply In_nth_error in Hin. destruct Hin as [i Hi].
  destruct (f_count op i c Hi) as (k & Hk & Hk1 & Hk0).
  destruct k as [|k].
  - apply Hk0; [reflexivity|]. intros v b Hv. apply (compat_agrees y x Hc). apply in_or_app; left; assumption.
  - pose proof (rb_csts _ _ _ _ _ (fi_rebuilt _ _ _ _ _ F) op) as Hcc. fold n in Hcc.
    cbn [s_vars final_state] in Hcc.
    assert (Hcnt : cnt_of op (final_state s1 U) = cnt_of op s1) by (destruct op; reflexivity).
    rewrite Hcnt in Hcc.
    destruct (constraints_copy_spec _ _ _ _ _ Hcc) as [G _].
    destruct (G i c (S k) Hi Hk ltac:(lia)) as (c' & Hin' & Hcop).
    apply (copied_csat _ _ op y x c c' Hc Hcop). apply (proj1 (feasible_ops y q) Hy op c' Hin').
Qed.

Lemma f_compat y x : completes y q x pb -> compat vars n y x.
Proof. apply (completes_compat pb aff mo _ q (fi_rebuilt _ _ _ _ _ F) Haff Hlen). Qed.

Lemma f_sound y x : completes y q x pb -> feasible y q -> feasible x pb.
Proof. intros H. apply f_sound_compat. apply f_compat. assumption. Qed.

(** A solution, with the unused variables set. *)
Definition overridden (x : assignment) : assignment :=
  fun v => match vfind U v with Some b => b | None => x v end.
Definition restricted (x : assignment) : assignment := fun j => x (nth j (kept vars n) 0%nat).

Lemma f_Unone v b : In (v, b) (s_vars s1) -> vfind U v = None.
Proof.
  intros H. apply vfind_none. intros HU. apply vkeys_in in HU. destruct HU as [b' HU].
  apply (proj1 (proj2 (f_U v b' HU))). apply vkeys_in. eauto.
Qed.
Lemma overridden_compat x : Sol x -> compat vars n (restricted (overridden x)) (overridden x).
Proof.
  intros Hx. apply (compat_of_x pb (final_state s1 U)). fold n. cbn [s_vars final_state].
  intros i b Hi Hb. unfold overridden. unfold vars in Hb. rewrite vfind_app in Hb.
  destruct (vfind (s_vars s1) i) as [b'|] eqn:E.
  - inversion Hb; subst b'. apply vfind_some in E. rewrite (f_Unone i b E). exact (proj1 (f_known i b E) x Hx).
  - rewrite Hb. reflexivity.
Qed.
Lemma lhs_ext x x' l : (forall e, In e l -> x (f_var e) = x' (f_var e)) -> lhs x l = lhs x' l.
Proof.
  induction l as [|e l IH]; intros H; cbn [lhs]; [reflexivity|].
  rewrite (H e (or_introl eq_refl)), IH; [reflexivity|]. intros z Hz. apply H. right; assumption.
Qed.
Lemma csat_ext op x x' c : (forall e, In e (c_elements c) -> x (f_var e) = x' (f_var e)) -> csat op x c -> csat op x' c.
Proof.
  intros H. pose proof (lhs_ext x x' (c_elements c) H) as Hl.
  destruct op; cbn [csat]; unfold sat_equal, sat_greater, sat_less; rewrite Hl; auto.
Qed.
(** Setting unused variables in any way keeps a solution feasible. *)
Lemma unused_free x x' : Sol x -> (forall v, ~ In v (vkeys U) -> x' v = x v) -> feasible x' pb.
Proof.
  intros Hx Heq. apply feasible_ops. intros op c Hin.
  pose proof (proj1 (feasible_ops x pb) (HSol x Hx) op c Hin) as Hs.
  apply In_nth_error in Hin. destruct Hin as [i Hi].
  destruct (f_count op i c Hi) as (k & Hk & Hk1 & Hk0). destruct k as [|k].
  - apply Hk0; [reflexivity|]. intros v b Hv. rewrite Heq; [exact (proj1 (f_known v b Hv) x Hx)|].
    apply vfind_none. eapply f_Unone; eassumption.
  - apply (csat_ext op x x'); [|assumption]. intros e He. symmetry. apply Heq. intros HU.
    apply vkeys_in in HU. destruct HU as [b HU]. destruct (f_U _ _ HU) as (_ & _ & Hu & _).
    assert (Hz : S k = 0%nat) by (apply (Hu op i c (S k) Hi Hk); unfold mentions; apply in_map; assumption). discriminate.
Qed.
Lemma overridden_feasible x : Sol x -> feasible (overridden x) pb.
Proof.
  intros Hx. apply (unused_free x); [assumption|]. intros v Hv. unfold overridden.
  apply vfind_none in Hv. rewrite Hv. reflexivity.
Qed.
Lemma complete_compat y x : compat vars n y x -> feasible x pb -> feasible y q.
Proof.
  intros Hc Hx. apply feasible_ops. intros op c' Hin.
  pose proof (rb_csts _ _ _ _ _ (fi_rebuilt _ _ _ _ _ F) op) as Hcc. fold n in Hcc.
  cbn [s_vars final_state] in Hcc.
  destruct (constraints_copy_spec _ _ _ _ _ Hcc) as [_ G].
  destruct (G c' Hin) as (i & c & k & Hi & _ & _ & Hcop).
  apply (copied_csat _ _ op y x c c' Hc Hcop). apply (proj1 (feasible_ops x pb) Hx op c).
  eapply nth_error_In; eassumption.
Qed.
Lemma restricted_feasible x : Sol x -> feasible (restricted (overridden x)) q.
Proof. intros Hx. eapply complete_compat; [apply overridden_compat|apply overridden_feasible]; assumption. Qed.
Lemma restricted_completes x : Sol x -> completes (restricted (overridden x)) q (overridden x) pb.
Proof.
  intros Hx. apply (compat_completes pb aff mo _ q (fi_rebuilt _ _ _ _ _ F) Haff Hnames Haffn).
  apply overridden_compat. assumption.
Qed.

(** The overridden assignment is at least as good (linear objective). *)
Lemma unused_value_best v e x :
  In e (o_elements (p_objective pb)) -> o_var e = v ->
  no_worse (p_type pb) (o_factor e * bz (unused_value pb v)) (o_factor e * bz (x v)).
Proof.
  intros He Hv. unfold unused_value.
  assert (Hf : find (fun e => Nat.eqb v (o_var e)) (o_elements (p_objective pb)) = Some e).
  { pose proof Hon as HonB. clearbody Hon. clear - He Hv HonB. rename HonB into Hon. induction (o_elements (p_objective pb)) as [|a l IH]; [destruct He|].
    cbn [map] in Hon. inversion Hon as [|? ? Hnot Hon']; subst. cbn [find]. destruct He as [->|He].
    - rewrite Nat.eqb_refl. reflexivity.
    - destruct (Nat.eqb_spec (o_var e) (o_var a)) as [Heq|Hne]; [|auto].
      exfalso. apply Hnot. rewrite <- Heq. apply in_map. assumption. }
  rewrite Hf. unfold no_worse, bz. destruct (p_type pb).
  - destruct (Z.ltb_spec 0 (o_factor e)); destruct (x v); lia.
  - destruct (Z.ltb_spec (o_factor e) 0); destruct (x v); lia.
Qed.
Lemma overridden_no_worse x : linear_objective pb ->
  no_worse (p_type pb) (objective_value (overridden x) (p_objective pb)) (objective_value x (p_objective pb)).
Proof.
  intros Hl. unfold objective_value. rewrite Hl. cbn [quad_value].
  assert (H : forall l, (forall e, In e l -> In e (o_elements (p_objective pb))) ->
     no_worse (p_type pb) (lin_value (overridden x) l) (lin_value x l)).
  { induction l as [|e l IH]; intros Hin; [unfold no_worse; cbn; destruct (p_type pb); lia|].
    specialize (IH (fun z Hz => Hin z (or_intror Hz))).
    assert (He : no_worse (p_type pb) (o_factor e * bz (overridden x (o_var e))) (o_factor e * bz (x (o_var e)))).
    { unfold overridden. destruct (vfind U (o_var e)) as [b|] eqn:E.
      - apply vfind_some in E. destruct (f_U _ _ E) as (_ & _ & _ & ->).
        apply unused_value_best; [|reflexivity]. apply Hin; left; reflexivity.
      - unfold no_worse. destruct (p_type pb); lia. }
    cbn [lin_value]. unfold no_worse in *. destruct (p_type pb); lia. }
  specialize (H (o_elements (p_objective pb)) (fun e He => He)). unfold no_worse in *. destruct (p_type pb); lia.
Qed.

Lemma f_objective y x : linear_objective pb -> completes y q x pb ->
  objective_value y (p_objective q) = objective_value x (p_objective pb).
Proof.
  intros Hl Hc. refine (proj1 (linear_objective_value pb aff mo _ q (fi_rebuilt _ _ _ _ _ F) Haff Hlen y x Hl _ _)).
  - eapply make_lp_linear; [exact Hl|exact (fi_mo _ _ _ _ _ F)].
  - apply f_compat. assumption.
Qed.

(** Every fixed variable: forced, or unused. *)
Lemma f_fixed i nm b : called pb i nm -> fixed_to q nm b ->
  forced Sol i b \/ (forall x, Sol x -> feasible (set_var x i b) pb).
Proof.
  intros Hc Hf.
  destruct (rb_fixed_inv pb aff mo _ q (fi_rebuilt _ _ _ _ _ F) Haff nm b Hf) as [(i' & Hlt & Hv & Hc')|(k & Hk & _)].
  - rewrite <- (called_unique pb Hnames i i' nm Hc Hc') in Hv. cbn [s_vars final_state] in Hv.
    rewrite vfind_app in Hv. destruct (vfind (s_vars s1) i) as [b'|] eqn:E.
    + left. inversion Hv; subst b'. apply vfind_some in E. apply (f_known i b E).
    + right. intros x Hx. apply (unused_free x); [assumption|]. intros v Hnv. unfold set_var.
      destruct (Nat.eqb_spec v i) as [->|]; [|reflexivity]. exfalso. apply Hnv. apply vkeys_in. exists b.
      apply vfind_some. assumption.
  - exfalso. apply (Haffn nm); eapply nth_error_In; eassumption.
Qed.

End Final.

(** ** Success for linear objectives *)
Lemma make_problem_ok s1 U : Inv pb Sol s1 -> removed pb s1 (s_vars s1) U (seq 0 n) -> linear_objective pb ->
  exists q, make_problem pb aff (mk_merge_obj [] 0) (final_state s1 U) = Ok q.
Proof.
  intros Hi HU Hl. unfold make_problem, ensures. fold n. cbn [s_vars final_state s_equal s_greater s_less].
  set (vars := s_vars s1 ++ U).
  set (m := make_mapping vars (seq 0 n) 0).
  assert (Hk : length (kept vars n) = (n - length vars)%nat).
  { apply kept_length; [exact (proj1 (proj2 HU))|]. intros v Hv. apply vkeys_in in Hv. destruct Hv as [b Hv].
    apply in_app_or in Hv. destruct Hv as [Hv|Hv].
    - exact (proj2 (proj1 (proj1 Hi) v b (or_introl Hv))).
    - destruct (proj1 HU v b Hv) as (G & _). apply in_seq in G. lia. }
  assert (E1 : Nat.eqb (length (filter (fun mi : option nat * bool => match fst mi with Some _ => true | None => false end) m))
                 (n - length vars) = true).
  { apply Nat.eqb_eq. unfold m. rewrite filter_mapping. exact Hk. }
  rewrite E1.
  assert (E2 : exists obj, objective_function_exclude_copy m (p_objective pb) (mk_merge_obj [] 0) = Some obj).
  { unfold objective_function_exclude_copy. rewrite Hl.
    pose proof (copy_linear_defined vars n (o_elements (p_objective pb)) Hoi
                  (o_value (p_objective pb) + mo_value (mk_merge_obj [] 0))) as Hd. fold m in Hd.
    destruct (copy_linear m _ _) as [[le v]|]; [|contradiction]. cbn. eauto. }
  destruct E2 as [obj E2]. rewrite E2. cbn [of_opt obind].
  assert (E3 : variables_exclude_copy vars (p_vars pb) (seq 0 n) (mk_variables [] []) aff <> None).
  { apply variables_copy_defined. intros i Hin. apply in_seq in Hin. rewrite Hlen. unfold n in *. lia. }
  destruct (variables_exclude_copy vars (p_vars pb) (seq 0 n) (mk_variables [] []) aff) as [[vs af]|] eqn:Ev; [|contradiction].
  cbn [of_opt obind].
  destruct (variables_copy_spec _ _ _ _ _ _ _ Ev) as (nms & vals & anms & avals & H1 & H2 & H3 & H4 & H5 & H6 & H7 & H8).
  cbn [v_names v_values app] in H1, H2.
  assert (E4 : names_kept m (v_names (p_vars pb)) (v_names vs) = true).
  { unfold m. apply (names_kept_ok vars (v_names (p_vars pb))).
    - rewrite <- Hlen. apply Forall2_seq.
    - intros j i Hj. rewrite H1. destruct (Forall2_nth _ _ _ H5 j i Hj) as (nm & Hn1 & Hn2).
      cbn [plus]. rewrite Hn1, Hn2. reflexivity. }
  rewrite E4.
  pose proof (inv_lengths s1 Hi) as Hlen1.
  assert (Hdef : forall op, exists l', constraints_exclude_copy m (cnt_of op s1) (op_constraints op pb) = Some l' /\
            is_valid_variable_index l' (length (v_values vs)) = true).
  { intros op.
    pose proof (constraints_copy_defined vars n (op_constraints op pb) (cnt_of op s1) (Hlen1 op)) as Hd.
    fold m in Hd. destruct (constraints_exclude_copy m (cnt_of op s1) (op_constraints op pb)) as [l'|] eqn:Ec.
    2:{ exfalso. apply Hd; [|reflexivity]. intros c e Hc He. apply (Hidx c e); [|assumption].
        eapply op_constraints_in; eassumption. }
    exists l'. split; [reflexivity|].
    destruct (constraints_copy_spec vars n _ _ _ Ec) as [_ G].
    unfold is_valid_variable_index. apply forallb_forall. intros c' Hc'. apply forallb_forall. intros e He.
    apply Nat.ltb_lt. destruct (G c' Hc') as (i & c & k & _ & _ & _ & Hcop).
    rewrite H2, <- (Forall2_len _ _ _ H6). change (filter (free vars) (seq 0 n)) with (kept vars n).
    refine (copied_valid vars n c c' _ _ _ Hcop e He).
    apply (compat_of_x pb (mk_pstate vars [] [] [] [])
             (fun v => match vfind vars v with Some b => b | None => false end)).
    cbn [s_vars]. intros i0 b _ Hb. rewrite Hb. reflexivity. }
  destruct (Hdef op_equal) as (eq & Ee & Ve). destruct (Hdef op_greater) as (gr & Eg & Vg). destruct (Hdef op_less) as (le & El & Vl).
  cbn [cnt_of op_constraints] in *. rewrite Ee, Eg, El. cbn [of_opt obind]. rewrite Ve, Vg, Vl. cbn [andb]. eauto.
Qed.

Lemma finish_ok s : Inv pb Sol s -> linear_objective pb ->
  exists q, forall fuel, (n < fuel)%nat -> finish fuel pb aff ch s = Ok (Some q).
Proof.
  intros Hi Hl.
  assert (H : exists q, finish (S n) pb aff ch s = Ok (Some q)).
  { unfold finish.
    destruct (affects_ok pb Hidx Hnd Sol x0 Hx0 HSol ch Hch (S n) s Hi ltac:(unfold n; lia))
      as (s1 & E1 & I1 & L1 & V1 & P1).
    rewrite E1. cbn [obind].
    destruct (make_lp_defined pb ch Hch s1 (inv_lengths s1 I1)) as [mo Em]. rewrite Em. cbn [of_opt obind].
    destruct (remove_step s1 I1 L1) as (U & E2 & R2). rewrite E2. cbn [of_opt obind].
    cbn [affects final_state s_lifo obind].
    rewrite (make_lp_linear pb ch s1 mo Hl Em).
    destruct (make_problem_ok s1 U I1 R2 Hl) as [q Eq]. cbv zeta. 
    replace (make_problem pb aff _ _) with (Ok q). cbn [obind]. eauto. }
  destruct H as [q H]. exists q. intros fuel Hf. replace fuel with (S n + (fuel - S n))%nat by lia.
  apply finish_mono. assumption.
Qed.
End Whole.

(** ** preprocess *)
Lemma caches_exist pb : well_formed pb -> exists ch, make_caches pb = Some ch.
Proof.
  intros (_ & _ & Hidx & _). unfold make_caches, make_cache.
  set (n := length (v_values (p_vars pb))) in *.
  assert (H : forall l, (forall c, In c l -> In c (all_constraints pb)) -> exists c', cache_csts l 0 (repeat [] n) = Some c').
  { intros l Hl. apply cache_csts_defined. intros c e Hc He. rewrite repeat_length. apply (Hidx c e); auto. }
  destruct (H (p_equal pb)) as [e He].
  { intros c Hc. unfold all_constraints. rewrite !in_app_iff. auto. }
  destruct (H (p_greater pb)) as [g Hg].
  { intros c Hc. unfold all_constraints. rewrite !in_app_iff. auto. }
  destruct (H (p_less pb)) as [l Hl].
  { intros c Hc. unfold all_constraints. rewrite !in_app_iff. auto. }
  rewrite He, Hg, Hl. cbn. eauto.
Qed.

Section Preprocess.
Variable pb : problem.
Let n := length (v_values (p_vars pb)).
Hypothesis Hwf : well_formed pb.
Variable x0 : assignment.
Hypothesis Hx0 : solution x0 pb.
Let Sol := fun x => solution x pb.
Let HSol : forall x, Sol x -> feasible x pb := fun x H => proj1 H.

Lemma bounded_known : known pb Sol [] (try_affect_bounded_variable pb []) /\
  (forall i v, nth_error (v_values (p_vars pb)) i = Some v -> v_min v = v_max v ->
     exists b, In (i, b) (try_affect_bounded_variable pb [])).
Proof.
  unfold try_affect_bounded_variable. fold n.
  set (f := fun (lf : lifo) (iv : nat * variable_value) => let '(i, v) := iv in
               if v_min v =? v_max v then lifo_emplace lf i (negb (v_max v =? 0)) else lf).
  assert (H : forall l lf, known pb Sol [] lf ->
     (forall i v, In (i, v) l -> nth_error (v_values (p_vars pb)) i = Some v) ->
     known pb Sol [] (fold_left f l lf) /\ incl lf (fold_left f l lf) /\
     (forall i v, In (i, v) l -> v_min v = v_max v -> exists b, In (i, b) (fold_left f l lf))).
  { induction l as [|[i v] l IH]; intros lf Hk Hl; cbn [fold_left].
    - split; [assumption|]. split; [apply incl_refl|intros i v []].
    - assert (Hl' : forall i v, In (i, v) l -> nth_error (v_values (p_vars pb)) i = Some v) by (intros; apply Hl; right; assumption).
      assert (Hiv : nth_error (v_values (p_vars pb)) i = Some v) by (apply Hl; left; reflexivity).
      change (f lf (i, v)) with (if v_min v =? v_max v then lifo_emplace lf i (negb (v_max v =? 0)) else lf).
      destruct (Z.eqb_spec (v_min v) (v_max v)) as [E|E].
      + destruct (lifo_emplace_ok pb Sol x0 Hx0 [] lf i (negb (v_max v =? 0)) Hk) as (K & I & Inc).
        { intros x Hx. pose proof (proj2 Hx i v Hiv) as Hb. unfold bz in Hb.
          destruct (Z.eqb_spec (v_max v) 0); cbn [negb]; destruct (x i); lia. }
        { apply nth_error_Some. congruence. }
        { reflexivity. }
        destruct (IH _ K Hl') as (K' & Inc' & I'). split; [assumption|]. split; [eapply incl_tran; eassumption|].
        intros i' v' [Heq|Hin] Hmm; [|eauto]. inversion Heq; subst. eauto.
      + destruct (IH _ Hk Hl') as (K' & Inc' & I'). split; [assumption|]. split; [assumption|].
        intros i' v' [Heq|Hin] Hmm; [|eauto]. inversion Heq; subst. contradiction. }
  assert (Hcomb : forall i v, In (i, v) (combine (seq 0 n) (v_values (p_vars pb))) <->
                  nth_error (v_values (p_vars pb)) i = Some v).
  { intros i v. apply in_combine_seq. }
  destruct (H (combine (seq 0 n) (v_values (p_vars pb))) []) as (K & _ & I).
  - split; [intros v b [[]|[]]|]. split; [constructor|]. split; [constructor|intros v []].
  - intros i v Hin. apply Hcomb. assumption.
  - split; [exact K|]. intros i v Hi Hm. apply (I i v); [apply Hcomb; assumption|assumption].
Qed.

Lemma preprocess_start ch :
  exists s, try_affect_variable pb (mk_pstate [] (try_affect_bounded_variable pb [])
              (lengths (p_equal pb)) (lengths (p_greater pb)) (lengths (p_less pb))) = Ok s /\
    Inv pb Sol s /\ s_vars s = [] /\ incl (try_affect_bounded_variable pb []) (s_lifo s) /\
    forall fuel, make_caches pb = Some ch -> preprocess fuel pb = finish fuel pb (mk_affected [] []) ch s.
Proof.
  destruct Hwf as (_ & _ & Hidx & _).
  destruct (try_affect_variable_ok pb Hidx Sol x0 Hx0 HSol _ (proj1 bounded_known)) as (s & E & I & V & Inc).
  exists s. split; [assumption|]. split; [assumption|]. split; [assumption|]. split; [assumption|].
  intros fuel Hch. unfold preprocess. rewrite Hch. cbn [of_opt obind init_state s_vars s_lifo s_equal s_greater s_less].
  rewrite E. reflexivity.
Qed.

Lemma preprocess_run fuel q : preprocess fuel pb = Ok (Some q) ->
  exists ch s s1 U mo, make_caches pb = Some ch /\ incl (try_affect_bounded_variable pb []) (s_lifo s) /\
    final pb Sol ch (mk_affected [] []) s s1 U mo q.
Proof.
  intros H. destruct (caches_exist pb Hwf) as [ch Hch].
  destruct (preprocess_start ch) as (s & E & I & V & Inc & Hp). rewrite (Hp fuel Hch) in H.
  destruct (finish_run pb Hwf Sol x0 Hx0 HSol ch Hch (mk_affected [] []) eq_refl s fuel q I H)
    as (s1 & U & mo & F).
  exists ch, s, s1, U, mo. auto.
Qed.

Lemma preprocess_terminates : linear_objective pb ->
  exists q, forall fuel, (n < fuel)%nat -> preprocess fuel pb = Ok (Some q).
Proof.
  intros Hl. destruct (caches_exist pb Hwf) as [ch Hch].
  destruct (preprocess_start ch) as (s & E & I & V & Inc & Hp).
  destruct (finish_ok pb Hwf Sol x0 Hx0 HSol ch Hch (mk_affected [] []) eq_refl s I Hl) as [q Hq].
  exists q. intros fuel Hf. rewrite (Hp fuel Hch). apply Hq. assumption.
Qed.

Variable fuel : nat.
Variable q : problem.
Hypothesis Hq : preprocess fuel pb = Ok (Some q).
Let Haff : length (a_names (mk_affected [] [])) = length (a_values (mk_affected [] [])) := eq_refl.
Let Haffn : forall nm, In nm (a_names (mk_affected [] [])) -> ~ In nm (v_names (p_vars pb)) := fun nm H => False_ind _ H.

Lemma preprocess_sound y x : completes y q x pb -> feasible y q -> feasible x pb.
Proof.
  destruct (preprocess_run fuel q Hq) as (ch & s & s1 & U & mo & Hch & Hb & F).
  eapply f_sound; eassumption.
Qed.
Lemma preprocess_fixed i nm b : called pb i nm -> fixed_to q nm b ->
  (forall x, solution x pb -> x i = b) \/ (forall x, solution x pb -> feasible (set_var x i b) pb).
Proof.
  destruct (preprocess_run fuel q Hq) as (ch & s & s1 & U & mo & Hch & Hb & F).
  eapply (f_fixed pb Hwf Sol HSol); eassumption.
Qed.
Lemma preprocess_objective y x : linear_objective pb -> completes y q x pb ->
  objective_value y (p_objective q) = objective_value x (p_objective pb).
Proof.
  destruct (preprocess_run fuel q Hq) as (ch & s & s1 & U & mo & Hch & Hb & F).
  eapply (f_objective pb Hwf Sol); eassumption.
Qed.
Lemma preprocess_sound_bounds y x : binary_bounds pb -> completes y q x pb -> feasible y q -> solution x pb.
Proof.
  destruct (preprocess_run fuel q Hq) as (ch & s & s1 & U & mo & Hch & Hb & F).
  intros Hbin Hc Hf. split; [eapply f_sound; eassumption|].
  pose proof (f_compat pb Hwf Sol ch _ Haff _ _ _ _ _ F y x Hc) as Hco.
  intros i v Hv. destruct (Hbin v (nth_error_In _ _ Hv)) as [Hfree|[Hmm H01]].
  - unfold bz. destruct (x i); lia.
  - destruct (proj2 bounded_known i v Hv Hmm) as [b Hin].
    assert (Hin1 : In (i, b) (s_vars s1)) by (apply (fi_pending _ _ _ _ _ _ _ _ _ F); apply Hb; assumption).
    assert (Hxi : x i = b).
    { apply (compat_agrees pb Hwf Sol ch _ Haff _ _ _ _ _ F y x Hco). apply in_or_app; left; assumption. }
    pose proof (proj2 Hx0 i v Hv) as Hb0.
    pose proof (proj1 (f_known pb Sol ch _ _ _ _ _ _ F i b Hin1) x0 Hx0) as Hx0i. rewrite Hxi, <- Hx0i. exact Hb0.
Qed.
Lemma preprocess_complete x : solution x pb -> binary_bounds pb ->
  exists y x', solution y q /\ completes y q x' pb /\ solution x' pb /\
    (forall i nm j, called pb i nm -> called q j nm -> y j = x i) /\
    (linear_objective pb -> no_worse (p_type pb) (objective_value x' (p_objective pb)) (objective_value x (p_objective pb))).
Proof.
  intros Hx Hbin. destruct (preprocess_run fuel q Hq) as (ch & s & s1 & U & mo & Hch & Hb & F).
  set (vars := s_vars s1 ++ U).
  set (x' := overridden U x). set (y := restricted pb s1 U x').
  assert (Hco : compat vars n y x') by (apply (overridden_compat pb Hwf Sol ch _ Haff _ _ _ _ _ F); exact Hx).
  assert (Hfx : feasible x' pb) by (eapply (overridden_feasible pb Hwf Sol HSol); eassumption).
  assert (Hbx : in_bounds x' pb).
  { intros i v Hv. destruct (Hbin v (nth_error_In _ _ Hv)) as [Hfree|[Hmm H01]].
    - unfold bz. destruct (x' i); lia.
    - destruct (proj2 bounded_known i v Hv Hmm) as [b Hin].
      assert (Hin1 : In (i, b) (s_vars s1)) by (apply (fi_pending _ _ _ _ _ _ _ _ _ F); apply Hb; assumption).
      unfold x', overridden. rewrite (f_Unone pb Hwf Sol ch _ Haff _ _ _ _ _ F i b Hin1). exact (proj2 Hx i v Hv). }
  exists y, x'. split; [|split; [|split; [split; assumption|split]]].
  - split; [eapply (restricted_feasible pb Hwf Sol HSol); eassumption|].
    apply (bounds_of_compat pb _ mo _ q (fi_rebuilt _ _ _ _ _ _ _ _ _ F) y x' Hco).
    intros i v Hv _. exact (Hbx i v Hv).
  - eapply (restricted_completes pb Hwf Sol); eassumption.
  - intros i nm j Hi Hj.
    destruct (rb_called_inv pb _ mo _ q (fi_rebuilt _ _ _ _ _ _ _ _ _ F) j nm Hj) as (i' & Hk & Hc').
    cbn [s_vars final_state] in Hk. fold vars in Hk.
    assert (i' = i) as -> by (eapply (called_unique pb (proj1 (proj2 Hwf))); eassumption).
    rewrite <- (proj2 Hco j i Hk). unfold x', overridden.
    assert (Hin : In i (kept vars n)) by (eapply nth_error_In; eassumption). apply kept_in in Hin.
    destruct Hin as [_ Hn]. unfold vars in Hn. rewrite vfind_app in Hn.
    destruct (vfind (s_vars s1) i); [discriminate|]. rewrite Hn. reflexivity.
  - intros Hl. eapply (overridden_no_worse pb Hwf Sol); eassumption.
Qed.
End Preprocess.
