(** Reading back what was written: the meaning of the written document. *)
From Coq Require Import Ascii String Permutation Lia.
From Verif Require Import Base Problem_model ResultIO_model Chars_spec Lexer_model Lexer_spec Lexer_proofs Parser_model Parser_spec Parser_proofs Parser_proofs2 Parser_proofs3 Parser_proofs4 Parser_proofs5 Writer_model Writer_spec Writer_proofs.
Open Scope string_scope.
Open Scope list_scope.
Open Scope nat_scope.

Lemma filter_all {A} (f : A -> bool) l : (forall x, In x l -> f x = true) -> filter f l = l.
Proof. induction l as [ |a l IH ]; intros H; cbn; [ reflexivity |]. rewrite (H a (or_introl eq_refl)), IH; [ reflexivity |]. intros x Hx. apply H. right. exact Hx. Qed.
Lemma filter_none {A} (f : A -> bool) l : (forall x, In x l -> f x = false) -> filter f l = [].
Proof. induction l as [ |a l IH ]; intros H; cbn; [ reflexivity |]. rewrite (H a (or_introl eq_refl)), IH; [ reflexivity |]. intros x Hx. apply H. right. exact Hx. Qed.
Lemma firsts_id l : NoDup l -> firsts l = l.
Proof.
  induction 1 as [ |x l Hx _ IH ]; cbn; [ reflexivity |]. rewrite IH, filter_all; [ reflexivity |]. intros y Hy. rewrite text_eqb_neq; [ reflexivity |]. congruence.
Qed.
Lemma terms_of_one l t : NoDup (map t_var l) -> In t l -> terms_of (t_var t) l = [t].
Proof.
  induction l as [ |a l IH ]; [ intros _ [] |]. intros Hn Hin. cbn [map] in Hn. inversion Hn; subst. unfold terms_of in *. cbn [filter]. destruct Hin as [->|Hin].
  - rewrite text_eqb_refl, filter_none; [ reflexivity |]. intros x Hx. apply text_eqb_neq. intros E. apply H1. rewrite <- E. apply in_map, Hx.
  - rewrite text_eqb_neq, IH; auto. intros E. apply H1. rewrite E. apply in_map, Hin.
Qed.
Lemma map_nth_NoDup (names : list text) : NoDup names -> forall is, NoDup is -> Forall (fun i => i < length names) is -> NoDup (map (fun i => nth i names []) is).
Proof.
  intros Hn. induction 1 as [ |i is Hi _ IH ]; intros HF; cbn; constructor; inversion HF; subst; [ | apply IH; assumption ].
  intros Hin. apply in_map_iff in Hin. destruct Hin as [j [E Hj]]. rewrite Forall_forall in H2. apply (proj1 (NoDup_nth names []) Hn) in E; auto. congruence.
Qed.
Lemma mem_spec nm l : mem nm l = true <-> In nm l.
Proof.
  unfold mem. rewrite existsb_exists. split.
  - intros [x [Hx E]]. destruct (text_eqb_spec nm x); [ congruence | discriminate ].
  - intros H. exists nm. split; [ exact H | apply text_eqb_refl ].
Qed.
Lemma Forall2_map_l {A B C} (R : B -> C -> Prop) (f : A -> B) l m : Forall2 (fun a c => R (f a) c) l m -> Forall2 R (map f l) m.
Proof. induction 1; cbn; constructor; assumption. Qed.

Section Round_trip.
Context {D : Type} (dn : dops D).
Local Notation raw_problem := (raw_problem (D := D)).

Section Fixed.
Variable p : raw_problem.
Hypothesis H : writable dn p.
Let names := v_names (rw_vars p).
Let vs := combine names (v_values (rw_vars p)).
Let N := document_names (doc_of dn p).
Let s (i : nat) := position (nth i names []) N.

Lemma dterm_var e : t_var (dterm dn names e) = nth (snd e) names []. Proof. unfold dterm. destruct (d_gt _ _ _); reflexivity. Qed.
Lemma zterm_var e : t_var (zterm names e) = nth (f_var e) names []. Proof. reflexivity. Qed.
Lemma constant_names v : flat_map oterm_names (constant dn v) = []. Proof. unfold constant. destruct (d_gt _ _ _); [ reflexivity |]. destruct (d_gt _ _ _); reflexivity. Qed.
Lemma constant_terms v : var_terms (constant dn v) = []. Proof. unfold constant. destruct (d_gt _ _ _); [ reflexivity |]. destruct (d_gt _ _ _); reflexivity. Qed.
Lemma cst_of_terms op c : c_elements c <> [] -> cst_terms (cst_of names op c) = map (zterm names) (c_elements c).
Proof. intros Hc. unfold cst_terms, cst_of. cbn [k_first k_terms]. destruct (c_elements c); [ congruence | reflexivity ]. Qed.
Lemma onames l : flat_map oterm_names (map O_var l) = map t_var l.
Proof. induction l as [ |a l IH ]; cbn; [ reflexivity | rewrite IH; reflexivity ]. Qed.
Lemma oterms l : var_terms (map O_var l) = l.
Proof. induction l as [ |a l IH ]; cbn; [ reflexivity |]. f_equal. exact IH. Qed.
Definition csts : list cst := map (cst_of names op_equal) (rw_equal p) ++ map (cst_of names op_greater) (rw_greater p) ++ map (cst_of names op_less) (rw_less p).
Lemma csts_In k : In k csts <-> exists op c, k = cst_of names op c /\ In c (match op with op_equal => rw_equal p | op_greater => rw_greater p | op_less => rw_less p end).
Proof.
  unfold csts. rewrite !in_app_iff, !in_map_iff. split.
  - intros [[c [<- Hc]]|[[c [<- Hc]]|[c [<- Hc]]]]; [ exists op_equal | exists op_greater | exists op_less ]; exists c; split; auto.
  - intros [op [c [-> Hc]]]. destruct op; eauto.
Qed.
Lemma csts_In_all k : In k csts -> exists op c, k = cst_of names op c /\ In c (rw_equal p ++ rw_greater p ++ rw_less p).
Proof.
  intros Hk. apply csts_In in Hk. destruct Hk as [op [c [-> Hc]]]. exists op, c. split; [ reflexivity |]. rewrite !in_app_iff. destruct op; auto.
Qed.
Lemma names_In x : In x N <-> In x names.
Proof.
  unfold N, document_names. rewrite firsts_In, in_app_iff. cbn [doc_of dc_objective dc_constraints]. fold names. fold csts.
  rewrite flat_map_app, constant_names, app_nil_r, onames, map_map. split.
  - intros [Hx|Hx].
    + apply in_map_iff in Hx. destruct Hx as [e [<- He]]. rewrite dterm_var. apply nth_In. destruct (wf_objective _ (wr_wf _ _ H)) as [_ Ho]. rewrite Forall_forall in Ho. apply Ho, in_map, He.
    + apply in_flat_map in Hx. destruct Hx as [k [Hk Hx]]. apply csts_In_all in Hk. destruct Hk as [op [c [-> Hc]]]. destruct (wf_constraints _ (wr_wf _ _ H) c Hc) as [Hne [_ Hi]].
      rewrite cst_of_terms, map_map in Hx by exact Hne. apply in_map_iff in Hx. destruct Hx as [e [<- He]]. rewrite zterm_var. apply nth_In. rewrite Forall_forall in Hi. apply Hi, in_map, He.
  - intros Hx. destruct (In_nth _ _ [] Hx) as [i [Hi E]]. destruct (wr_used _ _ H i Hi) as [Hu|[c [Hc Hu]]].
    + left. apply in_map_iff in Hu. destruct Hu as [e [Ee He]]. apply in_map_iff. exists e. split; [ rewrite dterm_var, Ee; exact E | exact He ].
    + right. apply in_flat_map. destruct (wf_constraints _ (wr_wf _ _ H) c Hc) as [Hne _].
      assert (Hk : exists op, In (cst_of names op c) csts). { rewrite !in_app_iff in Hc. destruct Hc as [Hc|[Hc|Hc]]; [ exists op_equal | exists op_greater | exists op_less ]; apply csts_In; eexists _, _; split; eauto. }
      destruct Hk as [op Hk]. exists (cst_of names op c). split; [ exact Hk |]. rewrite cst_of_terms, map_map by exact Hne. apply in_map_iff in Hu. destruct Hu as [e [Ee He]]. apply in_map_iff. exists e.
      split; [ rewrite zterm_var, Ee; exact E | exact He ].
Qed.
Lemma names_count : length N = length names.
Proof. apply Permutation_length, NoDup_Permutation; [ apply firsts_NoDup | apply (wf_names _ (wr_wf _ _ H)) | apply names_In ]. Qed.

(** Values of the terms. *)
Lemma dterm_value e : printed dn (fst e) -> term_value dn (dterm dn names e) = fst e.
Proof.
  unfold printed, dterm, term_value. destruct (d_gt dn (d_zero dn) (fst e)); cbn [t_sign t_num with_sign].
  - intros [x [-> [_ E]]]. cbn [tl]. exact E.
  - intros [_ [_ E]]. exact E.
Qed.
Lemma zterm_signed e : term_value dn (zterm names e) = signed_value dn (signed_int (f_factor e)).
Proof. unfold zterm, term_value, signed_value, signed_int. cbn [t_sign t_num s_sign s_num]. destruct (f_factor e <? 0)%Z; reflexivity. Qed.
Lemma zterm_value e : int_printed dn (f_factor e) -> int_of dn (term_value dn (zterm names e)) = f_factor e.
Proof. intros [_ E]. rewrite zterm_signed. unfold int_of. rewrite E. reflexivity. Qed.
Lemma signed_back z : int_printed dn z -> int_of dn (signed_value dn (signed_int z)) = z.
Proof. intros [_ E]. unfold int_of. rewrite E. reflexivity. Qed.

Lemma objective_back : objective_of dn N (dc_objective (doc_of dn p)) = map (fun e => (fst e, s (snd e))) (rw_objective p).
Proof.
  cbn [doc_of dc_objective]. fold names. unfold objective_of. assert (E : var_terms (map O_var (map (dterm dn names) (rw_objective p)) ++ constant dn (rw_value p)) = map (dterm dn names) (rw_objective p)).
  { unfold var_terms. rewrite flat_map_app. fold (var_terms (constant dn (rw_value p))). rewrite constant_terms, app_nil_r. apply oterms. }
  rewrite E. destruct (wf_objective _ (wr_wf _ _ H)) as [Hnd Hi].
  assert (Hn : NoDup (map t_var (map (dterm dn names) (rw_objective p)))).
  { rewrite map_map. rewrite (map_ext _ (fun e => nth (snd e) names [])) by apply dterm_var. rewrite <- (map_map snd (fun i => nth i names [])). apply map_nth_NoDup; auto. apply (wf_names _ (wr_wf _ _ H)). }
  rewrite firsts_id by exact Hn. rewrite !map_map. apply map_ext_in. intros e He. rewrite terms_of_one; [ | exact Hn | apply in_map, He ].
  cbn [map sum_values fold_left]. pose proof (wr_objective _ _ H) as Ho. rewrite Forall_forall in Ho. rewrite dterm_value by (apply Ho, He). rewrite dterm_var. reflexivity.
Qed.
Lemma elements_back op c : In c (rw_equal p ++ rw_greater p ++ rw_less p) ->
  elements_of dn N (cst_terms (cst_of names op c)) = map (fun e => mk_felem (f_factor e) (s (f_var e))) (c_elements c).
Proof.
  intros Hc. destruct (wf_constraints _ (wr_wf _ _ H) c Hc) as [Hne [Hnd Hi]]. rewrite cst_of_terms by exact Hne. unfold elements_of.
  assert (Hn : NoDup (map t_var (map (zterm names) (c_elements c)))).
  { rewrite map_map. rewrite (map_ext _ (fun e => nth (f_var e) names [])) by apply zterm_var. rewrite <- (map_map f_var (fun i => nth i names [])). apply map_nth_NoDup; auto. apply (wf_names _ (wr_wf _ _ H)). }
  rewrite firsts_id by exact Hn. rewrite !map_map. apply map_ext_in. intros e He. rewrite terms_of_one; [ | exact Hn | apply in_map, He ].
  destruct (wr_constraints _ _ H c Hc) as [_ [_ Hf]]. rewrite Forall_forall in Hf. cbn [map fold_left]. rewrite zterm_value by apply (Hf e He). rewrite zterm_var. reflexivity.
Qed.
Lemma constraint_back op c id : In c (rw_equal p ++ rw_greater p ++ rw_less p) -> same_constraint s c (constraint_of dn N id (cst_of names op c)).
Proof.
  intros Hc. unfold same_constraint, constraint_of. cbn [c_label c_value c_elements]. split; [ | split ].
  - unfold cst_of. cbn [k_label]. destruct (c_label c); reflexivity.
  - cbn [cst_of k_value]. apply signed_back, (wr_constraints _ _ H c Hc).
  - apply elements_back, Hc.
Qed.
Lemma numbered_cons op id k l : numbered dn op N id (k :: l) = (if operator_eqb (k_op k) op then [constraint_of dn N id k] else []) ++ numbered dn op N (S id) l.
Proof. unfold numbered. cbn [length seq combine filter snd]. destruct (operator_eqb (k_op k) op); reflexivity. Qed.
Lemma numbered_app op : forall a id b, numbered dn op N id (a ++ b) = numbered dn op N id a ++ numbered dn op N (id + length a) b.
Proof.
  induction a as [ |k a IH ]; intros id b; cbn [app length]; [ rewrite Nat.add_0_r; reflexivity |]. rewrite !numbered_cons, IH, <- app_assoc. do 3 f_equal. lia.
Qed.
Lemma numbered_other op op' : operator_eqb op' op = false -> forall l id, numbered dn op N id (map (cst_of names op') l) = [].
Proof. intros E. induction l as [ |k l IH ]; intros id; cbn [map]; [ reflexivity |]. rewrite numbered_cons, IH. cbn [cst_of k_op]. rewrite E. reflexivity. Qed.
Lemma numbered_same op : forall l id, (forall c, In c l -> In c (rw_equal p ++ rw_greater p ++ rw_less p)) ->
  Forall2 (same_constraint s) l (numbered dn op N id (map (cst_of names op) l)).
Proof.
  induction l as [ |k l IH ]; intros id Hl; cbn [map]; [ constructor |]. rewrite numbered_cons. cbn [cst_of k_op].
  replace (operator_eqb op op) with true by (destruct op; reflexivity). cbn [app]. constructor; [ apply constraint_back, Hl; left; reflexivity |]. apply IH. intros c Hc. apply Hl. right. exact Hc.
Qed.
Lemma equal_back : Forall2 (same_constraint s) (rw_equal p) (constraints_of dn op_equal N csts).
Proof.
  change (constraints_of dn op_equal N csts) with (numbered dn op_equal N 0 csts). unfold csts. rewrite !numbered_app.
  rewrite (numbered_other op_equal op_greater), (numbered_other op_equal op_less), !app_nil_r by reflexivity.
  apply numbered_same. intros c Hc. apply in_or_app. auto.
Qed.
Lemma greater_back : Forall2 (same_constraint s) (rw_greater p) (constraints_of dn op_greater N csts).
Proof.
  change (constraints_of dn op_greater N csts) with (numbered dn op_greater N 0 csts). unfold csts. rewrite !numbered_app.
  rewrite (numbered_other op_greater op_equal), (numbered_other op_greater op_less), !app_nil_r by reflexivity.
  apply numbered_same. intros c Hc. apply in_or_app. right. apply in_or_app. auto.
Qed.
Lemma less_back : Forall2 (same_constraint s) (rw_less p) (constraints_of dn op_less N csts).
Proof.
  change (constraints_of dn op_less N csts) with (numbered dn op_less N 0 csts). unfold csts. rewrite !numbered_app.
  rewrite (numbered_other op_less op_equal), (numbered_other op_less op_greater) by reflexivity.
  apply numbered_same. intros c Hc. apply in_or_app. right. apply in_or_app. auto.
Qed.

(** Bounds and types. *)
Lemma vs_fst : map fst vs = names.
Proof.
  unfold vs. pose proof (wf_values _ (wr_wf _ _ H)) as Hl. fold names in Hl. clearbody names. revert Hl. generalize (v_values (rw_vars p)).
  induction names as [ |x l IH ]; intros [ |y m ] Hl; cbn in *; try discriminate; [ reflexivity |]. rewrite IH by lia. reflexivity.
Qed.
Lemma section_typed (h : header) ty (l : list (text * variable_value)) : section_list (if have ty l then Some (h, typed ty l) else None) = typed ty l.
Proof.
  destruct (have ty l) eqn:E; [ reflexivity |]. cbn [section_list]. unfold have in E. unfold typed.
  induction l as [ |[nm v] l IH ]; cbn in *; [ reflexivity |]. apply orb_false_iff in E. destruct E as [E1 E2]. rewrite E1, <- IH by exact E2. reflexivity.
Qed.
Lemma typed_In ty nm (l : list (text * variable_value)) : In nm (typed ty l) <-> exists v, In (nm, v) l /\ type_eqb (v_type v) ty = true.
Proof.
  unfold typed. rewrite in_flat_map. split.
  - intros [[m v] [Hin Hx]]. cbn [fst snd] in Hx. destruct (type_eqb (v_type v) ty) eqn:E; [ | destruct Hx ]. destruct Hx as [<-|[]]. eauto.
  - intros [v [Hin E]]. exists (nm, v). split; [ exact Hin |]. cbn [fst snd]. rewrite E. left. reflexivity.
Qed.
Lemma assoc_unique {A B} (l : list (A * B)) a b b' : NoDup (map fst l) -> In (a, b) l -> In (a, b') l -> b = b'.
Proof.
  induction l as [ |[x y] l IH ]; [ intros _ [] |]. cbn [map fst]. intros Hn [E|Hb] [E'|Hb']; inversion Hn; subst.
  - congruence.
  - inversion E; subst. exfalso. apply H2. apply in_map_iff. exists (a, b'). auto.
  - inversion E'; subst. exfalso. apply H2. apply in_map_iff. exists (a, b). auto.
  - eauto.
Qed.
Lemma mem_typed ty nm v (l : list (text * variable_value)) : NoDup (map fst l) -> In (nm, v) l -> mem nm (typed ty l) = type_eqb (v_type v) ty.
Proof.
  intros Hn Hin. destruct (type_eqb (v_type v) ty) eqn:E.
  - apply mem_spec, typed_In. eauto.
  - destruct (mem nm (typed ty l)) eqn:Em; [ | reflexivity ]. apply mem_spec, typed_In in Em. destruct Em as [v' [Hin' E']]. rewrite (assoc_unique l nm v v' Hn Hin Hin') in E. congruence.
Qed.
Lemma find_bline nm v (l : list (text * variable_value)) : NoDup (map fst l) -> In (nm, v) l ->
  find (fun b => text_eqb (bline_name b) nm) (blines l) = if (v_max v =? int_max)%Z then None else Some (B_upper nm Sp2 (signed_int (v_max v))).
Proof.
  induction l as [ |[m u] l IH ]; [ intros _ [] |]. intros Hn Hin. cbn [map fst] in Hn. inversion Hn; subst. unfold blines in *. cbn [flat_map fst snd].
  destruct Hin as [E|Hin].
  - inversion E; subst. destruct (v_max v =? int_max)%Z eqn:Ev; cbn [app find bline_name]; [ | rewrite text_eqb_refl; reflexivity ].
    match goal with |- ?f = _ => destruct f as [b|] eqn:Ef; [ exfalso | reflexivity ] end. apply find_some in Ef. destruct Ef as [Hb E1].
    apply in_flat_map in Hb. destruct Hb as [[m' u'] [Hx Hb]]. cbn [fst snd] in Hb. destruct (v_max u' =? int_max)%Z; [ destruct Hb |]. destruct Hb as [<-|[]]. cbn [bline_name] in E1.
    destruct (text_eqb_spec m' nm) as [->|]; [ | discriminate ]. apply H2. apply in_map_iff. exists (nm, u'). auto.
  - assert (Hne : m <> nm). { intros ->. apply H2. apply in_map_iff. exists (nm, v). auto. }
    destruct (v_max u =? int_max)%Z; cbn [app find bline_name]; [ apply IH; assumption |]. rewrite text_eqb_neq by exact Hne. apply IH; assumption.
Qed.
Lemma vs_In i v : i < length names -> nth_error (v_values (rw_vars p)) i = Some v -> In (nth i names [], v) vs.
Proof.
  unfold vs. clearbody names. generalize (v_values (rw_vars p)). revert i. induction names as [ |x l IH ]; intros i m Hi Hv; cbn [length] in Hi; [ lia |].
  destruct m as [ |y m ]; [ destruct i; discriminate |]. destruct i as [ |i ]; cbn in *; [ left; congruence | right; apply IH; [ lia | exact Hv ] ].
Qed.
Lemma variable_back i v : i < length names -> nth_error (v_values (rw_vars p)) i = Some v -> variable_of dn (doc_of dn p) (nth i names []) = v.
Proof.
  intros Hi Hv. pose proof (vs_In i v Hi Hv) as Hin. assert (Hn : NoDup (map fst vs)) by (rewrite vs_fst; apply (wf_names _ (wr_wf _ _ H))).
  destruct (wr_bounds _ _ H i _ v (@nth_error_some text names i [] Hi) Hv) as [Hmin [Hmax Hbin]].
  unfold variable_of. cbn [doc_of dc_bounds dc_binary dc_general]. fold names. fold vs. rewrite !section_typed. cbn [section_list].
  rewrite (find_bline _ v _ Hn Hin), !(mem_typed _ _ v _ Hn Hin).
  assert (Hb : match (if (v_max v =? int_max)%Z then None else Some (B_upper (nth i names []) Sp2 (signed_int (v_max v)))) with
               | Some b => (bline_min dn b, bline_max dn b) | None => (0%Z, int_max) end = (0%Z, v_max v)).
  { destruct (Z.eqb_spec (v_max v) int_max) as [->|Ne]; [ reflexivity |]. cbn [bline_min bline_max]. destruct Hmax as [Hmax|[_ [Hp _]]]; [ congruence |]. rewrite (signed_back _ Hp). reflexivity. }
  rewrite Hb. destruct v as [mn mx ty]. cbn [v_min v_max v_type] in *. subst mn. destruct ty; cbn [type_eqb]; try reflexivity. rewrite (Hbin eq_refl). reflexivity.
Qed.

(** The written document is well formed. *)
Lemma names_ok i : i < length names -> lp_name dn (nth i names []).
Proof. intros Hi. destruct (wr_names _ _ H) as [_ HN]. rewrite Forall_forall in HN. apply HN, nth_In, Hi. Qed.
Lemma constant_ok v : (v = d_zero dn /\ d_gt dn (d_zero dn) (d_zero dn) = false) \/ printed dn v -> objective_ok dn (constant dn v).
Proof.
  intros Hv. unfold constant. destruct (d_gt dn (d_zero dn) v) eqn:E.
  - destruct Hv as [[-> Hv]|Hv]; [ congruence |]. unfold printed in Hv. rewrite E in Hv. destruct Hv as [x [-> [[Hx _] _]]]. cbn [tl objective_ok]. split; [ exact Hx | split; exact I ].
  - destruct (d_gt dn v (d_zero dn)) eqn:E2; [ | exact I ]. destruct Hv as [[-> Hv]|Hv]; [ congruence |]. unfold printed in Hv. rewrite E in Hv. destruct Hv as [_ [[Hx _] _]].
    cbn [objective_ok]. split; [ exact Hx | split; exact I ].
Qed.
Lemma objective_ok_app l r : Forall (term_ok dn) l -> objective_ok dn r -> objective_ok dn (map O_var l ++ r).
Proof. induction 1; intros Hr; cbn [map app objective_ok]; [ exact Hr |]. split; auto. Qed.
Lemma dterm_ok e : printed dn (fst e) -> snd e < length names -> term_ok dn (dterm dn names e).
Proof.
  intros Hp Hi. split; [ rewrite dterm_var; apply names_ok, Hi |]. unfold printed in Hp. unfold dterm. destruct (d_gt dn (d_zero dn) (fst e)); cbn [t_num].
  - destruct Hp as [x [-> [[Hx _] _]]]. exact Hx.
  - destruct Hp as [_ [[Hx _] _]]. exact Hx.
Qed.
Lemma document_written : document_ok dn (rw_type p) (doc_of dn p).
Proof.
  pose proof (wf_names _ (wr_wf _ _ H)) as Hnd. fold names in Hnd.
  constructor; cbn [doc_of dc_type dc_label dc_objective dc_subject dc_constraints dc_bounds dc_binary dc_general dc_end]; fold names; fold vs.
  - destruct (rw_type p); reflexivity.
  - exact I.
  - apply objective_ok_app; [ | apply constant_ok; destruct (wr_value _ _ H) as [Hv|[Hv _]]; auto ].
    apply Forall_forall. intros t Ht. apply in_map_iff in Ht. destruct Ht as [e [<- He]]. pose proof (wr_objective _ _ H) as Ho. destruct (wf_objective _ (wr_wf _ _ H)) as [_ Hi].
    rewrite Forall_forall in Ho, Hi. apply dterm_ok; [ apply Ho, He | apply Hi, in_map, He ].
  - right. exists (str "subject"), (str "to"). split; [ reflexivity |]. left. split; reflexivity.
  - fold csts. apply Forall_forall. intros k Hk. apply csts_In_all in Hk. destruct Hk as [op [c [-> Hc]]]. destruct (writable_csts dn p c H Hc) as [Hl [Hv [Hne He]]]. fold names in He.
    unfold cst_ok. split; [ | split ].
    + unfold cst_of. cbn [k_label]. destruct (c_label c) as [ |a l ] eqn:E; [ exact I |]. destruct Hl as [Hl|[[Hl _] Hk]]; [ discriminate |]. split; [ | exact Hk ].
      cbn [starts_with_name]. cbn [forallb] in Hl. apply andb_prop in Hl. apply Hl.
    + rewrite cst_of_terms by exact Hne. apply Forall_forall. intros t Ht. apply in_map_iff in Ht. destruct Ht as [e [<- Hin]]. rewrite Forall_forall in He. destruct (He e Hin) as [_ [Hp Hi]]. split.
      * split; [ rewrite zterm_var; apply names_ok, Hi |]. cbn [zterm t_num]. apply int_number, Hp.
      * unfold int_ok. rewrite zterm_signed. destruct Hp as [_ ->]. discriminate.
    + cbn [cst_of k_value]. split; [ apply (int_number dn _ Hv) |]. unfold int_ok. destruct Hv as [_ ->]. discriminate.
  - split; [ exists (str "bounds"); split; reflexivity |]. apply Forall_forall. intros b Hb. unfold blines in Hb. apply in_flat_map in Hb. destruct Hb as [[nm v] [Hin Hb]]. cbn [fst snd] in Hb.
    destruct (Z.eqb_spec (v_max v) int_max) as [ |Ne ]; [ destruct Hb |]. destruct Hb as [<-|[]]. pose proof (writable_vars dn p H) as HV. fold names in HV. fold vs in HV. rewrite Forall_forall in HV.
    destruct (HV _ Hin) as [_ [_ [Hmax _]]]. cbn [fst snd] in Hmax. destruct Hmax as [Hmax|[Hs [Hp Hf]]]; [ congruence |]. split.
    + cbn [bline_name]. apply names_In. rewrite <- vs_fst. apply in_map_iff. exists (nm, v). auto.
    + split; [ exact Hs |]. split; [ apply (int_number dn _ Hp) | exact Hf ].
  - cbn [section_list]. assert (E : map bline_name (blines vs) = map fst (filter (fun x => negb (v_max (snd x) =? int_max)%Z) vs)).
    { clear. induction vs as [ |[nm v] l IH ]; [ reflexivity |]. unfold blines in *. cbn [flat_map filter fst snd]. rewrite map_app, IH. destruct (v_max v =? int_max)%Z; reflexivity. }
    rewrite E. rewrite <- vs_fst in Hnd. clear - Hnd. induction vs as [ |[nm v] l IH ]; cbn [filter]; [ constructor |]. cbn [map fst] in Hnd. inversion Hnd; subst. destruct (negb _); [ | apply IH; assumption ].
    cbn [map fst]. constructor; [ | apply IH; assumption ]. intros Hin. apply H1. apply in_map_iff in Hin. destruct Hin as [x [E Hx]]. apply filter_In in Hx. apply in_map_iff. exists x. tauto.
  - destruct (have vt_binary vs); [ | exact I ]. split; [ exists (str "binary"); split; reflexivity |]. apply Forall_forall. intros nm Hin. apply typed_In in Hin. destruct Hin as [v [Hin _]].
    apply names_In. rewrite <- vs_fst. apply in_map_iff. exists (nm, v). auto.
  - destruct (have vt_general vs); [ | exact I ]. split; [ exists (str "general"); split; reflexivity |]. apply Forall_forall. intros nm Hin. apply typed_In in Hin. destruct Hin as [v [Hin _]].
    apply names_In. rewrite <- vs_fst. apply in_map_iff. exists (nm, v). auto.
  - exists (str "end"). split; reflexivity.
Qed.
Lemma value_back : fold_left (d_add dn) (map (signed_value dn) (constants (dc_objective (doc_of dn p)))) (d_zero dn) = rw_value p.
Proof.
  cbn [doc_of dc_objective]. assert (E : constants (map O_var (map (dterm dn (v_names (rw_vars p))) (rw_objective p)) ++ constant dn (rw_value p)) = constants (constant dn (rw_value p))).
  { unfold constants. rewrite flat_map_app. assert (G : forall l, flat_map (fun t => match t with O_var _ => [] | O_const s => [s] end) (map O_var l) = []) by (induction l; [ reflexivity | assumption ]). rewrite G. reflexivity. }
  rewrite E. unfold constant. destruct (wr_value _ _ H) as [[-> Hz]|[Hp Ha]].
  - rewrite Hz. reflexivity.
  - unfold printed in Hp. destruct (d_gt dn (d_zero dn) (rw_value p)).
    + destruct Hp as [x [-> [_ Ex]]]. cbn [tl constants flat_map app map fold_left]. unfold signed_value. cbn [s_sign s_num with_sign]. rewrite Ex. exact Ha.
    + destruct Hp as [-> [_ Ex]]. cbn [constants flat_map app map fold_left]. unfold signed_value. cbn [s_sign s_num with_sign]. rewrite Ex. exact Ha.
Qed.
Lemma meaning_back : renumbered s p (meaning dn (rw_type p) (doc_of dn p)).
Proof.
  unfold meaning. fold N. constructor; cbn [rw_type rw_objective rw_quadratic rw_value rw_equal rw_greater rw_less rw_vars v_names v_values].
  - reflexivity.
  - exact names_count.
  - fold names. intros i Hi. assert (HN : In (nth i names []) N) by (apply names_In, nth_In, Hi). pose proof (position_nth _ _ HN) as E. fold (s i) in E. split.
    + rewrite E. symmetry. apply nth_error_nth', Hi.
    + rewrite (map_nth_error (variable_of dn (doc_of dn p)) _ _ E). assert (Hv : i < length (v_values (rw_vars p))) by (rewrite (wf_values _ (wr_wf _ _ H)); exact Hi).
      destruct (nth_error (v_values (rw_vars p)) i) as [v|] eqn:Ev; [ | apply nth_error_None in Ev; lia ]. f_equal. apply variable_back; assumption.
  - apply objective_back.
  - rewrite (wr_quadratic _ _ H). reflexivity.
  - apply value_back.
  - apply equal_back.
  - apply greater_back.
  - apply less_back.
Qed.
End Fixed.

Theorem round_trip p : dops_ok dn -> writable dn p -> exists t p' s,
  write_problem dn p = Some t /\ renumbered s p p' /\ (forall fuel, length (file_tokens t) <= fuel -> make_problem dn fuel t = P_ok p').
Proof.
  intros Hdn H. destruct (write_lexes dn p H) as [t [E L]]. destruct (lexes_file t _ L) as [R [P F]].
  eexists t, (meaning dn (rw_type p) (doc_of dn p)), _. split; [ exact E |]. split; [ apply meaning_back, H |].
  intros fuel Hf. apply make_problem_document; auto. apply document_written, H.
Qed.
End Round_trip.
