(** Variables and sums: numbers in the order of first occurrences. *)
From Coq Require Import Ascii String Lia.
From Verif Require Import Base Problem_model ResultIO_model Chars_spec Lexer_model Lexer_spec Lexer_proofs Parser_model Parser_spec Parser_proofs.
Open Scope list_scope.
Open Scope nat_scope.

Lemma mem_In x l : mem x l = true <-> In x l.
Proof.
  unfold mem. rewrite existsb_exists. split.
  - intros [y [H E]]. destruct (text_eqb_spec x y); [ subst; auto | discriminate ].
  - intros H. exists x. split; [ exact H | apply text_eqb_refl ].
Qed.
Lemma mem_false x l : mem x l = false <-> ~ In x l.
Proof. rewrite <- mem_In. destruct (mem x l); intuition congruence. Qed.
Lemma firsts_In x l : In x (firsts l) <-> In x l.
Proof.
  induction l as [ |y l IH ]; cbn; [ tauto |]. rewrite filter_In, IH. destruct (text_eqb_spec y x); [ subst; intuition |].
  cbn. intuition congruence.
Qed.
Lemma firsts_NoDup l : NoDup (firsts l).
Proof.
  induction l as [ |y l IH ]; cbn; constructor.
  - rewrite filter_In, text_eqb_refl. cbn. intuition congruence.
  - apply NoDup_filter, IH.
Qed.
Lemma filter_filter {A} (f g : A -> bool) l : filter f (filter g l) = filter (fun x => g x && f x) l.
Proof. induction l as [ |a l IH ]; cbn; auto. destruct (g a); cbn; [ destruct (f a) |]; rewrite ?IH; auto. Qed.
Lemma firsts_app a b : firsts (a ++ b) = firsts a ++ filter (fun y => negb (mem y a)) (firsts b).
Proof.
  induction a as [ |x a IH ]; cbn.
  - induction (firsts b) as [ |y l IHl ]; cbn; congruence.
  - f_equal. rewrite IH, filter_app. f_equal. rewrite filter_filter. apply filter_ext. intros y.
    rewrite (text_eqb_sym x y). unfold mem. cbn [existsb]. destruct (text_eqb y x); cbn; [ apply andb_false_r | apply andb_true_r ].
Qed.
Lemma firsts_snoc a x : firsts (a ++ [x]) = if mem x a then firsts a else firsts a ++ [x].
Proof. rewrite firsts_app. cbn. destruct (mem x a); cbn; [ apply app_nil_r | reflexivity ]. Qed.
Lemma position_app_in x a b : In x a -> position x (a ++ b) = position x a.
Proof.
  induction a as [ |y a IH ]; cbn; [ tauto |]. intros H. destruct (text_eqb_spec x y); [ reflexivity |].
  f_equal. apply IH. destruct H; [ congruence | assumption ].
Qed.
Lemma position_lt x l : In x l -> position x l < length l.
Proof. induction l as [ |y l IH ]; cbn; [ tauto |]. intros H. destruct (text_eqb_spec x y); [ lia |]. assert (In x l) by (destruct H; [ congruence | auto ]). apply IH in H0. lia. Qed.
Lemma position_nth x l : In x l -> nth_error l (position x l) = Some x.
Proof.
  induction l as [ |y l IH ]; cbn; [ tauto |]. intros H. destruct (text_eqb_spec x y); [ subst; reflexivity |].
  cbn. apply IH. destruct H; [ congruence | assumption ].
Qed.
Lemma position_inj x y l : In x l -> In y l -> position x l = position y l -> x = y.
Proof. intros Hx Hy E. apply position_nth in Hx, Hy. rewrite E in Hx. congruence. Qed.
Lemma position_notin x l : ~ In x l -> position x l = length l.
Proof. induction l as [ |y l IH ]; cbn; intros H; [ reflexivity |]. destruct (text_eqb_spec x y); [ subst; tauto |]. rewrite IH; tauto. Qed.

Lemma name_index_in x l : In x l -> name_index x l = Some (position x l).
Proof.
  induction l as [ |y l IH ]; cbn; [ tauto |]. intros H. destruct (text_eqb_spec x y); [ reflexivity |].
  rewrite IH; [ reflexivity |]. destruct H; [ congruence | assumption ].
Qed.
Lemma name_index_notin x l : ~ In x l -> name_index x l = None.
Proof. induction l as [ |y l IH ]; cbn; intros H; [ reflexivity |]. destruct (text_eqb_spec x y); [ subst; tauto |]. rewrite IH; tauto. Qed.

(** The variables once the names [seen] were met. *)
Definition fresh : variable_value := mk_variable_value 0 int_max vt_real.
Definition seen_vars (seen : list text) : variables := mk_variables (firsts seen) (map (fun _ => fresh) (firsts seen)).
Lemma get_or_assign_seen seen nm :
  get_or_assign_variable (seen_vars seen) nm = (position nm (firsts (seen ++ [nm])), seen_vars (seen ++ [nm])).
Proof.
  unfold get_or_assign_variable, get_variable, seen_vars; cbn [v_names v_values]. rewrite firsts_snoc.
  destruct (mem nm seen) eqn:E.
  - apply mem_In in E. rewrite name_index_in by (apply firsts_In; exact E). reflexivity.
  - apply mem_false in E. rewrite name_index_notin by (rewrite firsts_In; exact E). f_equal.
    + symmetry. assert (H : ~ In nm (firsts seen)) by (rewrite firsts_In; exact E). induction (firsts seen) as [ |y l IH ]; cbn.
      * rewrite text_eqb_refl. reflexivity.
      * cbn in H. destruct (text_eqb_spec nm y); [ subst; tauto |]. rewrite IH; tauto.
    + rewrite map_app. reflexivity.
Qed.
(** The number of a name does not change afterwards. *)
Lemma position_stable seen nm rest : position nm (firsts (seen ++ [nm])) = position nm (firsts (seen ++ nm :: rest)).
Proof.
  replace (seen ++ nm :: rest) with ((seen ++ [nm]) ++ rest) by (rewrite <- app_assoc; reflexivity).
  rewrite (firsts_app (seen ++ [nm]) rest). symmetry. apply position_app_in. apply firsts_In, in_app_iff. right; left; reflexivity.
Qed.

(** Adding a term to a sum, for coefficients of any type. *)
Section Sums.
Context {C : Type} (add : C -> C -> C).
Fixpoint add_to (f : C) (id : nat) (l : list (C * nat)) : list (C * nat) :=
  match l with
  | [] => [(f, id)]
  | (g, j) :: l' => if Nat.eqb j id then (add g f, j) :: l' else (g, j) :: add_to f id l'
  end.
Lemma add_to_in N (g : text -> C) f nm fs : NoDup fs -> incl fs N -> In nm fs ->
  add_to f (position nm N) (map (fun x => (g x, position x N)) fs) =
  map (fun x => (if text_eqb x nm then add (g x) f else g x, position x N)) fs.
Proof.
  induction fs as [ |y fs IH ]; intros Hd Hi Hin; [ destruct Hin |]. inversion Hd; subst. cbn [map add_to].
  destruct (Nat.eqb_spec (position y N) (position nm N)) as [E|E].
  - assert (y = nm) by (apply (position_inj y nm N); [ apply Hi; left; reflexivity | apply Hi; exact Hin | exact E ]). subst y.
    rewrite text_eqb_refl. f_equal. apply map_ext_in. intros x Hx. rewrite text_eqb_neq by (intros ->; auto). reflexivity.
  - assert (y <> nm) by congruence. rewrite text_eqb_neq by assumption. f_equal. apply IH; auto.
    + intros z Hz. apply Hi. right; exact Hz.
    + destruct Hin; [ congruence | assumption ].
Qed.
Lemma add_to_notin N (g : text -> C) f nm fs : incl fs N -> In nm N -> ~ In nm fs ->
  add_to f (position nm N) (map (fun x => (g x, position x N)) fs) = map (fun x => (g x, position x N)) fs ++ [(f, position nm N)].
Proof.
  induction fs as [ |y fs IH ]; intros Hi Hn Hin; [ reflexivity |]. cbn [map add_to app].
  destruct (Nat.eqb_spec (position y N) (position nm N)) as [E|E].
  - exfalso. apply Hin. left. apply (position_inj y nm N); [ apply Hi; left; reflexivity | exact Hn | exact E ].
  - f_equal. apply IH; auto.
    + intros z Hz. apply Hi. right; exact Hz.
    + intros H. apply Hin. right; exact H.
Qed.
(** The sum of the terms of each variable. [val] of a term; [total] of a list of values. *)
Variable val : term -> C.
Variable total : list C -> C.
Hypothesis total_one : forall v, total [v] = v.
Hypothesis total_snoc : forall a l v, total ((a :: l) ++ [v]) = add (total (a :: l)) v.
Definition sums (N : list text) (l : list term) : list (C * nat) :=
  map (fun nm => (total (map val (terms_of nm l)), position nm N)) (firsts (map t_var l)).
Lemma terms_of_snoc nm l t : terms_of nm (l ++ [t]) = terms_of nm l ++ if text_eqb (t_var t) nm then [t] else [].
Proof. unfold terms_of. rewrite filter_app. cbn. destruct (text_eqb (t_var t) nm); reflexivity. Qed.
Lemma terms_of_in nm l : In nm (map t_var l) -> terms_of nm l <> [].
Proof.
  intros H E. apply in_map_iff in H. destruct H as [t [H1 H2]].
  assert (In t (terms_of nm l)) by (apply filter_In; split; [ exact H2 | rewrite H1; apply text_eqb_refl ]). rewrite E in H. destruct H.
Qed.
Lemma terms_of_notin nm l : ~ In nm (map t_var l) -> terms_of nm l = [].
Proof.
  intros H. destruct (terms_of nm l) as [ |t r ] eqn:E; [ reflexivity |]. exfalso. apply H.
  assert (Ht : In t (terms_of nm l)) by (rewrite E; left; reflexivity). apply filter_In in Ht. destruct Ht as [H1 H2].
  destruct (text_eqb_spec (t_var t) nm); [ | discriminate ]. apply in_map_iff. eauto.
Qed.
Lemma add_to_sums N l t : incl (map t_var (l ++ [t])) N ->
  add_to (val t) (position (t_var t) N) (sums N l) = sums N (l ++ [t]).
Proof.
  intros Hi. unfold sums. rewrite map_app. cbn [map]. rewrite firsts_snoc.
  assert (Hi2 : incl (firsts (map t_var l)) N).
  { intros x Hx. apply Hi. rewrite map_app. apply in_app_iff. left. apply firsts_In. exact Hx. }
  assert (Ht : In (t_var t) N) by (apply Hi; rewrite map_app; apply in_app_iff; right; left; reflexivity).
  destruct (mem (t_var t) (map t_var l)) eqn:E.
  - apply mem_In in E. rewrite (add_to_in N (fun nm => total (map val (terms_of nm l))));
      [ | apply firsts_NoDup | exact Hi2 | apply firsts_In; exact E ].
    apply map_ext_in. intros x Hx. f_equal. rewrite terms_of_snoc, text_eqb_sym. destruct (text_eqb_spec (t_var t) x) as [Ex|Ex].
    + subst x. apply firsts_In, terms_of_in in Hx. destruct (terms_of (t_var t) l) as [ |t0 r ]; [ congruence |].
      rewrite map_app. cbn [map]. symmetry. apply total_snoc.
    + rewrite app_nil_r. reflexivity.
  - apply mem_false in E. rewrite (add_to_notin N (fun nm => total (map val (terms_of nm l))));
      [ | exact Hi2 | exact Ht | rewrite firsts_In; exact E ].
    rewrite map_app. cbn [map]. f_equal.
    + apply map_ext_in. intros x Hx. apply (proj1 (firsts_In x _)) in Hx. rewrite terms_of_snoc, text_eqb_neq by (intros Ex; rewrite Ex in E; exact (E Hx)).
      rewrite app_nil_r. reflexivity.
    + rewrite terms_of_snoc, (terms_of_notin _ _ E), text_eqb_refl. cbn [app map]. rewrite total_one. reflexivity.
Qed.
End Sums.

Section Doc.
Context {D : Type} (dn : dops D).
Lemma add_dterm_add_to f id l : add_dterm dn f id l = add_to (d_add dn) f id l.
Proof. induction l as [ |[g j] l IH ]; cbn; [ reflexivity |]. rewrite IH. reflexivity. Qed.
Definition as_pair (e : felem) : Z * nat := (f_factor e, f_var e).
Lemma add_term_add_to f id l : map as_pair (add_term f id l) = add_to Z.add f id (map as_pair l).
Proof.
  induction l as [ |e l IH ]; cbn; [ reflexivity |]. destruct (Nat.eqb_spec (f_var e) id); cbn; [ subst; reflexivity |]. rewrite IH. reflexivity.
Qed.
Lemma as_pair_inj a b : map as_pair a = map as_pair b -> a = b.
Proof.
  revert b. induction a as [ |[f i] a IH ]; intros [ |[g j] b ] H; cbn in H; try discriminate; auto.
  injection H as -> -> H. f_equal. auto.
Qed.
Lemma objective_snoc N l t : incl (map t_var (var_terms l ++ [t])) N ->
  add_dterm dn (term_value dn t) (position (t_var t) N) (objective_of dn N l) = objective_of dn N (l ++ [O_var t]).
Proof.
  intros H. rewrite add_dterm_add_to. unfold objective_of. replace (var_terms (l ++ [O_var t])) with (var_terms l ++ [t])
    by (unfold var_terms; rewrite flat_map_app; reflexivity).
  apply (add_to_sums (d_add dn) (term_value dn) (sum_values dn)); auto.
  intros a r v. cbn. rewrite fold_left_app. reflexivity.
Qed.
Lemma elements_snoc N l t : incl (map t_var (l ++ [t])) N ->
  add_term (int_of dn (term_value dn t)) (position (t_var t) N) (elements_of dn N l) = elements_of dn N (l ++ [t]).
Proof.
  intros H. apply as_pair_inj. rewrite add_term_add_to. unfold elements_of. rewrite !map_map. cbn [as_pair f_factor f_var].
  apply (add_to_sums Z.add (fun t => int_of dn (term_value dn t)) (fun l => fold_left Z.add l 0%Z)); auto.
  intros a r v. cbn. rewrite fold_left_app. reflexivity.
Qed.
End Doc.
