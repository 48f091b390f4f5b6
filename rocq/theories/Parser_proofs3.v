(** The loops of the parser on the tokens of a document. *)
From Coq Require Import Ascii String Lia.
From Verif Require Import Base Problem_model ResultIO_model Chars_spec Lexer_model Lexer_spec Lexer_proofs Parser_model Parser_spec Parser_proofs Parser_proofs2.
Open Scope string_scope.
Open Scope list_scope.
Open Scope nat_scope.

Lemma flat_map_len {A B} (f : A -> list B) l : (forall a, 1 <= length (f a)) -> length l <= length (flat_map f l).
Proof. intros H. induction l as [ |a l IH ]; cbn; [ lia |]. rewrite app_length. specialize (H a). lia. Qed.
Lemma var_terms_names l : map t_var (var_terms l) = flat_map oterm_names l.
Proof. unfold var_terms. induction l as [ |[t|s] l IH ]; cbn; rewrite ?IH; reflexivity. Qed.
Lemma tk_app_hd l r : l <> [] -> tk (l ++ r) 0 = tk l 0.
Proof. destruct l; [ congruence | reflexivity ]. Qed.

Section Loops.
Context {D : Type} (dn : dops D).

Lemma oterm_head t l r : objective_ok dn (t :: l) -> head_ok (oterm_tokens t ++ r).
Proof. destruct t; cbn [objective_ok oterm_tokens]; intros H; [ apply (term_head dn), H | apply (signed_head dn), H ]. Qed.
Lemma objective_loop_ok : forall l done fuel b p N more r,
  objective_ok dn l -> repr b (flat_map oterm_tokens l ++ r) -> is_keyword (tk r 0) = true -> length l <= fuel ->
  rw_vars p = seen_vars (flat_map oterm_names done) -> rw_objective p = objective_of dn N done ->
  N = firsts (flat_map oterm_names (done ++ l) ++ more) ->
  exists b', objective_loop dn fuel b p =
      P_ok (b', with_objective p (objective_of dn N (done ++ l)) (rw_quadratic p)
                  (fold_left (d_add dn) (map (signed_value dn) (constants l)) (rw_value p)) (seen_vars (flat_map oterm_names (done ++ l)))) /\
    repr b' r.
Proof.
  induction l as [ |t l IH ]; intros done fuel b p N more r Hok HR Hk Hf Hv Ho HN.
  { exists b. split; [ | exact HR ]. cbn [flat_map app] in HR. pose proof (repr_first _ _ HR) as E.
    replace (objective_loop dn fuel b p) with (P_ok (b, p)) by (destruct fuel; cbn [objective_loop]; rewrite E, Hk; reflexivity).
    rewrite app_nil_r, <- Ho, <- Hv. destruct p; reflexivity. }
  destruct fuel as [ |fuel ]; [ cbn in Hf; lia |]. cbn [length] in Hf.
  cbn [flat_map] in HR. rewrite <- app_assoc in HR.
  destruct (oterm_head t l (flat_map oterm_tokens l ++ r) Hok) as [x [y [Exy [Hx [Hxk [Hxo Hxe]]]]]].
  cbn [objective_loop]. rewrite (repr_first _ _ HR). replace (tk (oterm_tokens t ++ flat_map oterm_tokens l ++ r) 0) with x by (rewrite Exy; reflexivity).
  rewrite Hxk. unfold objective_step. rewrite (repr_first _ _ HR), (repr_second _ _ HR), (repr_third _ _ HR).
  replace (starts_with_quadratic (tk (oterm_tokens t ++ flat_map oterm_tokens l ++ r) 0) (tk (oterm_tokens t ++ flat_map oterm_tokens l ++ r) 1)) with false.
  2:{ symmetry. rewrite Exy. apply (not_quadratic x y). exact Hx. }
  destruct t as [t|s]; cbn [oterm_tokens] in *.
  - destruct Hok as [Ht Hok]. rewrite (read_term dn t _ Ht). cbn [pbind or_error].
    destruct (pop_app _ _ _ HR (term_len t)) as [b1 [E1 R1]]. rewrite E1. cbn [or_abort pbind].
    unfold append_to_objective. destruct (t_var t) as [ |c nm ] eqn:Ev; [ destruct Ht as [[Hne _] _]; congruence |]. rewrite <- Ev in *.
    rewrite Hv, get_or_assign_seen.
    assert (Es : flat_map oterm_names done ++ [t_var t] = flat_map oterm_names (done ++ [O_var t])) by (rewrite flat_map_app; reflexivity).
    assert (HN2 : N = firsts (flat_map oterm_names done ++ t_var t :: (flat_map oterm_names l ++ more))).
    { rewrite HN. rewrite flat_map_app. cbn [flat_map oterm_names app]. rewrite <- app_assoc. reflexivity. }
    rewrite (position_stable _ _ (flat_map oterm_names l ++ more)), <- HN2, Ho, Es.
    rewrite objective_snoc.
    2:{ rewrite map_app, var_terms_names. cbn [map]. intros z Hz. rewrite HN2, firsts_In. apply in_app_iff. apply in_app_iff in Hz.
        destruct Hz as [Hz|[Hz|[]]]; [ left; exact Hz | right; left; exact Hz ]. }
    destruct (IH (done ++ [O_var t]) fuel b1
       (with_objective p (objective_of dn N (done ++ [O_var t])) (rw_quadratic p) (rw_value p) (seen_vars (flat_map oterm_names (done ++ [O_var t])))) N more r)
      as [b2 [E2 R2]]; auto; [ lia | rewrite <- app_assoc; exact HN |].
    exists b2. split; [ | exact R2 ]. rewrite E2. rewrite <- app_assoc. reflexivity.
  - destruct Hok as [Hs [Hnx Hok]].
    rewrite (read_constant dn s (flat_map oterm_tokens l ++ r) Hs).
    2:{ destruct l as [ |t2 l ]; [ left; exact Hk |]. right.
        destruct t2 as [[[[]|] ? ?]|[[[]|] ?]]; cbn in Hnx; try discriminate; reflexivity. }
    cbn [pbind or_error]. destruct (pop_app _ _ _ HR (signed_len s)) as [b1 [E1 R1]]. rewrite E1. cbn [or_abort pbind append_to_objective].
    assert (Es : flat_map oterm_names done = flat_map oterm_names (done ++ [O_const s])) by (rewrite flat_map_app; cbn; rewrite app_nil_r; reflexivity).
    assert (Eo : objective_of dn N done = objective_of dn N (done ++ [O_const s])).
    { unfold objective_of. replace (var_terms (done ++ [O_const s])) with (var_terms done); [ reflexivity |].
      unfold var_terms. rewrite flat_map_app. cbn. rewrite app_nil_r. reflexivity. }
    destruct (IH (done ++ [O_const s]) fuel b1
       (with_objective p (rw_objective p) (rw_quadratic p) (d_add dn (rw_value p) (signed_value dn s)) (rw_vars p)) N more r)
      as [b2 [E2 R2]]; auto; cbn [rw_vars rw_objective with_objective]; [ lia | rewrite <- Es; exact Hv | rewrite <- Eo; exact Ho | rewrite <- app_assoc; exact HN |].
    exists b2. split; [ | exact R2 ]. rewrite E2. rewrite <- app_assoc. reflexivity.
Qed.

(** ** Constraints *)
Definition cterm_ok (t : term) : Prop := term_ok dn t /\ int_ok dn (term_value dn t).
Lemma element_ok t done seen b N more r :
  cterm_ok t -> repr b (term_tokens t ++ r) -> N = firsts (seen ++ map t_var done ++ t_var t :: more) ->
  exists b', constraint_element dn b (seen_vars (seen ++ map t_var done)) (elements_of dn N done) =
      P_ok (b', seen_vars (seen ++ map t_var (done ++ [t])), elements_of dn N (done ++ [t])) /\ repr b' r.
Proof.
  intros [Ht Hi] HR HN. unfold constraint_element. rewrite (repr_first _ _ HR), (repr_second _ _ HR), (repr_third _ _ HR).
  rewrite (read_term dn t _ Ht). cbn [pbind or_error]. rewrite get_or_assign_seen.
  destruct (pop_app _ _ _ HR (term_len t)) as [b1 [E1 R1]].
  assert (Hz : d_int dn (term_value dn t) = Some (int_of dn (term_value dn t))).
  { unfold int_of. destruct (d_int dn (term_value dn t)) eqn:E; [ reflexivity | destruct (Hi E) ]. }
  rewrite Hz, E1. cbn [or_abort pbind]. exists b1. split; [ | exact R1 ].
  rewrite (position_stable _ _ more).
  replace (firsts ((seen ++ map t_var done) ++ t_var t :: more)) with N by (rewrite HN, <- app_assoc; reflexivity).
  rewrite elements_snoc.
  - rewrite map_app, <- app_assoc. reflexivity.
  - rewrite map_app. cbn [map]. intros z Hz0. rewrite HN, firsts_In. apply in_app_iff in Hz0. apply in_app_iff. right. apply in_app_iff.
    destruct Hz0 as [Hz0|[Hz0|[]]]; [ left; exact Hz0 | right; left; exact Hz0 ].
Qed.
Lemma elements_loop_ok : forall l done seen fuel b N more r,
  Forall cterm_ok l -> repr b (flat_map term_tokens l ++ r) -> starts_with_operator (tk r 0) = true -> length l <= fuel ->
  N = firsts (seen ++ map t_var (done ++ l) ++ more) ->
  exists b', elements_loop dn fuel b (seen_vars (seen ++ map t_var done)) (elements_of dn N done) =
      P_ok (b', seen_vars (seen ++ map t_var (done ++ l)), elements_of dn N (done ++ l)) /\ repr b' r.
Proof.
  induction l as [ |t l IH ]; intros done seen fuel b N more r Hok HR Hop Hf HN.
  { exists b. split; [ | exact HR ]. cbn [flat_map app] in HR. pose proof (repr_first _ _ HR) as E. rewrite app_nil_r.
    assert (Ho : starts_with_operator (first b) = true) by (rewrite E; exact Hop).
    destruct fuel; cbn [elements_loop]; destruct (first b) eqn:Ef; try reflexivity; rewrite Ho; reflexivity. }
  inversion Hok; subst x l0. destruct fuel as [ |fuel ]; [ cbn in Hf; lia |]. cbn [length] in Hf.
  cbn [flat_map] in HR. rewrite <- app_assoc in HR.
  destruct (term_head dn t (flat_map term_tokens l ++ r) (proj1 H1)) as [x [y [Exy [Hx [Hxk [Hxo Hxe]]]]]].
  cbn [elements_loop]. assert (Ef : first b = x) by (rewrite (repr_first _ _ HR), Exy; reflexivity).
  rewrite Ef, Hxo. destruct x as [ |c x ]; [ congruence |].
  destruct (element_ok t done seen b N (map t_var l ++ more) _ H1 HR) as [b1 [E1 R1]].
  { rewrite HN, map_app. cbn [map]. rewrite <- !app_assoc. reflexivity. }
  rewrite E1. cbn [pbind].
  destruct (IH (done ++ [t]) seen fuel b1 N more r) as [b2 [E2 R2]]; auto; [ lia | rewrite <- app_assoc; exact HN |].
  exists b2. split; [ | exact R2 ]. rewrite E2, <- app_assoc. reflexivity.
Qed.

Lemma op_head op sp r : starts_with_operator (tk (op_tokens op sp ++ r) 0) = true.
Proof. destruct op, sp; reflexivity. Qed.
Lemma no_label x y : (plain x \/ ((x = str "+" \/ x = str "-") /\ exists z w, y = z :: w /\ plain z)) -> tk y 0 <> str ":" ->
  starts_with_name x && text_eqb (tk y 0) (str ":") = false.
Proof. intros _ H. rewrite (eqb_str (tk y 0)) by exact H. apply andb_false_r. Qed.
Lemma after_term t l op sp r : term_ok dn t -> Forall cterm_ok l ->
  tk (term_tokens t ++ flat_map term_tokens l ++ op_tokens op sp ++ r) 1 <> str ":".
Proof.
  intros [Hn Hm] Hl. destruct t as [s m nm]; cbn [t_sign t_num t_var] in *.
  pose proof (plain_facts _ (name_plain dn _ Hn)) as Fn.
  destruct s as [[]|], m as [n|]; unfold term_tokens, tk; cbn [t_sign t_num t_var sign_tokens num_tokens app nth]; try apply Fn;
    try (pose proof (plain_facts _ (num_plain dn _ Hm)) as F; apply F).
  destruct l as [ |t l ]; cbn [flat_map app].
  - destruct op, sp; discriminate.
  - inversion Hl; subst. rewrite <- app_assoc. destruct (term_head dn t (flat_map term_tokens l ++ op_tokens op sp ++ r) (proj1 H1)) as [x [y [E [Hx _]]]].
    change (nth 0 (term_tokens t ++ flat_map term_tokens l ++ op_tokens op sp ++ r) [] <> str ":"). rewrite E. cbn [nth]. destruct Hx as [Hx|[[->| ->] _]]; [ apply (plain_facts _ Hx) | discriminate | discriminate ].
Qed.

Lemma constraint_step_ok k id fuel b p seen N more r :
  cst_ok dn k -> repr b (cst_tokens k ++ r) -> length (k_terms k) <= fuel -> rw_vars p = seen_vars seen ->
  N = firsts (seen ++ map t_var (cst_terms k) ++ more) ->
  exists b', constraint_step dn fuel id b p =
      P_ok (b', add_constraint (k_op k) (constraint_of dn N id k) (with_vars p (seen_vars (seen ++ map t_var (cst_terms k))))) /\ repr b' r.
Proof.
  intros [Hlab [Hts [Hv Hvi]]] HR Hf Hvars HN. unfold constraint_step. unfold cst_tokens in HR. rewrite <- !app_assoc in HR.
  inversion Hts as [ |? ? Ht Hl ]; subst x l.
  set (T := term_tokens (k_first k) ++ flat_map term_tokens (k_terms k) ++ op_tokens (k_op k) (k_spell k) ++ signed_tokens (k_value k) ++ r) in *.
  assert (Hlabel : exists b1, read_label b = P_ok (match k_label k with Some l => l | None => [] end, b1) /\ repr b1 T).
  { unfold read_label. rewrite (repr_first _ _ HR), (repr_second _ _ HR). destruct (k_label k) as [l|].
    - cbn [label_tokens app tk nth] in *. destruct Hlab as [Hl1 Hl2]. chars. unfold tk. cbn [nth]. rewrite Hl1. change (text_eqb (str ":") (str ":")) with true. cbn [andb].
      change ((l :: str ":" :: T)) with ([l; str ":"] ++ T) in HR.
      destruct (pop_app _ _ _ HR ltac:(cbn; lia)) as [b1 [E1 R1]]. cbn [length] in E1. rewrite E1. cbn [or_abort pbind]. eauto.
    - cbn [label_tokens app] in *. exists b. split; [ | exact HR ].
      rewrite (eqb_str (tk T 1)), andb_false_r; [ reflexivity |]. apply (after_term (k_first k)); [ apply Ht | exact Hl ]. }
  destruct Hlabel as [b1 [E1 R1]]. rewrite E1. cbn [pbind]. rewrite Hvars.
  destruct (element_ok (k_first k) [] seen b1 N (map t_var (k_terms k) ++ more) _ Ht R1) as [b2 [E2 R2]].
  { rewrite HN. reflexivity. }
  cbn [map] in E2. rewrite app_nil_r in E2. change (elements_of dn N []) with (@nil felem) in E2. rewrite E2. cbn [pbind].
  destruct (elements_loop_ok (k_terms k) ([] ++ [k_first k]) seen fuel b2 N more _ Hl R2 (op_head _ _ _) Hf) as [b3 [E3 R3]].
  { rewrite HN. reflexivity. }
  rewrite E3. cbn [pbind]. rewrite (repr_first _ _ R3), (repr_second _ _ R3), (read_op dn _ _ _ _ Hv). cbn [or_error pbind].
  destruct (pop_app _ _ _ R3 (op_len _ _)) as [b4 [E4 R4]]. rewrite E4. cbn [or_abort pbind].
  rewrite (repr_first _ _ R4), (repr_second _ _ R4), (read_signed dn _ _ Hv). cbn [pbind].
  assert (Hz : d_int dn (signed_value dn (k_value k)) = Some (int_of dn (signed_value dn (k_value k)))).
  { unfold int_of. destruct (d_int dn (signed_value dn (k_value k))) eqn:E; [ reflexivity | destruct (Hvi E) ]. }
  rewrite Hz. cbn [or_abort pbind]. destruct (pop_app _ _ _ R4 (signed_len _)) as [b5 [E5 R5]]. rewrite E5. cbn [or_abort pbind].
  exists b5. split; [ reflexivity | exact R5 ].
Qed.

Definition numbered (op : operator_type) (N : list text) (id : nat) (l : list cst) : list constraint :=
  map (fun x => constraint_of dn N (fst x) (snd x)) (filter (fun x => operator_eqb (k_op (snd x)) op) (combine (seq id (length l)) l)).
Definition cst_names (k : cst) : list text := map t_var (cst_terms k).
Definition with_constraints (p : raw_problem (D := D)) (e g l : list constraint) (vs : variables) : raw_problem :=
  mk_raw (rw_type p) (rw_objective p) (rw_quadratic p) (rw_value p) (rw_equal p ++ e) (rw_greater p ++ g) (rw_less p ++ l) vs.
Lemma cst_head k r : cst_ok dn k -> exists x y, cst_tokens k ++ r = x :: y /\ is_keyword x = false /\ x <> [].
Proof.
  intros [Hlab [Hts _]]. unfold cst_tokens. destruct (k_label k) as [l|]; cbn [label_tokens app].
  - eexists _, _. split; [ reflexivity |]. split; [ apply Hlab |]. destruct Hlab as [H _]. destruct l; [ discriminate | discriminate ].
  - inversion Hts as [ |? ? Ht Hl ]; subst. rewrite <- app_assoc.
    destruct (term_head dn (k_first k) ((flat_map term_tokens (k_terms k) ++ op_tokens (k_op k) (k_spell k) ++ signed_tokens (k_value k)) ++ r) (proj1 Ht))
      as [x [y [E [_ [Hk [_ He]]]]]]. eauto.
Qed.
Lemma cst_len k : S (length (k_terms k)) <= length (cst_tokens k).
Proof.
  unfold cst_tokens. rewrite !app_length. pose proof (flat_map_len term_tokens (k_terms k) (fun t => proj1 (term_len t))).
  pose proof (term_len (k_first k)). lia.
Qed.
Lemma constraints_loop_ok : forall l id fuel b p seen N more r,
  Forall (cst_ok dn) l -> repr b (flat_map cst_tokens l ++ r) -> is_keyword (tk r 0) = true -> length (flat_map cst_tokens l) <= fuel ->
  rw_vars p = seen_vars seen -> N = firsts (seen ++ flat_map cst_names l ++ more) ->
  exists b', constraints_loop dn fuel id b p =
      P_ok (b', with_constraints p (numbered op_equal N id l) (numbered op_greater N id l) (numbered op_less N id l)
                  (seen_vars (seen ++ flat_map cst_names l))) /\ repr b' r.
Proof.
  induction l as [ |k l IH ]; intros id fuel b p seen N more r Hok HR Hk Hf Hv HN.
  { exists b. split; [ | exact HR ]. cbn [flat_map app] in HR. pose proof (repr_first _ _ HR) as E.
    replace (constraints_loop dn fuel id b p) with (P_ok (b, p)).
    2:{ assert (Hk' : is_keyword (first b) = true) by (rewrite E; exact Hk).
        destruct fuel; cbn [constraints_loop]; destruct (first b); try reflexivity; rewrite Hk'; reflexivity. }
    cbn [flat_map]. rewrite app_nil_r, <- Hv. unfold with_constraints. cbn. rewrite !app_nil_r. destruct p; reflexivity. }
  inversion Hok; subst x l0. cbn [flat_map] in HR, Hf. rewrite app_length in Hf. pose proof (cst_len k).
  destruct fuel as [ |fuel ]; [ lia |]. rewrite <- app_assoc in HR.
  destruct (cst_head k (flat_map cst_tokens l ++ r) H1) as [x [y [Exy [Hxk Hxe]]]].
  cbn [constraints_loop]. assert (Ef : first b = x) by (rewrite (repr_first _ _ HR), Exy; reflexivity).
  rewrite Ef, Hxk. destruct x as [ |c x ]; [ congruence |].
  destruct (constraint_step_ok k id fuel b p seen N (flat_map cst_names l ++ more) _ H1 HR) as [b1 [E1 R1]]; auto; [ lia | |].
  { rewrite HN. cbn [flat_map]. rewrite <- !app_assoc. reflexivity. }
  rewrite E1. cbn [pbind].
  destruct (IH (S id) fuel b1 (add_constraint (k_op k) (constraint_of dn N id k) (with_vars p (seen_vars (seen ++ map t_var (cst_terms k)))))
     (seen ++ cst_names k) N more r) as [b2 [E2 R2]]; auto.
  { lia. }
  { destruct (k_op k); reflexivity. }
  { rewrite HN. cbn [flat_map]. rewrite <- !app_assoc. reflexivity. }
  exists b2. split; [ | exact R2 ]. rewrite E2. cbn [flat_map]. rewrite app_assoc.
  unfold with_constraints, numbered. cbn [length seq combine filter snd]. destruct (k_op k); cbn [operator_eqb map fst snd add_constraint rw_type rw_objective rw_quadratic rw_value rw_equal rw_greater rw_less with_vars];
    rewrite <- ?app_assoc; reflexivity.
Qed.
End Loops.
