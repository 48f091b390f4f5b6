(** The quadratic part of a written problem (C108). *)
From Coq Require Import Ascii String Lia.
From Verif Require Import Base Problem_model ResultIO_model Chars_spec Lexer_model Lexer_spec Parser_model Parser_spec Writer_model Writer_spec Writer_proofs.
Open Scope string_scope.
Open Scope list_scope.
Open Scope nat_scope.

Section Quadratic.
Context {D : Type} (dn : dops D).
Local Notation raw_problem := (raw_problem (D := D)).

Lemma qelements_terms names : forall l t,
  (forall f a b, In (f, a, b) l -> d_half dn (d_double dn f) = f) ->
  write_qelements dn names l = Some t -> exists ts, Forall2 (lp_term dn names) l ts /\ t = concat ts.
Proof.
  induction l as [ |((f, a), b) l IH ]; intros t Hh H; cbn [write_qelements] in H.
  - injection H as <-. exists []. split; [ constructor | reflexivity ].
  - destruct (nth_error names a) as [ na |] eqn:Ea; [ cbn in H | discriminate ].
    destruct (Nat.eqb_spec a b) as [ E | E ]; cbn in H.
    + destruct (write_qelements dn names l) as [ t' |] eqn:El; [ cbn in H | discriminate ]. injection H as <-.
      destruct (IH t' (fun f' a' b' Hi => Hh f' a' b' (or_intror Hi)) eq_refl) as [ ts [ Hts -> ] ]. eexists (_ :: ts). split.
      * constructor; [| exact Hts ]. exists (d_double dn f), na, na. split; [ apply (Hh f a b); left; reflexivity |].
        split; [ exact Ea |]. split; [ rewrite <- E; exact Ea |]. left. split; [ exact E | reflexivity ].
      * cbn [concat]. unfold sp. cbn. rewrite <- !app_assoc. cbn. rewrite <- !app_assoc. reflexivity.
    + destruct (nth_error names b) as [ nb |] eqn:Eb; [ cbn in H | discriminate ].
      destruct (write_qelements dn names l) as [ t' |] eqn:El; [ cbn in H | discriminate ]. injection H as <-.
      destruct (IH t' (fun f' a' b' Hi => Hh f' a' b' (or_intror Hi)) eq_refl) as [ ts [ Hts -> ] ]. eexists (_ :: ts). split.
      * constructor; [| exact Hts ]. exists (d_double dn f), na, nb. split; [ apply (Hh f a b); left; reflexivity |].
        split; [ exact Ea |]. split; [ exact Eb |]. right. split; [ exact E | reflexivity ].
      * cbn [concat]. unfold sp. cbn. rewrite <- !app_assoc. cbn. rewrite <- !app_assoc. reflexivity.
Qed.

(** no bracket in the rest *)
Lemma nb_app a b : no_bracket a -> no_bracket b -> no_bracket (a ++ b).
Proof. intros. apply Forall_app. split; assumption. Qed.
Lemma nb_cons c b : Ascii.eqb c "[" = false -> Ascii.eqb c "]" = false -> no_bracket b -> no_bracket (c :: b).
Proof. intros H1 H2 H. constructor; [| exact H ]. intros [ -> | -> ]; discriminate. Qed.
Lemma nb_dec t : forallb (fun c => negb (Ascii.eqb c "[" || Ascii.eqb c "]")) t = true -> no_bracket t.
Proof.
  intros H. apply Forall_forall. intros c Hc. rewrite forallb_forall in H. specialize (H c Hc). intros [ -> | -> ]; discriminate.
Qed.
Lemma nb_digit z : (0 <= z < 10)%Z -> no_bracket [digit_char z].
Proof.
  intros H. apply nb_dec.
  assert (E : (z = 0 \/ z = 1 \/ z = 2 \/ z = 3 \/ z = 4 \/ z = 5 \/ z = 6 \/ z = 7 \/ z = 8 \/ z = 9)%Z) by lia.
  repeat (destruct E as [ -> | E ]; [ reflexivity |]). subst z. reflexivity.
Qed.
Lemma nb_digits : forall fuel z, (0 <= z)%Z -> no_bracket (show_digits fuel z).
Proof.
  induction fuel as [ |fuel IH ]; intros z Hz; cbn [show_digits]; [ constructor |]. destruct (z <? 10)%Z eqn:E.
  - apply nb_digit. apply Z.ltb_lt in E. lia.
  - apply nb_app; [ apply IH; apply Z.div_pos; lia |]. apply nb_digit. apply Z.mod_pos_bound. lia.
Qed.
Lemma nb_int z : no_bracket (show_int z).
Proof.
  unfold show_int. destruct (z <? 0)%Z eqn:E.
  - apply Z.ltb_lt in E. apply nb_cons; [ reflexivity | reflexivity | apply nb_digits; lia ].
  - apply Z.ltb_ge in E. apply nb_digits. exact E.
Qed.
Lemma nb_element neg pos shown nm : no_bracket shown -> no_bracket nm -> no_bracket (write_element neg pos shown nm).
Proof.
  intros Hs Hn. unfold write_element, sp. apply nb_app; [| apply nb_dec; reflexivity ].
  destruct neg; [| destruct pos; [| constructor ] ].
  - apply nb_cons; [ reflexivity | reflexivity |]. apply nb_app; [ exact Hs |]. apply nb_cons; [ reflexivity | reflexivity | exact Hn ].
  - apply nb_app; [ apply nb_dec; reflexivity |]. apply nb_app; [ exact Hs |]. apply nb_cons; [ reflexivity | reflexivity | exact Hn ].
Qed.
Lemma nb_name names neg pos i nm : Forall no_bracket names -> element_name neg pos names i = Some nm -> no_bracket nm.
Proof.
  intros Hn H. unfold element_name in H. destruct (neg || pos)%bool; [| injection H as <-; constructor ].
  apply nth_error_In in H. rewrite Forall_forall in Hn. apply Hn, H.
Qed.
Lemma nb_delements names : Forall no_bracket names -> (forall f, no_bracket (d_show dn f)) ->
  forall l t, write_delements dn names l = Some t -> no_bracket t.
Proof.
  intros Hn Hs. induction l as [ |(f, i) l IH ]; intros t H; cbn [write_delements] in H.
  - injection H as <-. constructor.
  - destruct (element_name _ _ names i) as [ nm |] eqn:En; [ cbn in H | discriminate ].
    destruct (write_delements dn names l) as [ t' |]; [ cbn in H | discriminate ]. injection H as <-.
    apply nb_app; [| apply IH; reflexivity ]. apply nb_element; [ apply Hs | apply (nb_name _ _ _ _ _ Hn En) ].
Qed.
Lemma nb_elements names : Forall no_bracket names -> forall l t, write_elements names l = Some t -> no_bracket t.
Proof.
  intros Hn. induction l as [ |e l IH ]; intros t H; cbn [write_elements] in H.
  - injection H as <-. constructor.
  - destruct (element_name _ _ names (f_var e)) as [ nm |] eqn:En; [ cbn in H | discriminate ].
    destruct (write_elements names l) as [ t' |]; [ cbn in H | discriminate ]. injection H as <-.
    apply nb_app; [| apply IH; reflexivity ]. apply nb_element; [ apply nb_int | apply (nb_name _ _ _ _ _ Hn En) ].
Qed.
Lemma nb_constraint names sep c t : Forall no_bracket names -> no_bracket (str sep) -> no_bracket (c_label c) ->
  write_constraint names sep c = Some t -> no_bracket t.
Proof.
  intros Hn Hsep Hl H. unfold write_constraint in H. destruct (write_elements names (c_elements c)) as [ t' |] eqn:E; [ cbn in H | discriminate ].
  injection H as <-. apply nb_app.
  - destruct (c_label c) as [ |x l ]; [ constructor |]. change (no_bracket ((x :: l) ++ str ": ")). apply nb_app; [ exact Hl | apply nb_dec; reflexivity ].
  - apply nb_app; [ apply (nb_elements _ Hn _ _ E) |]. apply nb_app; [ exact Hsep |]. apply nb_app; [ apply nb_int | apply nb_dec; reflexivity ].
Qed.
Lemma nb_all {A} (f : A -> option text) : forall l t, (forall a u, In a l -> f a = Some u -> no_bracket u) -> write_all f l = Some t -> no_bracket t.
Proof.
  induction l as [ |a l IH ]; intros t Hf H; cbn [write_all] in H; [ injection H as <-; constructor |].
  destruct (f a) as [ u |] eqn:E; [ cbn in H | discriminate ]. destruct (write_all f l) as [ t' |]; [ cbn in H | discriminate ].
  injection H as <-. apply nb_app; [ apply (Hf a u); [ left; reflexivity | exact E ] |].
  apply IH; [ intros b v Hb; apply Hf; right; exact Hb | reflexivity ].
Qed.
Lemma nb_constraints p t : bracketless dn p -> write_constraints p = Some t -> no_bracket t.
Proof.
  intros [ _ [ Hn Hl ] ] H. unfold write_constraints in H.
  destruct (write_all _ (rw_equal p)) as [ e |] eqn:E1; [ cbn in H | discriminate ].
  destruct (write_all _ (rw_greater p)) as [ g |] eqn:E2; [ cbn in H | discriminate ].
  destruct (write_all _ (rw_less p)) as [ l |] eqn:E3; [ cbn in H | discriminate ].
  injection H as <-. repeat apply nb_app.
  - apply (nb_all _ _ _) in E1; [ exact E1 |]. intros c u Hc. apply nb_constraint; [ exact Hn | apply nb_dec; reflexivity |].
    apply Hl. apply in_or_app. left. exact Hc.
  - apply (nb_all _ _ _) in E2; [ exact E2 |]. intros c u Hc. apply nb_constraint; [ exact Hn | apply nb_dec; reflexivity |].
    apply Hl. apply in_or_app. right. apply in_or_app. left. exact Hc.
  - apply (nb_all _ _ _) in E3; [ exact E3 |]. intros c u Hc. apply nb_constraint; [ exact Hn | apply nb_dec; reflexivity |].
    apply Hl. apply in_or_app. right. apply in_or_app. right. exact Hc.
Qed.
Lemma nb_bounds : forall vs, (forall x, In x vs -> no_bracket (fst x)) -> no_bracket (flat_map write_bound vs).
Proof.
  induction vs as [ |(nm, v) vs IH ]; intros H; cbn [flat_map]; [ constructor |].
  apply nb_app; [| apply IH; intros x Hx; apply H; right; exact Hx ].
  assert (Hn : no_bracket nm) by (apply (H (nm, v)); left; reflexivity).
  unfold write_bound. apply nb_app.
  - destruct (v_min v =? 0)%Z; [ constructor |]. repeat apply nb_app; [ exact Hn | apply nb_dec; reflexivity | apply nb_int | apply nb_dec; reflexivity ].
  - destruct (v_max v =? int_max)%Z; [ constructor |]. repeat apply nb_app; [ exact Hn | apply nb_dec; reflexivity | apply nb_int | apply nb_dec; reflexivity ].
Qed.
Lemma nb_section (b : bool) s ty vs : no_bracket (str s) -> (forall x, In x vs -> no_bracket (fst x)) ->
  no_bracket (if b then line s ++ write_names ty vs else []).
Proof.
  intros Hs H. destruct b; [| constructor ]. apply nb_app.
  - unfold line. apply nb_app; [ exact Hs | apply nb_dec; reflexivity ].
  - unfold write_names. induction vs as [ |x vs IH ]; cbn [flat_map]; [ constructor |].
    apply nb_app; [| apply IH; intros y Hy; apply H; right; exact Hy ].
    destruct (type_eqb _ ty); [| constructor ]. unfold sp. apply nb_cons; [ reflexivity | reflexivity |].
    apply nb_app; [ apply H; left; reflexivity | apply nb_dec; reflexivity ].
Qed.

Lemma quadratic_written p t :
  (forall f a b, In (f, a, b) (rw_quadratic p) -> d_half dn (d_double dn f) = f) ->
  v_names (rw_vars p) <> [] -> rw_quadratic p <> [] -> write_problem dn p = Some t ->
  exists pre ts post, t = pre ++ str "+ [" ++ concat ts ++ str " ] /2" ++ post /\
    Forall2 (lp_term dn (v_names (rw_vars p))) (rw_quadratic p) ts /\
    (bracketless dn p -> no_bracket pre /\ no_bracket post).
Proof.
  intros Hh Hne Hq H. rewrite write_problem_eq in H by exact Hne. cbv zeta in H.
  destruct (write_delements dn _ (rw_objective p)) as [ o |] eqn:Eo; [ cbn [bind] in H | discriminate ].
  unfold write_quadratic in H. destruct (rw_quadratic p) as [ |e l ] eqn:El; [ congruence |].
  destruct (write_qelements dn _ (e :: l)) as [ q |] eqn:Eq; [ cbn [bind] in H | discriminate ].
  destruct (write_constraints p) as [ c |] eqn:Ec; [ cbn [bind] in H | discriminate ].
  destruct (qelements_terms _ _ _ Hh Eq) as [ ts [ Hts -> ] ].
  match type of H with Some (?a ++ ?b ++ o ++ ?q ++ ?post) = _ => exists (a ++ b ++ o), ts, post end.
  split; [ injection H as <-; rewrite <- !app_assoc; reflexivity |]. split; [ exact Hts |].
  intros B. pose proof B as [ Bs [ Bn Bl ] ].
  assert (Bv : forall x, In x (combine (v_names (rw_vars p)) (v_values (rw_vars p))) -> no_bracket (fst x)).
  { intros (nm, v) Hx. apply in_combine_l in Hx. rewrite Forall_forall in Bn. apply Bn, Hx. }
  split.
  - apply nb_app; [ destruct (rw_type p); apply nb_dec; reflexivity |]. apply nb_app; [ apply nb_dec; reflexivity | apply (nb_delements _ Bn Bs _ _ Eo) ].
  - apply nb_app; [ destruct (d_gt dn (d_zero dn) (rw_value p)); [ apply Bs | destruct (d_gt dn (rw_value p) (d_zero dn)); [ apply nb_app; [ apply nb_dec; reflexivity | apply Bs ] | constructor ] ] |].
    apply nb_app; [ apply nb_dec; reflexivity |]. apply nb_app; [ apply nb_dec; reflexivity |].
    apply nb_app; [ apply (nb_constraints _ _ B Ec) |]. apply nb_app; [ apply nb_dec; reflexivity |].
    apply nb_app; [ apply nb_bounds, Bv |]. apply nb_app; [ apply nb_section; [ apply nb_dec; reflexivity | exact Bv ] |].
    apply nb_app; [ apply nb_section; [ apply nb_dec; reflexivity | exact Bv ] |]. apply nb_dec; reflexivity.
Qed.
Lemma no_quadratic_written p t : rw_quadratic p = [] -> bracketless dn p -> write_problem dn p = Some t -> no_bracket t.
Proof.
  intros Hq B H. pose proof B as [ Bs [ Bn Bl ] ]. destruct (v_names (rw_vars p)) as [ |n0 ns ] eqn:En.
  { unfold write_problem in H. rewrite En in H. injection H as <-. constructor. }
  rewrite write_problem_eq in H by (rewrite En; discriminate). cbv zeta in H. rewrite <- En in Bn. clear En.
  destruct (write_delements dn _ (rw_objective p)) as [ o |] eqn:Eo; [ cbn [bind] in H | discriminate ].
  rewrite Hq in H. cbn [write_quadratic bind] in H.
  destruct (write_constraints p) as [ c |] eqn:Ec; [ cbn [bind] in H | discriminate ].
  assert (Bv : forall x, In x (combine (v_names (rw_vars p)) (v_values (rw_vars p))) -> no_bracket (fst x)).
  { intros (nm, v) Hx. apply in_combine_l in Hx. rewrite Forall_forall in Bn. apply Bn, Hx. }
  match type of H with Some ?x = _ => assert (E : t = x) by congruence end. clear H. subst t.
  apply nb_app; [ destruct (rw_type p); apply nb_dec; reflexivity |]. apply nb_app; [ apply nb_dec; reflexivity |].
  apply nb_app; [ apply (nb_delements _ Bn Bs _ _ Eo) |]. apply nb_app; [ constructor |].
  apply nb_app; [ destruct (d_gt dn (d_zero dn) (rw_value p)); [ apply Bs | destruct (d_gt dn (rw_value p) (d_zero dn)); [ apply nb_app; [ apply nb_dec; reflexivity | apply Bs ] | constructor ] ] |].
  apply nb_app; [ apply nb_dec; reflexivity |]. apply nb_app; [ apply nb_dec; reflexivity |].
  apply nb_app; [ apply (nb_constraints _ _ B Ec) |]. apply nb_app; [ apply nb_dec; reflexivity |].
  apply nb_app; [ apply nb_bounds, Bv |]. apply nb_app; [ apply nb_section; [ apply nb_dec; reflexivity | exact Bv ] |].
  apply nb_app; [ apply nb_section; [ apply nb_dec; reflexivity | exact Bv ] |]. apply nb_dec; reflexivity.
Qed.

(** a well formed problem is written *)
Lemma element_name_some neg pos names i : i < length names -> exists nm, element_name neg pos names i = Some nm.
Proof.
  intros H. unfold element_name. destruct (neg || pos)%bool; [| eexists; reflexivity ].
  destruct (nth_error names i) eqn:E; [ eexists; reflexivity | apply nth_error_None in E; lia ].
Qed.
Lemma delements_some names : forall l, Forall (fun i => i < length names) (map snd l) -> exists t, write_delements dn names l = Some t.
Proof.
  induction l as [ |(f, i) l IH ]; intros H; cbn [write_delements]; [ eexists; reflexivity |]. inversion H; subst. cbn [snd] in *.
  destruct (element_name_some (d_gt dn (d_zero dn) f) (d_gt dn f (d_zero dn)) names i ltac:(assumption)) as [ nm -> ].
  destruct (IH ltac:(assumption)) as [ t -> ]. eexists; reflexivity.
Qed.
Lemma elements_some names : forall l, Forall (fun i => i < length names) (map f_var l) -> exists t, write_elements names l = Some t.
Proof.
  induction l as [ |e l IH ]; intros H; cbn [write_elements]; [ eexists; reflexivity |]. inversion H; subst.
  destruct (element_name_some (f_factor e <? 0)%Z (0 <? f_factor e)%Z names (f_var e) ltac:(assumption)) as [ nm -> ].
  destruct (IH ltac:(assumption)) as [ t -> ]. eexists; reflexivity.
Qed.
Lemma qelements_some names : forall l, Forall (fun x => fst x < length names /\ snd x < length names) (map pair_of l) -> exists t, write_qelements dn names l = Some t.
Proof.
  induction l as [ |((f, a), b) l IH ]; intros H; cbn [write_qelements]; [ eexists; reflexivity |]. cbn [map pair_of] in H. inversion H as [ |x y [ Ha Hb ] Hl ]; subst. cbn [fst snd] in *.
  destruct (nth_error names a) eqn:Ea; [| apply nth_error_None in Ea; lia ].
  destruct (nth_error names b) eqn:Eb; [| apply nth_error_None in Eb; lia ].
  destruct (IH Hl) as [ u -> ]. cbn. destruct (a =? b); eexists; reflexivity.
Qed.
Lemma all_some {A} (f : A -> option text) : forall l, (forall a, In a l -> exists t, f a = Some t) -> exists t, write_all f l = Some t.
Proof.
  induction l as [ |a l IH ]; intros H; cbn [write_all]; [ eexists; reflexivity |].
  destruct (H a (or_introl eq_refl)) as [ t -> ]. destruct (IH (fun b Hb => H b (or_intror Hb))) as [ u -> ]. eexists; reflexivity.
Qed.
Lemma constraint_some names sep c : Forall (fun i => i < length names) (map f_var (c_elements c)) -> exists t, write_constraint names sep c = Some t.
Proof. intros H. unfold write_constraint. destruct (elements_some _ _ H) as [ t -> ]. eexists; reflexivity. Qed.
Lemma well_formed_written p : well_formed p -> exists t, write_problem dn p = Some t.
Proof.
  intros W. destruct (v_names (rw_vars p)) as [ |n0 ns ] eqn:En; [ unfold write_problem; rewrite En; eexists; reflexivity |].
  rewrite write_problem_eq by (rewrite En; discriminate). cbv zeta. clear En.
  destruct (delements_some (v_names (rw_vars p)) (rw_objective p)) as [ o -> ].
  { destruct (wf_objective _ W) as [ H1 H2 ]. first [ exact H2 | exact H1 ]. }
  assert (Q : exists q, write_quadratic dn (v_names (rw_vars p)) (rw_quadratic p) = Some q).
  { destruct (qelements_some (v_names (rw_vars p)) (rw_quadratic p) (proj2 (wf_quadratic _ W))) as [ q Hq ]. unfold write_quadratic.
    destruct (rw_quadratic p); [ eexists; reflexivity |]. rewrite Hq. eexists; reflexivity. }
  destruct Q as [ q -> ].
  assert (C : forall sep c, In c (rw_equal p ++ rw_greater p ++ rw_less p) -> exists t, write_constraint (v_names (rw_vars p)) sep c = Some t).
  { intros sep c Hc. apply constraint_some. destruct (wf_constraints _ W c Hc) as [ _ [ H1 H2 ] ]. first [ exact H2 | exact H1 ]. }
  unfold write_constraints.
  destruct (all_some (write_constraint (v_names (rw_vars p)) " = ") (rw_equal p)) as [ e -> ]; [ intros c Hc; apply C; apply in_or_app; left; exact Hc |].
  destruct (all_some (write_constraint (v_names (rw_vars p)) " >= ") (rw_greater p)) as [ g -> ]; [ intros c Hc; apply C; apply in_or_app; right; apply in_or_app; left; exact Hc |].
  destruct (all_some (write_constraint (v_names (rw_vars p)) " <= ") (rw_less p)) as [ l -> ]; [ intros c Hc; apply C; apply in_or_app; right; apply in_or_app; right; exact Hc |].
  eexists; reflexivity.
Qed.
End Quadratic.
