(** Every text: the parser ends. *)
From Coq Require Import Ascii String Lia.
From Verif Require Import Base Problem_model ResultIO_model Chars_spec Lexer_model Lexer_spec Lexer_proofs Parser_model Parser_spec Parser_proofs Parser_proofs2 Parser_proofs4 Parser_proofs5.
Open Scope string_scope.
Open Scope list_scope.
Open Scope nat_scope.

Definition suffix (l l' : list text) : Prop := exists a, l' = a ++ l.
Lemma suffix_refl l : suffix l l. Proof. exists []. reflexivity. Qed.
Lemma suffix_trans a b c : suffix a b -> suffix b c -> suffix a c.
Proof. intros [x ->] [y ->]. exists (y ++ x). rewrite app_assoc. reflexivity. Qed.
Lemma suffix_len a b : suffix a b -> length a <= length b.
Proof. intros [x ->]. rewrite app_length. lia. Qed.
Lemma suffix_skipn n l : suffix (skipn n l) l.
Proof. exists (firstn n l). symmetry. apply firstn_skipn. Qed.
Definition ends_end (l : list text) : Prop := l = [] \/ are_equal (last l []) (str "end") = true.
Lemma ends_end_suffix a b : suffix a b -> ends_end b -> ends_end a.
Proof.
  intros [x ->] H. destruct a as [ |y a ]; [ left; reflexivity |]. right. destruct H as [H|H]; [ destruct x; discriminate |].
  replace (last (y :: a) []) with (last (x ++ y :: a) ([] : text)); [ exact H |]. clear H. induction x as [ |z x IH ]; [ reflexivity |].
  rewrite <- IH. cbn [app]. destruct (x ++ y :: a) eqn:E; [ destruct x; discriminate | reflexivity ].
Qed.
Definition run_ok {A} (r : pres (sbuf * A)) (toks : list text) : Prop :=
  match r with P_running => False | P_ok (b', _) => exists toks', repr b' toks' /\ suffix toks' toks | _ => True end.
Definition run_less {A} (r : pres (sbuf * A)) (toks : list text) : Prop :=
  match r with P_running => False | P_ok (b', _) => exists toks', repr b' toks' /\ suffix toks' toks /\ length toks' < length toks | _ => True end.
Lemma run_weaken {A} (r : pres (sbuf * A)) a b : suffix a b -> run_ok r a -> run_ok r b.
Proof. intros Hs. unfold run_ok. destruct r as [[b' x]| | |]; auto. intros [t [H1 H2]]. exists t. split; [ exact H1 | eapply suffix_trans; eauto ]. Qed.
Lemma pop_zero b : pop 0 b = None. Proof. reflexivity. Qed.
Lemma pop_some n b b' : pop n b = Some b' -> 1 <= n < 10.
Proof. unfold pop. destruct (Nat.ltb_spec n 10); destruct (Nat.leb_spec 1 n); cbn [andb]; try discriminate; lia. Qed.
Lemma pop_repr n b b' toks : repr b toks -> pop n b = Some b' -> exists toks', repr b' toks' /\ suffix toks' toks /\ (toks <> [] -> length toks' < length toks).
Proof.
  intros HR H. pose proof (pop_some _ _ _ H) as Hn. destruct (pop_ok n b toks HR Hn) as [b1 [E1 R1]]. rewrite E1 in H. injection H as <-.
  exists (skipn n toks). split; [ exact R1 |]. split; [ apply suffix_skipn |]. intros Ht. rewrite skipn_length. destruct toks; [ congruence |]. cbn [length]. lia.
Qed.
Lemma pop_front_repr b toks : repr b toks -> exists b', pop_front b = Some b' /\ repr b' (tl toks).
Proof. apply pop_front_ok. Qed.
Lemma suffix_tl l : suffix (tl l) l.
Proof. destruct l as [ |a l ]; [ apply suffix_refl | exists [a]; reflexivity ]. Qed.
Lemma first_nil b toks : repr b toks -> first b = nth 0 toks [].
Proof. intros H. apply (token_at_ok b toks 0 H). lia. Qed.
Lemma first_nonempty b toks : repr b toks -> first b <> [] -> toks <> [].
Proof. intros H Hf ->. apply Hf. rewrite (first_nil _ _ H). reflexivity. Qed.

Section Ends.
Context {D : Type} (dn : dops D).
Hypothesis Hnil : d_scan dn [] = None.
Local Notation raw_problem := (raw_problem (D := D)).

Lemma real1_runs t : read_real1 dn t <> P_running.
Proof. unfold read_real1. repeat (destruct (_ && _) || destruct (Nat.ltb _ _) || destruct (Nat.eqb _ _)); discriminate. Qed.
Lemma real2_runs a b : read_real2 dn a b <> P_running.
Proof.
  unfold read_real2. destruct (text_eqb a _); [ | destruct (text_eqb a _) ]; unfold pbind;
    [ pose proof (real1_runs b); destruct (read_real1 dn b) | pose proof (real1_runs b); destruct (read_real1 dn b) | pose proof (real1_runs a); destruct (read_real1 dn a) ];
    try discriminate; congruence.
Qed.
Lemma element_runs a b c : read_function_element dn a b c <> P_running.
Proof.
  unfold read_function_element, pbind. pose proof (real2_runs a b). destruct (read_real2 dn a b) as [[v n]| | |]; try discriminate; [ | congruence ].
  destruct (_ && _); discriminate.
Qed.
Lemma quadratic3_runs a b c : read_quadratic3 dn a b c <> P_running.
Proof.
  unfold read_quadratic3, pbind. pose proof (real2_runs a b). destruct (read_real2 dn a b) as [[v n]| | |]; try discriminate; [ | congruence ].
  destruct (_ || _); discriminate.
Qed.
Lemma element_nil : read_function_element dn [] [] [] = P_ok (Some (d_one dn, [], 0)).
Proof. unfold read_function_element, read_real2. cbn. unfold read_real1. cbn. rewrite Hnil. reflexivity. Qed.

Lemma quadratic_step_run sign b (p : raw_problem) toks : repr b toks -> toks <> [] -> run_less (quadratic_step dn sign b p) toks.
Proof.
  intros HR Ht. unfold quadratic_step. pose proof (quadratic3_runs (first b) (second b) (third b)) as H.
  destruct (read_quadratic3 dn (first b) (second b) (third b)) as [[[[f at_] n]|]| | |]; cbn [pbind or_error run_less]; try exact I; [ | congruence ].
  destruct (pop n b) as [b1|] eqn:E1; cbn [or_abort pbind]; [ | exact I ].
  destruct (pop_repr _ _ _ _ HR E1) as [t1 [R1 [S1 L1]]]. specialize (L1 Ht).
  destruct (text_eqb (first b1) (str "*")).
  - destruct (read_name (second b1)) as [nm2|]; cbn [or_error pbind]; [ | exact I ].
    destruct (get_or_assign_variable (rw_vars p) _) as [id1 vs]. destruct (get_or_assign_variable vs nm2) as [id2 vs2].
    destruct (pop 2 b1) as [b2|] eqn:E2; cbn [or_abort pbind]; [ | exact I ].
    destruct (pop_repr _ _ _ _ R1 E2) as [t2 [R2 [S2 L2]]]. cbn. exists t2. split; [ exact R2 |]. split; [ eapply suffix_trans; eauto |]. apply suffix_len in S2. lia.
  - destruct (_ || _).
    + destruct (_ && _).
      * destruct (pop 2 b1) as [b2|] eqn:E2; cbn [or_abort pbind]; [ | exact I ]. destruct (pop_repr _ _ _ _ R1 E2) as [t2 [R2 [S2 L2]]].
        destruct (get_or_assign_variable _ _). cbn. exists t2. split; [ exact R2 |]. split; [ eapply suffix_trans; eauto |]. apply suffix_len in S2. lia.
      * destruct (pop 1 b1) as [b2|] eqn:E2; cbn [or_abort pbind]; [ | exact I ]. destruct (pop_repr _ _ _ _ R1 E2) as [t2 [R2 [S2 L2]]].
        destruct (get_or_assign_variable _ _). cbn. exists t2. split; [ exact R2 |]. split; [ eapply suffix_trans; eauto |]. apply suffix_len in S2. lia.
    + cbn. exists t1. auto.
Qed.
Lemma quadratic_loop_run sign : forall fuel b (p : raw_problem) toks, repr b toks -> length toks <= fuel -> run_ok (quadratic_loop dn fuel sign b p) toks.
Proof.
  induction fuel as [ |fuel IH ]; intros b p toks HR Hf.
  - assert (toks = []) by (destruct toks; [ reflexivity | cbn in Hf; lia ]). subst toks. cbn [quadratic_loop]. rewrite (first_nil _ _ HR). cbn.
    exists []. split; [ exact HR | apply suffix_refl ].
  - cbn [quadratic_loop]. destruct (first b) as [ |c w ] eqn:Ef; [ cbn; exists toks; split; [ exact HR | apply suffix_refl ] |].
    destruct (text_eqb _ _); [ cbn; exists toks; split; [ exact HR | apply suffix_refl ] |].
    assert (Ht : toks <> []) by (eapply first_nonempty; [ exact HR | rewrite Ef; discriminate ]).
    pose proof (quadratic_step_run sign b p toks HR Ht) as H. destruct (quadratic_step dn sign b p) as [[b1 p1]| | |]; cbn [pbind]; try exact H.
    destruct H as [t1 [R1 [S1 L1]]]. eapply run_weaken; [ exact S1 |]. apply IH; [ exact R1 | lia ].
Qed.
Lemma read_quadratic_run fuel sign b (p : raw_problem) toks : repr b toks -> toks <> [] -> length toks <= S fuel -> run_less (read_quadratic dn fuel sign b p) toks.
Proof.
  intros HR Ht Hf. unfold read_quadratic. destruct (negb _); [ exact I |].
  destruct (pop_front_repr _ _ HR) as [b1 [E1 R1]]. rewrite E1. cbn [or_abort pbind].
  assert (L1 : length (tl toks) < length toks) by (destruct toks; [ congruence | cbn; lia ]).
  pose proof (quadratic_loop_run sign fuel b1 p (tl toks) R1 ltac:(lia)) as H. destruct (quadratic_loop dn fuel sign b1 p) as [[b2 p2]| | |]; cbn [pbind]; try exact H.
  destruct H as [t2 [R2 S2]]. destruct (pop_front_repr _ _ R2) as [b3 [E3 R3]]. rewrite E3. cbn [or_abort pbind].
  assert (S3 : suffix (tl t2) toks) by (eapply suffix_trans; [ apply suffix_tl | eapply suffix_trans; [ exact S2 | apply suffix_tl ] ]).
  assert (L3 : length (tl t2) < length toks) by (pose proof (suffix_len _ _ (suffix_tl t2)); pose proof (suffix_len _ _ S2); lia).
  destruct (_ && _).
  - destruct (pop 2 b3) as [b4|] eqn:E4; cbn [or_abort pbind]; [ | exact I ]. destruct (pop_repr _ _ _ _ R3 E4) as [t4 [R4 [S4 _]]].
    cbn. exists t4. split; [ exact R4 |]. split; [ eapply suffix_trans; eauto |]. apply suffix_len in S4. lia.
  - destruct (text_eqb _ _); [ | exact I ].
    destruct (pop 1 b3) as [b4|] eqn:E4; cbn [or_abort pbind]; [ | exact I ]. destruct (pop_repr _ _ _ _ R3 E4) as [t4 [R4 [S4 _]]].
    cbn. exists t4. split; [ exact R4 |]. split; [ eapply suffix_trans; eauto |]. apply suffix_len in S4. lia.
Qed.
Lemma run_less_weaken {A} (r : pres (sbuf * A)) a b : suffix a b -> run_less r a -> run_less r b.
Proof.
  intros Hs. unfold run_less. destruct r as [[b' x]| | |]; auto. intros [t [H1 [H2 H3]]]. exists t. split; [ exact H1 |]. split; [ eapply suffix_trans; eauto |].
  apply suffix_len in Hs. lia.
Qed.
Lemma run_ok_less {A} (r : pres (sbuf * A)) a b : suffix a b -> length a < length b -> run_ok r a -> run_less r b.
Proof.
  intros Hs Hl. unfold run_ok, run_less. destruct r as [[b' x]| | |]; auto. intros [t [H1 H2]]. exists t. split; [ exact H1 |]. split; [ eapply suffix_trans; eauto |].
  apply suffix_len in H2. lia.
Qed.
Lemma read_quadratic_run0 fuel sign b (p : raw_problem) toks : repr b toks -> length toks <= S fuel -> run_ok (read_quadratic dn fuel sign b p) toks.
Proof.
  intros HR Hf. destruct toks as [ |x toks ].
  - unfold read_quadratic. rewrite (first_nil _ _ HR). cbn. exact I.
  - pose proof (read_quadratic_run fuel sign b p (x :: toks) HR ltac:(discriminate) Hf) as H. unfold run_less, run_ok in *.
    destruct (read_quadratic dn fuel sign b p) as [[b' p']| | |]; auto. destruct H as [t [H1 [H2 _]]]. eauto.
Qed.
Lemma objective_step_run fuel b (p : raw_problem) toks : repr b toks -> length toks <= S fuel -> run_less (objective_step dn fuel b p) toks.
Proof.
  intros HR Hf. destruct toks as [ |x toks' ] eqn:Etoks.
  { unfold objective_step, first, second, third. rewrite !(token_at_ok _ _ _ HR) by lia. cbn [nth]. rewrite element_nil. cbn. exact I. }
  rewrite <- Etoks in *. assert (Ht : toks <> []) by (rewrite Etoks; discriminate). clear Etoks x toks'.
  unfold objective_step. destruct (starts_with_quadratic _ _).
  - assert (L1 : length (tl toks) < length toks) by (destruct toks; [ congruence | cbn; lia ]).
    destruct (pop_front_repr _ _ HR) as [b1 [E1 R1]]. rewrite E1. cbn [or_abort pbind].
    destruct (text_eqb (first b) (str "-")); [ eapply run_ok_less; [ apply suffix_tl | exact L1 | apply read_quadratic_run0; [ exact R1 | lia ] ] |].
    destruct (text_eqb (first b) (str "+")); [ eapply run_ok_less; [ apply suffix_tl | exact L1 | apply read_quadratic_run0; [ exact R1 | lia ] ] |].
    apply read_quadratic_run; assumption.
  - pose proof (element_runs (first b) (second b) (third b)) as H.
    destruct (read_function_element dn (first b) (second b) (third b)) as [[[[f nm] n]|]| | |]; cbn [pbind or_error run_less]; try exact I; [ | congruence ].
    destruct (pop n b) as [b1|] eqn:E1; cbn [or_abort pbind]; [ | exact I ].
    destruct (pop_repr _ _ _ _ HR E1) as [t1 [R1 [S1 L1]]]. cbn. exists t1. auto.
Qed.
Lemma objective_loop_run : forall fuel b (p : raw_problem) toks, repr b toks -> length toks < fuel -> run_ok (objective_loop dn fuel b p) toks.
Proof.
  induction fuel as [ |fuel IH ]; intros b p toks HR Hf; [ lia |].
  cbn [objective_loop]. destruct (is_keyword (first b)); [ cbn; exists toks; split; [ exact HR | apply suffix_refl ] |].
  pose proof (objective_step_run fuel b p toks HR ltac:(lia)) as H. destruct (objective_step dn fuel b p) as [[b1 p1]| | |]; cbn [pbind]; try exact H.
  destruct H as [t1 [R1 [S1 L1]]]. eapply run_weaken; [ exact S1 |]. apply IH; [ exact R1 | lia ].
Qed.

Definition run_less3 {A B} (r : pres (sbuf * A * B)) (toks : list text) : Prop :=
  match r with P_running => False | P_ok (b', _, _) => exists toks', repr b' toks' /\ suffix toks' toks /\ length toks' < length toks | _ => True end.
Definition run_ok3 {A B} (r : pres (sbuf * A * B)) (toks : list text) : Prop :=
  match r with P_running => False | P_ok (b', _, _) => exists toks', repr b' toks' /\ suffix toks' toks | _ => True end.
Lemma constraint_element_run b vs els toks : repr b toks -> run_less3 (constraint_element dn b vs els) toks.
Proof.
  intros HR. destruct toks as [ |x toks' ] eqn:Etoks.
  { unfold constraint_element, first, second, third. rewrite !(token_at_ok _ _ _ HR) by lia. cbn [nth]. rewrite element_nil. cbn [pbind or_error].
    destruct (get_or_assign_variable vs []). destruct (d_int dn (d_one dn)); cbn; exact I. }
  rewrite <- Etoks in *. assert (Ht : toks <> []) by (rewrite Etoks; discriminate). clear Etoks x toks'.
  unfold constraint_element. pose proof (element_runs (first b) (second b) (third b)) as H.
  destruct (read_function_element dn (first b) (second b) (third b)) as [[[[f nm] n]|]| | |]; cbn [pbind or_error run_less3]; try exact I; [ | congruence ].
  destruct (get_or_assign_variable vs nm) as [id vs']. destruct (d_int dn f) as [z|]; cbn [or_abort pbind]; [ | exact I ].
  destruct (pop n b) as [b1|] eqn:E1; cbn [or_abort pbind]; [ | exact I ].
  destruct (pop_repr _ _ _ _ HR E1) as [t1 [R1 [S1 L1]]]. cbn. exists t1. auto.
Qed.
Lemma elements_loop_run : forall fuel b vs els toks, repr b toks -> length toks <= fuel -> run_ok3 (elements_loop dn fuel b vs els) toks.
Proof.
  induction fuel as [ |fuel IH ]; intros b vs els toks HR Hf.
  - assert (toks = []) by (destruct toks; [ reflexivity | cbn in Hf; lia ]). subst toks. cbn [elements_loop]. rewrite (first_nil _ _ HR). cbn.
    exists []. split; [ exact HR | apply suffix_refl ].
  - cbn [elements_loop]. destruct (first b) as [ |c w ] eqn:Ef; [ cbn; exists toks; split; [ exact HR | apply suffix_refl ] |].
    destruct (starts_with_operator _); [ cbn; exists toks; split; [ exact HR | apply suffix_refl ] |].
    pose proof (constraint_element_run b vs els toks HR) as H. destruct (constraint_element dn b vs els) as [[[b1 vs1] els1]| | |]; cbn [pbind]; try exact H.
    destruct H as [t1 [R1 [S1 L1]]]. specialize (IH b1 vs1 els1 t1 R1 ltac:(lia)). unfold run_ok3 in *.
    destruct (elements_loop dn fuel b1 vs1 els1) as [[[b2 vs2] els2]| | |]; auto. destruct IH as [t2 [R2 S2]]. exists t2. split; [ exact R2 | eapply suffix_trans; eauto ].
Qed.
Lemma constraint_step_run fuel id b (p : raw_problem) toks : repr b toks -> toks <> [] -> length toks <= S fuel -> run_less (constraint_step dn fuel id b p) toks.
Proof.
  intros HR Ht Hf. unfold constraint_step.
  assert (Hl : match read_label b with P_ok (_, b1) => exists t1, repr b1 t1 /\ suffix t1 toks | P_running => False | _ => True end).
  { unfold read_label. destruct (_ && _); cbn [pbind]; [ | exists toks; split; [ exact HR | apply suffix_refl ] ].
    destruct (pop 2 b) as [b1|] eqn:E1; cbn [or_abort pbind]; [ | exact I ]. destruct (pop_repr _ _ _ _ HR E1) as [t1 [R1 [S1 _]]]. eauto. }
  destruct (read_label b) as [[label b1]| | |]; cbn [pbind]; try exact Hl. destruct Hl as [t1 [R1 S1]].
  pose proof (constraint_element_run b1 (rw_vars p) [] t1 R1) as H2. destruct (constraint_element dn b1 (rw_vars p) []) as [[[b2 vs2] els2]| | |]; cbn [pbind]; try exact H2.
  destruct H2 as [t2 [R2 [S2 L2]]]. assert (L2' : length t2 < length toks) by (apply suffix_len in S1; lia).
  pose proof (elements_loop_run fuel b2 vs2 els2 t2 R2 ltac:(lia)) as H3. destruct (elements_loop dn fuel b2 vs2 els2) as [[[b3 vs3] els3]| | |]; cbn [pbind]; try exact H3.
  destruct H3 as [t3 [R3 S3]]. destruct (read_operator _ _) as [[op n]|]; cbn [or_error pbind]; [ | exact I ].
  destruct (pop n b3) as [b4|] eqn:E4; cbn [or_abort pbind]; [ | exact I ]. destruct (pop_repr _ _ _ _ R3 E4) as [t4 [R4 [S4 _]]].
  pose proof (real2_runs (first b4) (second b4)) as H5. destruct (read_real2 dn (first b4) (second b4)) as [[v m]| | |]; cbn [pbind]; try exact I; [ | congruence ].
  destruct (d_int dn v) as [z|]; cbn [or_abort pbind]; [ | exact I ].
  destruct (pop m b4) as [b5|] eqn:E5; cbn [or_abort pbind]; [ | exact I ]. destruct (pop_repr _ _ _ _ R4 E5) as [t5 [R5 [S5 _]]].
  cbn. exists t5. split; [ exact R5 |]. assert (S : suffix t5 t2) by (eapply suffix_trans; [ exact S5 | eapply suffix_trans; [ exact S4 | exact S3 ] ]).
  split; [ eapply suffix_trans; [ exact S | eapply suffix_trans; eauto ] |]. apply suffix_len in S. lia.
Qed.
Lemma constraints_loop_run : forall fuel id b (p : raw_problem) toks, repr b toks -> length toks <= fuel -> run_ok (constraints_loop dn fuel id b p) toks.
Proof.
  induction fuel as [ |fuel IH ]; intros id b p toks HR Hf.
  - assert (toks = []) by (destruct toks; [ reflexivity | cbn in Hf; lia ]). subst toks. cbn [constraints_loop]. rewrite (first_nil _ _ HR). cbn.
    exists []. split; [ exact HR | apply suffix_refl ].
  - cbn [constraints_loop]. destruct (first b) as [ |c w ] eqn:Ef; [ cbn; exists toks; split; [ exact HR | apply suffix_refl ] |].
    destruct (is_keyword _); [ cbn; exists toks; split; [ exact HR | apply suffix_refl ] |].
    assert (Ht : toks <> []) by (eapply first_nonempty; [ exact HR | rewrite Ef; discriminate ]).
    pose proof (constraint_step_run fuel id b p toks HR Ht ltac:(lia)) as H. destruct (constraint_step dn fuel id b p) as [[b1 p1]| | |]; cbn [pbind]; try exact H.
    destruct H as [t1 [R1 [S1 L1]]]. eapply run_weaken; [ exact S1 |]. apply IH; [ exact R1 | lia ].
Qed.

Lemma left_runs a b c d : read_left_bound dn a b c d <> P_running.
Proof.
  unfold read_left_bound. destruct (_ || _); unfold pbind; [ pose proof (real1_runs b); destruct (read_real1 dn b) | pose proof (real1_runs a); destruct (read_real1 dn a) ]; try discriminate; congruence.
Qed.
Lemma right_runs a b c d : read_right_bound dn a b c d <> P_running.
Proof.
  unfold read_right_bound. destruct (read_operator a b) as [[op n]|]; [ | discriminate ]. destruct (if Nat.eqb n 1 then (b, c) else (c, d)) as [x y].
  destruct (_ || _); unfold pbind; [ pose proof (real1_runs y); destruct (read_real1 dn y) | pose proof (real1_runs x); destruct (read_real1 dn x) ]; try discriminate; congruence.
Qed.
Lemma bound_runs t : read_bound dn t <> P_running.
Proof.
  unfold read_bound. destruct (starts_with_number (t 0)).
  - pose proof (left_runs (t 0) (t 1) (t 2) (t 3)) as H. destruct (read_left_bound dn (t 0) (t 1) (t 2) (t 3)) as [[[lv n]|]| | |]; cbn [pbind]; try discriminate; [ | congruence ].
    destruct (read_name (t n)); [ | discriminate ]. cbv zeta. destruct (negb _); [ discriminate |].
    pose proof (right_runs (t (S n)) (t (S n + 1)) (t (S n + 2)) (t (S n + 3))) as H2.
    destruct (read_right_bound dn (t (S n)) (t (S n + 1)) (t (S n + 2)) (t (S n + 3))) as [[[rv m]|]| | |]; cbn [pbind]; try discriminate; [ | congruence ].
    destruct (d_gt dn lv rv); discriminate.
  - destruct (starts_with_name (t 0)); [ | discriminate ]. destruct (read_name (t 0)); [ | discriminate ]. destruct (starts_with_operator (t 1)); [ | discriminate ].
    pose proof (right_runs (t 1) (t 2) (t 3) (t 4)) as H2. destruct (read_right_bound dn (t 1) (t 2) (t 3) (t 4)) as [[[rv m]|]| | |]; cbn [pbind]; try discriminate; congruence.
Qed.
Lemma set_value_runs vs i f : set_value vs i f <> P_running.
Proof. unfold set_value. destruct (list_modify _ _ _); discriminate. Qed.
Lemma set_bound_runs bd vs : set_bound_variable dn bd vs <> P_running.
Proof.
  unfold set_bound_variable. destruct (get_variable vs _); cbn [or_error pbind]; [ | discriminate ]. unfold bound_min, bound_max.
  destruct (d_is_ninf dn _); [ | destruct (d_int dn (bd_min bd)); cbn [or_abort pbind]; [ | discriminate ] ]; cbn [pbind];
    (destruct (d_is_pinf dn _); [ | destruct (d_int dn (bd_max bd)); cbn [or_abort pbind]; [ | discriminate ] ]; cbn [pbind]; apply set_value_runs).
Qed.
Lemma bounds_loop_run : forall fuel b vs toks, repr b toks -> length toks < fuel -> run_ok (bounds_loop dn fuel b vs) toks.
Proof.
  induction fuel as [ |fuel IH ]; intros b vs toks HR Hf; [ lia |].
  cbn [bounds_loop]. destruct (is_keyword (first b)); [ cbn; exists toks; split; [ exact HR | apply suffix_refl ] |].
  destruct toks as [ |x toks' ] eqn:Etoks.
  { unfold read_bound. rewrite (token_at_ok _ _ 0 HR) by lia. cbn. exact I. }
  rewrite <- Etoks in *. assert (Ht : toks <> []) by (rewrite Etoks; discriminate). clear Etoks x toks'.
  pose proof (bound_runs (token_at b)) as H. destruct (read_bound dn (token_at b)) as [[bd|]| | |]; cbn [pbind or_error]; try exact I; [ | congruence ].
  pose proof (set_bound_runs bd vs) as H2. destruct (set_bound_variable dn bd vs) as [vs1| | |]; cbn [pbind]; try exact I; [ | congruence ].
  destruct (pop (bd_read bd) b) as [b1|] eqn:E1; cbn [or_abort pbind]; [ | exact I ]. destruct (pop_repr _ _ _ _ HR E1) as [t1 [R1 [S1 L1]]]. specialize (L1 Ht).
  eapply run_weaken; [ exact S1 |]. apply IH; [ exact R1 | lia ].
Qed.
Lemma end_keyword w : are_equal w (str "end") = true -> is_keyword w = true.
Proof. intros H. apply (any_keyword w [str "end"]); [ unfold any_of; cbn [existsb]; rewrite H; reflexivity | apply all_kw; reflexivity ]. Qed.
Lemma names_loop_run set : (forall nm vs, set nm vs <> P_running) ->
  forall fuel b vs toks, repr b toks -> length toks <= fuel -> toks <> [] -> are_equal (last toks []) (str "end") = true -> run_ok (names_loop set fuel b vs) toks.
Proof.
  intros Hset. induction fuel as [ |fuel IH ]; intros b vs toks HR Hf Ht Hlast; [ destruct toks; [ congruence | cbn in Hf; lia ] |].
  cbn [names_loop]. rewrite (first_nil _ _ HR). destruct toks as [ |x toks ]; [ congruence |]. cbn [nth]. destruct (is_keyword x) eqn:Ek; [ cbn; exists (x :: toks); split; [ exact HR | apply suffix_refl ] |].
  pose proof (Hset x vs) as H. destruct (set x vs) as [vs1| | |]; cbn [pbind]; try exact I; [ | congruence ].
  destruct (pop_front_repr _ _ HR) as [b1 [E1 R1]]. rewrite E1. cbn [or_abort pbind tl] in *.
  destruct toks as [ |y toks ]. { cbn [last] in Hlast. rewrite (end_keyword _ Hlast) in Ek. discriminate. }
  eapply run_weaken; [ exists [x]; reflexivity |]. apply IH; [ exact R1 | cbn [length] in *; lia | discriminate | exact Hlast ].
Qed.
Lemma set_boolean_runs nm vs : set_boolean_variable nm vs <> P_running.
Proof. unfold set_boolean_variable. destruct (get_variable vs nm); cbn [or_error pbind]; [ apply set_value_runs | discriminate ]. Qed.
Lemma set_integer_runs nm vs : set_integer_variable nm vs <> P_running.
Proof. unfold set_integer_variable. destruct (get_variable vs nm); cbn [or_error pbind]; [ apply set_value_runs | discriminate ]. Qed.

Lemma section_names_run kws set fuel b (p : raw_problem) toks : (forall nm vs, set nm vs <> P_running) -> (forall k, In k kws -> are_equal k (str "end") = false) -> any_of [] kws = false ->
  repr b toks -> length toks <= fuel -> ends_end toks ->
  run_ok (section_ (read_section kws (first b) (second b)) (names_loop set fuel) b p) toks.
Proof.
  intros Hset Hkw Hkn HR Hf He. unfold section_, read_section. destruct (any_of (first b) kws) eqn:Ea; [ | cbn; exists toks; split; [ exact HR | apply suffix_refl ] ].
  assert (Hne : are_equal (first b) (str "end") = false).
  { pose proof (kw_not_other (first b) kws [str "end"] Ea) as H. unfold any_of in H. cbn [existsb] in H. rewrite orb_false_r in H. apply H. intros k k' H1 [<-|[]]. apply Hkw, H1. }
  rewrite (first_nil _ _ HR) in *. unfold colon, second. rewrite (token_at_ok _ _ 1 HR) by lia.
  assert (Hn : exists n, (if are_equal (nth 1 toks []) (str ":") then 1 + 1 else 1) = S n /\ 1 <= S n < 10 /\ (toks <> [] -> skipn (S n) toks <> [])).
  { destruct (are_equal (nth 1 toks []) (str ":")) eqn:Ec.
    - exists 1. split; [ reflexivity |]. split; [ lia |]. intros Ht. destruct toks as [ |x [ |y [ |z toks ]]]; [ exfalso; exact (Ht eq_refl) | discriminate Ec | | cbn; discriminate ].
      cbn [nth] in Ec. destruct He as [He|He]; [ discriminate |]. cbn [last] in He. apply are_equal_iff in He, Ec. rewrite He in Ec. discriminate.
    - exists 0. split; [ reflexivity |]. split; [ lia |]. intros Ht. destruct toks as [ |x [ |y toks ]]; [ exfalso; exact (Ht eq_refl) | | cbn; discriminate ].
      cbn [nth] in Hne. destruct He as [He|He]; [ discriminate |]. cbn [last] in He. congruence. }
  destruct Hn as [n [-> [Hn Hs]]]. destruct (pop_ok (S n) b toks HR Hn) as [b1 [E1 R1]]. rewrite E1. cbn [or_abort pbind].
  destruct toks as [ |x toks' ] eqn:Et. { cbn [nth] in Ea. congruence. }
  rewrite <- Et in *. assert (Ht : toks <> []) by (rewrite Et; discriminate). specialize (Hs Ht).
  pose proof (ends_end_suffix _ _ (suffix_skipn (S n) toks) He) as He'. destruct He' as [He'|He']; [ congruence |].
  pose proof (names_loop_run set Hset fuel b1 (rw_vars p) (skipn (S n) toks) R1) as H. rewrite skipn_length in H. specialize (H ltac:(lia) Hs He').
  destruct (names_loop set fuel b1 (rw_vars p)) as [[b2 vs2]| | |]; cbn [pbind]; try exact H. destruct H as [t2 [R2 S2]]. cbn. exists t2. split; [ exact R2 | eapply suffix_trans; [ exact S2 | apply suffix_skipn ] ].
Qed.
Lemma section_bounds_run kws fuel b (p : raw_problem) toks : repr b toks -> length toks < fuel ->
  run_ok (section_ (read_section kws (first b) (second b)) (bounds_loop dn fuel) b p) toks.
Proof.
  intros HR Hf. unfold section_. destruct (read_section kws (first b) (second b)) as [ |n ]; [ cbn; exists toks; split; [ exact HR | apply suffix_refl ] |].
  destruct (pop (S n) b) as [b1|] eqn:E1; cbn [or_abort pbind]; [ | exact I ]. destruct (pop_repr _ _ _ _ HR E1) as [t1 [R1 [S1 _]]].
  pose proof (suffix_len _ _ S1). pose proof (bounds_loop_run fuel b1 (rw_vars p) t1 R1 ltac:(lia)) as H1.
  destruct (bounds_loop dn fuel b1 (rw_vars p)) as [[b2 vs2]| | |]; cbn [pbind]; try exact H1. destruct H1 as [t2 [R2 S2]]. cbn. exists t2. split; [ exact R2 | eapply suffix_trans; eauto ].
Qed.
Theorem parse_ends fuel b (p : raw_problem) toks : repr b toks -> length toks < fuel -> ends_end toks -> parse dn fuel b p <> P_running.
Proof.
  intros HR Hf He. unfold parse. destruct (read_objective_type _) as [ty|]; cbn [or_error pbind]; [ | discriminate ].
  destruct (pop_front_repr _ _ HR) as [b1 [E1 R1]]. rewrite E1. cbn [or_abort pbind].
  assert (H2 : match pop_read (try_read_objective_label (first b1) (second b1)) b1 with P_ok b2 => exists t2, repr b2 t2 /\ suffix t2 (tl toks) | P_running => False | _ => True end).
  { unfold pop_read. destruct (try_read_objective_label (first b1) (second b1)) as [ |n ]; [ exists (tl toks); split; [ exact R1 | apply suffix_refl ] |].
    destruct (pop (S n) b1) as [b2|] eqn:E2; cbn [or_abort]; [ | exact I ]. destruct (pop_repr _ _ _ _ R1 E2) as [t2 [R2 [S2 _]]]. eauto. }
  destruct (pop_read _ b1) as [b2| | |]; cbn [pbind]; try discriminate; [ | destruct H2 ]. destruct H2 as [t2 [R2 S2]].
  assert (S2' : suffix t2 toks) by (eapply suffix_trans; [ exact S2 | apply suffix_tl ]). pose proof (suffix_len _ _ S2') as L2.
  pose proof (objective_loop_run fuel b2 (set_type ty p) t2 R2 ltac:(lia)) as H3.
  destruct (objective_loop dn fuel b2 (set_type ty p)) as [[b3 p3]| | |]; cbn [pbind]; try discriminate; [ | destruct H3 ]. destruct H3 as [t3 [R3 S3]].
  assert (S3' : suffix t3 toks) by (eapply suffix_trans; eauto). pose proof (suffix_len _ _ S3') as L3.
  assert (H4 : run_ok (match read_subject_to (first b3) (second b3) (third b3) with O => P_ok (b3, p3) | n => let? b := or_abort (pop n b3) in constraints_loop dn fuel 0 b p3 end) t3).
  { destruct (read_subject_to _ _ _) as [ |n ]; [ cbn; exists t3; split; [ exact R3 | apply suffix_refl ] |].
    destruct (pop (S n) b3) as [b4|] eqn:E4; cbn [or_abort pbind]; [ | exact I ]. destruct (pop_repr _ _ _ _ R3 E4) as [t4 [R4 [S4 _]]].
    eapply run_weaken; [ exact S4 |]. apply constraints_loop_run; [ exact R4 |]. apply suffix_len in S4. lia. }
  match goal with |- pbind ?r _ <> _ => destruct r as [[b4 p4]| | |] end; cbn [pbind]; try discriminate; [ | destruct H4 ]. destruct H4 as [t4 [R4 S4]].
  assert (S4' : suffix t4 toks) by (eapply suffix_trans; eauto). pose proof (suffix_len _ _ S4') as L4.
  pose proof (section_bounds_run [str "bounds"; str "bound"] fuel b4 p4 t4 R4 ltac:(lia)) as H5. unfold read_bounds.
  match goal with |- pbind ?r _ <> _ => destruct r as [[b5 p5]| | |] end; cbn [pbind]; try discriminate; [ | destruct H5 ]. destruct H5 as [t5 [R5 S5]].
  assert (S5' : suffix t5 toks) by (eapply suffix_trans; eauto). pose proof (suffix_len _ _ S5') as L5.
  pose proof (section_names_run kw_binary set_boolean_variable fuel b5 p5 t5 set_boolean_runs) as H6.
  specialize (H6 ltac:(intros k Hk; apply (disjoint_kw kw_binary [str "end"] eq_refl k (str "end") Hk); left; reflexivity) eq_refl R5 ltac:(lia) (ends_end_suffix _ _ S5' He)).
  unfold read_binary. fold kw_binary.
  match goal with |- pbind ?r _ <> _ => destruct r as [[b6 p6]| | |] end; cbn [pbind]; try discriminate; [ | destruct H6 ]. destruct H6 as [t6 [R6 S6]].
  assert (S6' : suffix t6 toks) by (eapply suffix_trans; eauto). pose proof (suffix_len _ _ S6') as L6.
  pose proof (section_names_run kw_general set_integer_variable fuel b6 p6 t6 set_integer_runs) as H7.
  specialize (H7 ltac:(intros k Hk; apply (disjoint_kw kw_general [str "end"] eq_refl k (str "end") Hk); left; reflexivity) eq_refl R6 ltac:(lia) (ends_end_suffix _ _ S6' He)).
  unfold read_general. fold kw_general.
  match goal with |- pbind ?r _ <> _ => destruct r as [[b7 p7]| | |] end; cbn [pbind]; try discriminate; [ | destruct H7 ].
  destruct (read_end _ _) as [ |n ]; [ discriminate |]. destruct (pop (S n) b7) as [b8|]; cbn [or_abort pbind]; [ | discriminate ]. destruct (first b8); discriminate.
Qed.
Theorem make_problem_ends t fuel : readable t -> ends_plain t -> length (file_tokens t) < fuel -> are_equal (last (file_tokens t) []) (str "end") = true ->
  make_problem dn fuel t <> P_running.
Proof.
  intros H1 H2 H3 H4. destruct (buffer_tokens t H1 H2) as [b [E R]]. unfold make_problem. rewrite E. cbn [or_abort pbind].
  eapply parse_ends; [ exact R | exact H3 | right; exact H4 ].
Qed.
End Ends.
