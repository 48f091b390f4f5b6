(** A text that is accepted ends with end; the tokens of a cut text. *)
From Coq Require Import Ascii String Lia.
From Verif Require Import Base Problem_model ResultIO_model Chars_spec Lexer_model Lexer_spec Lexer_proofs Parser_model Parser_spec
  Parser_proofs Parser_proofs2 Parser_proofs4 Parser_proofs5 Parser_proofs6 Writer_model Writer_spec Writer_proofs Writer_proofs2 Cut_spec.
Open Scope string_scope.
Open Scope list_scope.
Open Scope nat_scope.

(** ** Reading only goes forward *)
Definition kept {A} (r : pres (sbuf * A)) (toks : list text) : Prop :=
  match r with P_ok (b', _) => exists toks', repr b' toks' /\ suffix toks' toks | _ => True end.
Lemma kept_here {A} b (x : A) toks : repr b toks -> kept (P_ok (b, x)) toks.
Proof. intros H. exists toks. split; [exact H|apply suffix_refl]. Qed.
Lemma kept_weaken {A} (r : pres (sbuf * A)) a b : suffix a b -> kept r a -> kept r b.
Proof. intros Hs. unfold kept. destruct r as [[b' x]| | |]; auto. intros [t [H1 H2]]. exists t. split; [exact H1|eapply suffix_trans; eauto]. Qed.
Lemma kept_pop {A} n b toks (f : sbuf -> pres (sbuf * A)) : repr b toks -> (forall b' toks', repr b' toks' -> kept (f b') toks') ->
  kept (pbind (or_abort (pop n b)) f) toks.
Proof.
  intros HR Hf. destruct (pop n b) as [b1|] eqn:E; cbn [or_abort pbind]; [|exact I].
  destruct (pop_repr _ _ _ _ HR E) as [t1 [R1 [S1 _]]]. eapply kept_weaken; [exact S1|apply Hf, R1].
Qed.
Lemma kept_pop_front {A} b toks (f : sbuf -> pres (sbuf * A)) : repr b toks -> (forall b' toks', repr b' toks' -> kept (f b') toks') ->
  kept (pbind (or_abort (pop_front b)) f) toks.
Proof.
  intros HR Hf. destruct (pop_front_repr _ _ HR) as [b1 [E1 R1]]. rewrite E1. cbn [or_abort pbind].
  eapply kept_weaken; [apply suffix_tl|apply Hf, R1].
Qed.
Lemma kept_value {A B} (r : pres B) (f : B -> pres (sbuf * A)) toks : (forall v, kept (f v) toks) -> kept (pbind r f) toks.
Proof. intros H. destruct r; cbn [pbind]; try exact I. apply H. Qed.
Lemma kept_then {A B} (r : pres (sbuf * B)) (f : sbuf * B -> pres (sbuf * A)) toks :
  kept r toks -> (forall b' x toks', repr b' toks' -> kept (f (b', x)) toks') -> kept (pbind r f) toks.
Proof.
  intros H Hf. destruct r as [[b' x]| | |]; cbn [pbind]; try exact I. destruct H as [t1 [R1 S1]].
  eapply kept_weaken; [exact S1|apply Hf, R1].
Qed.

Section Forward.
Context {D : Type} (dn : dops D).
Local Notation raw_problem := (raw_problem (D := D)).

Lemma quadratic_step_kept sign b (p : raw_problem) toks : repr b toks -> kept (quadratic_step dn sign b p) toks.
Proof.
  intros HR. unfold quadratic_step. apply kept_value. intros fct. apply kept_value. intros [[f at_] n].
  apply kept_pop; [exact HR|]. intros b1 t1 R1. destruct (text_eqb (first b1) (str "*")).
  - apply kept_value. intros nm2. destruct (get_or_assign_variable (rw_vars p) _) as [id1 vs]. destruct (get_or_assign_variable vs nm2) as [id2 vs2].
    apply kept_pop; [exact R1|]. intros b2 t2 R2. apply kept_here, R2.
  - destruct (_ || _).
    + destruct (_ && _); (apply kept_pop; [exact R1|]; intros b2 t2 R2; destruct (get_or_assign_variable _ _); apply kept_here, R2).
    + apply kept_here, R1.
Qed.
Lemma quadratic_loop_kept sign : forall fuel b (p : raw_problem) toks, repr b toks -> kept (quadratic_loop dn fuel sign b p) toks.
Proof.
  induction fuel as [|fuel IH]; intros b p toks HR; cbn [quadratic_loop]; (destruct (first b); [apply kept_here, HR|]);
    (destruct (text_eqb _ _); [apply kept_here, HR|]); [exact I|].
  apply kept_then; [apply quadratic_step_kept, HR|]. intros b' p' t' R'. apply IH, R'.
Qed.
Lemma read_quadratic_kept fuel sign b (p : raw_problem) toks : repr b toks -> kept (read_quadratic dn fuel sign b p) toks.
Proof.
  intros HR. unfold read_quadratic. destruct (negb _); [exact I|]. apply kept_pop_front; [exact HR|]. intros b1 t1 R1.
  apply kept_then; [apply quadratic_loop_kept, R1|]. intros b2 p2 t2 R2. apply kept_pop_front; [exact R2|]. intros b3 t3 R3.
  destruct (_ && _); [apply kept_pop; [exact R3|]; intros; apply kept_here; assumption|].
  destruct (text_eqb _ _); [apply kept_pop; [exact R3|]; intros; apply kept_here; assumption|exact I].
Qed.
Lemma objective_step_kept fuel b (p : raw_problem) toks : repr b toks -> kept (objective_step dn fuel b p) toks.
Proof.
  intros HR. unfold objective_step. destruct (starts_with_quadratic _ _).
  - destruct (text_eqb _ _); [apply kept_pop_front; [exact HR|]; intros; apply read_quadratic_kept; assumption|].
    destruct (text_eqb _ _); [apply kept_pop_front; [exact HR|]; intros; apply read_quadratic_kept; assumption|].
    apply read_quadratic_kept, HR.
  - apply kept_value. intros e. apply kept_value. intros [[f nm] n]. cbv zeta. apply kept_pop; [exact HR|]. intros; apply kept_here; assumption.
Qed.
Lemma objective_loop_kept : forall fuel b (p : raw_problem) toks, repr b toks -> kept (objective_loop dn fuel b p) toks.
Proof.
  induction fuel as [|fuel IH]; intros b p toks HR; cbn [objective_loop]; (destruct (is_keyword _); [apply kept_here, HR|]); [exact I|].
  apply kept_then; [apply objective_step_kept, HR|]. intros b' p' t' R'. apply IH, R'.
Qed.
Definition kept3 {A B} (r : pres (sbuf * A * B)) (toks : list text) : Prop :=
  match r with P_ok (b', _, _) => exists toks', repr b' toks' /\ suffix toks' toks | _ => True end.
Lemma constraint_element_kept b vs els toks : repr b toks -> kept3 (constraint_element dn b vs els) toks.
Proof.
  intros HR. unfold constraint_element. destruct (read_function_element dn _ _ _) as [[[[f nm] n]|]| | |]; cbn [pbind or_error]; try exact I.
  destruct (get_or_assign_variable vs nm) as [id vs1]. destruct (d_int dn f); cbn [or_abort pbind]; [|exact I].
  destruct (pop n b) as [b1|] eqn:E; cbn [or_abort pbind]; [|exact I].
  destruct (pop_repr _ _ _ _ HR E) as [t1 [R1 [S1 _]]]. exists t1. auto.
Qed.
Lemma elements_loop_kept : forall fuel b vs els toks, repr b toks -> kept3 (elements_loop dn fuel b vs els) toks.
Proof.
  assert (Hh : forall b (vs : variables) (els : list felem) toks, repr b toks -> kept3 (P_ok (b, vs, els)) toks)
    by (intros b vs els toks H; exists toks; split; [exact H|apply suffix_refl]).
  induction fuel as [|fuel IH]; intros b vs els toks HR; cbn [elements_loop]; (destruct (first b); [apply Hh, HR|]);
    (destruct (starts_with_operator _); [apply Hh, HR|]); [exact I|].
  pose proof (constraint_element_kept b vs els toks HR) as H. destruct (constraint_element dn b vs els) as [[[b1 vs1] els1]| | |]; cbn [pbind]; try exact I.
  destruct H as [t1 [R1 S1]]. specialize (IH b1 vs1 els1 t1 R1). unfold kept3 in *. destruct (elements_loop dn fuel b1 vs1 els1) as [[[b2 vs2] els2]| | |]; auto.
  destruct IH as [t2 [R2 S2]]. exists t2. split; [exact R2|eapply suffix_trans; eauto].
Qed.
Lemma constraint_step_kept fuel id b (p : raw_problem) toks : repr b toks -> kept (constraint_step dn fuel id b p) toks.
Proof.
  intros HR. unfold constraint_step.
  assert (H1 : match read_label b with P_ok (_, b') => exists t, repr b' t /\ suffix t toks | _ => True end).
  { unfold read_label. destruct (_ && _); [|exists toks; split; [exact HR|apply suffix_refl]].
    destruct (pop 2 b) as [b1|] eqn:E; cbn [or_abort pbind]; [|exact I]. destruct (pop_repr _ _ _ _ HR E) as [t1 [R1 [S1 _]]]. exists t1. auto. }
  destruct (read_label b) as [[label b1]| | |]; cbn [pbind]; try exact I. destruct H1 as [t1 [R1 S1]]. eapply kept_weaken; [exact S1|]. clear S1.
  pose proof (constraint_element_kept b1 (rw_vars p) [] t1 R1) as H2. destruct (constraint_element dn b1 (rw_vars p) []) as [[[b2 vs2] els2]| | |]; cbn [pbind]; try exact I.
  destruct H2 as [t2 [R2 S2]]. eapply kept_weaken; [exact S2|]. clear S2.
  pose proof (elements_loop_kept fuel b2 vs2 els2 t2 R2) as H3. destruct (elements_loop dn fuel b2 vs2 els2) as [[[b3 vs3] els3]| | |]; cbn [pbind]; try exact I.
  destruct H3 as [t3 [R3 S3]]. eapply kept_weaken; [exact S3|]. clear S3.
  apply kept_value. intros [op n]. apply kept_pop; [exact R3|]. intros b4 t4 R4. apply kept_value. intros [v m]. apply kept_value. intros z.
  apply kept_pop; [exact R4|]. intros b5 t5 R5. apply kept_here, R5.
Qed.
Lemma constraints_loop_kept : forall fuel id b (p : raw_problem) toks, repr b toks -> kept (constraints_loop dn fuel id b p) toks.
Proof.
  induction fuel as [|fuel IH]; intros id b p toks HR; cbn [constraints_loop]; (destruct (first b); [apply kept_here, HR|]);
    (destruct (is_keyword _); [apply kept_here, HR|]); [exact I|].
  apply kept_then; [apply constraint_step_kept, HR|]. intros b' p' t' R'. apply IH, R'.
Qed.
Lemma bounds_loop_kept : forall fuel b vs toks, repr b toks -> kept (bounds_loop dn fuel b vs) toks.
Proof.
  induction fuel as [|fuel IH]; intros b vs toks HR; cbn [bounds_loop]; (destruct (is_keyword _); [apply kept_here, HR|]); [exact I|].
  apply kept_value. intros o. apply kept_value. intros bd. apply kept_value. intros vs1. apply kept_pop; [exact HR|]. intros b' t' R'. apply IH, R'.
Qed.
Lemma names_loop_kept set : forall fuel b vs toks, repr b toks -> kept (names_loop set fuel b vs) toks.
Proof.
  induction fuel as [|fuel IH]; intros b vs toks HR; cbn [names_loop]; (destruct (is_keyword _); [apply kept_here, HR|]); [exact I|].
  apply kept_value. intros vs1. apply kept_pop_front; [exact HR|]. intros b' t' R'. apply IH, R'.
Qed.
Lemma section_kept n loop b (p : raw_problem) toks : (forall b vs toks, repr b toks -> kept (loop b vs) toks) -> repr b toks -> kept (section_ n loop b p) toks.
Proof.
  intros Hl HR. unfold section_. destruct n; [apply kept_here, HR|]. apply kept_pop; [exact HR|]. intros b' t' R'.
  apply kept_then; [apply Hl, R'|]. intros b2 vs t2 R2. apply kept_here, R2.
Qed.
(** What is left when the last word is read. *)
Theorem parse_end fuel b (p q : raw_problem) toks : repr b toks -> parse dn fuel b p = P_ok q ->
  exists pre e, (toks = pre ++ [e] \/ toks = pre ++ [e; str ":"]) /\ are_equal e (str "end") = true.
Proof.
  intros HR. unfold parse. destruct (read_objective_type _) as [ty|]; cbn [or_error pbind]; [|discriminate].
  destruct (pop_front_repr _ _ HR) as [b1 [E1 R1]]. rewrite E1. cbn [or_abort pbind]. pose proof (suffix_tl toks) as S1.
  assert (H2 : match pop_read (try_read_objective_label (first b1) (second b1)) b1 with P_ok b2 => exists t2, repr b2 t2 /\ suffix t2 toks | _ => True end).
  { unfold pop_read. destruct (try_read_objective_label (first b1) (second b1)) as [|n]; [exists (tl toks); split; [exact R1|exact S1]|].
    destruct (pop (S n) b1) as [b2|] eqn:E2; cbn [or_abort]; [|exact I]. destruct (pop_repr _ _ _ _ R1 E2) as [t2 [R2 [S2 _]]].
    exists t2. split; [exact R2|eapply suffix_trans; eauto]. }
  destruct (pop_read _ b1) as [b2| | |]; cbn [pbind]; try discriminate. destruct H2 as [t2 [R2 S2]].
  pose proof (objective_loop_kept fuel b2 (set_type ty p) t2 R2) as H3.
  destruct (objective_loop dn fuel b2 (set_type ty p)) as [[b3 p3]| | |]; cbn [pbind]; try discriminate. destruct H3 as [t3 [R3 S3]].
  assert (S3' : suffix t3 toks) by (eapply suffix_trans; eauto).
  assert (H4 : kept (match read_subject_to (first b3) (second b3) (third b3) with O => P_ok (b3, p3) | n => let? b := or_abort (pop n b3) in constraints_loop dn fuel 0 b p3 end) t3).
  { destruct (read_subject_to _ _ _) as [|n]; [apply kept_here, R3|]. apply kept_pop; [exact R3|]. intros b' t' R'. apply constraints_loop_kept, R'. }
  match goal with |- pbind ?r _ = _ -> _ => destruct r as [[b4 p4]| | |] end; cbn [pbind]; try discriminate. destruct H4 as [t4 [R4 S4]].
  assert (S4' : suffix t4 toks) by (eapply suffix_trans; eauto).
  pose proof (section_kept (read_bounds (first b4) (second b4)) (bounds_loop dn fuel) b4 p4 t4 (bounds_loop_kept fuel) R4) as H5.
  match goal with |- pbind ?r _ = _ -> _ => destruct r as [[b5 p5]| | |] end; cbn [pbind]; try discriminate. destruct H5 as [t5 [R5 S5]].
  assert (S5' : suffix t5 toks) by (eapply suffix_trans; eauto).
  pose proof (section_kept (read_binary (first b5) (second b5)) (names_loop set_boolean_variable fuel) b5 p5 t5 (names_loop_kept _ fuel) R5) as H6.
  match goal with |- pbind ?r _ = _ -> _ => destruct r as [[b6 p6]| | |] end; cbn [pbind]; try discriminate. destruct H6 as [t6 [R6 S6]].
  assert (S6' : suffix t6 toks) by (eapply suffix_trans; eauto).
  pose proof (section_kept (read_general (first b6) (second b6)) (names_loop set_integer_variable fuel) b6 p6 t6 (names_loop_kept _ fuel) R6) as H7.
  match goal with |- pbind ?r _ = _ -> _ => destruct r as [[b7 p7]| | |] end; cbn [pbind]; try discriminate. destruct H7 as [t7 [R7 S7]].
  assert (S7' : suffix t7 toks) by (eapply suffix_trans; eauto). destruct S7' as [pre Epre].
  unfold read_end, read_section, any_of. cbn [existsb]. unfold first at 1, second. rewrite !(token_at_ok _ _ _ R7) by lia. rewrite orb_false_r.
  destruct t7 as [|e t7]; [cbn [nth]; discriminate|]. cbn [nth].
  destruct (are_equal e (str "end")) eqn:Ee; [|discriminate]. exists pre, e. split; [|exact Ee]. revert H. unfold colon.
  destruct t7 as [|x t7]; [left; exact Epre|]. cbn [nth].
  destruct (are_equal x (str ":")) eqn:Ex.
  - change (1 + 1) with 2. destruct (pop_ok 2 b7 _ R7 ltac:(lia)) as [b8 [E8 R8]]. rewrite E8. cbn [or_abort pbind skipn] in *.
    rewrite (first_nil _ _ R8). destruct t7 as [|y t7]; cbn [nth].
    + intros _. right. rewrite Epre. do 2 f_equal. destruct x as [|c [|d x]]; cbn in Ex; try discriminate.
      * revert Ex. pose proof (all_chars (fun c => implb (Ascii.eqb (tolower c) (tolower ":"%char) && true) (Ascii.eqb c ":"%char)) ltac:(vm_compute; reflexivity) c) as Hc.
        cbv beta in Hc. intros Ex. change (tolower ":"%char) with ":"%char in *. rewrite Ex in Hc. cbn [implb] in Hc. apply Ascii.eqb_eq in Hc. rewrite Hc. reflexivity.
      * rewrite andb_false_r in Ex. discriminate.
    + pose proof (rp_toks _ _ R8) as Hn. inversion Hn as [|? ? Hy]; subst. destruct y; [congruence|discriminate].
  - destruct (pop_ok 1 b7 _ R7 ltac:(lia)) as [b8 [E8 R8]]. rewrite E8. cbn [or_abort pbind skipn] in *.
    rewrite (first_nil _ _ R8). cbn [nth]. pose proof (rp_toks _ _ R8) as Hn. inversion Hn as [|? ? Hy]; subst. destruct x; [congruence|discriminate].
Qed.
Theorem accepted_end t fuel q : readable t -> ends_plain t -> make_problem dn fuel t = P_ok q ->
  exists pre e, (file_tokens t = pre ++ [e] \/ file_tokens t = pre ++ [e; str ":"]) /\ are_equal e (str "end") = true.
Proof.
  intros H1 H2. destruct (buffer_tokens t H1 H2) as [b [E R]]. unfold make_problem. rewrite E. cbn [or_abort pbind]. apply parse_end, R.
Qed.
End Forward.

(** ** The tokens of a cut text *)
(** [l1] starts as [l2]: the same elements, then nothing or a first part of the next one. *)
Definition starts_list (l1 l2 : list text) : Prop :=
  exists ts part rest, l1 = ts ++ flush part /\ l2 = ts ++ rest /\ (part = [] \/ exists x y, rest = (part ++ x) :: y).
Lemma starts_cons a l1 l2 : starts_list l1 l2 -> starts_list (a :: l1) (a :: l2).
Proof. intros [ts [part [rest [-> [-> H]]]]]. exists (a :: ts), part, rest. auto. Qed.
Lemma starts_app a l1 l2 : starts_list l1 l2 -> starts_list (a ++ l1) (a ++ l2).
Proof. induction a as [|x a IH]; [auto|]. intros H. cbn [app]. apply starts_cons, IH, H. Qed.
Lemma starts_nil l : starts_list [] l.
Proof. exists [], [], l. auto. Qed.
Lemma flush_app (w r : text) : w <> [] -> flush (w ++ r) = [w ++ r].
Proof. destruct w; [congruence|reflexivity]. Qed.
Lemma words_from_first : forall r cur, cur <> [] -> exists x y, words_from cur r = (cur ++ x) :: y.
Proof.
  induction r as [|c r IH]; intros cur Hc; cbn [words_from].
  - exists [], []. rewrite app_nil_r. destruct cur; [congruence|reflexivity].
  - chars. destruct (isspace c).
    + exists [], (words_from [] r). rewrite app_nil_r. destruct cur; [congruence|reflexivity].
    + destruct (IH (cur ++ [c])) as [x [y E]]; [destruct cur; discriminate|]. exists (c :: x), y. rewrite E, <- app_assoc. reflexivity.
Qed.
Lemma words_cut : forall c cur r, exists ts part rest, words_from cur c = ts ++ flush part /\ words_from cur (c ++ r) = ts ++ rest /\
  (part = [] \/ exists x y, rest = (part ++ x) :: y).
Proof.
  induction c as [|a c IH]; intros cur r; cbn [app words_from].
  - exists [], cur, (words_from cur r). split; [reflexivity|]. split; [reflexivity|].
    destruct cur as [|b cur]; [left; reflexivity|]. right. apply words_from_first. discriminate.
  - chars. destruct (isspace a); [|apply IH].
    destruct (IH [] r) as [ts [part [rest [E1 [E2 H]]]]]. exists (flush cur ++ ts), part, rest. rewrite E1, E2, <- !app_assoc. auto.
Qed.
Lemma split_first : forall r cur, cur <> [] -> exists x y, split cur r = (cur ++ x) :: y.
Proof.
  induction r as [|c r IH]; intros cur Hc; cbn [split].
  - exists [], []. rewrite app_nil_r. destruct cur; [congruence|reflexivity].
  - chars. destruct (is_separator c).
    + exists [], ([c] :: split [] r). rewrite app_nil_r. destruct cur; [congruence|reflexivity].
    + destruct (extends cur c).
      * destruct (IH (cur ++ [c])) as [x [y E]]; [destruct cur; discriminate|]. exists (c :: x), y. rewrite E, <- app_assoc. reflexivity.
      * exists [], (split [c] r). rewrite app_nil_r. reflexivity.
Qed.
Lemma split_cut : forall c cur r, starts_list (split cur c) (split cur (c ++ r)).
Proof.
  induction c as [|a c IH]; intros cur r; cbn [app split].
  - exists [], cur, (split cur r). split; [reflexivity|]. split; [reflexivity|].
    destruct cur as [|b cur]; [left; reflexivity|]. right. apply split_first. discriminate.
  - chars. destruct (is_separator a).
    + apply starts_app, starts_cons, IH.
    + destruct (extends cur a); [apply IH|apply starts_cons, IH].
Qed.
Lemma words_tokens_cut c r : starts_list (flat_map (split []) (words c)) (flat_map (split []) (words (c ++ r))).
Proof.
  unfold words. destruct (words_cut c [] r) as [ts [part [rest [E1 [E2 H]]]]]. rewrite E1, E2, !flat_map_app. apply starts_app.
  destruct H as [->|[x [y ->]]]; [apply starts_nil|]. destruct part as [|b part]; [apply starts_nil|]. cbn [flush flat_map]. rewrite app_nil_r.
  destruct (split_cut (b :: part) [] x) as [ts' [part' [rest' [F1 [F2 H']]]]]. rewrite F1, F2. exists ts', part', (rest' ++ flat_map (split []) y).
  split; [reflexivity|]. split; [rewrite app_assoc; reflexivity|]. destruct H' as [->|[x' [y' ->]]]; [left; reflexivity|right].
  exists x', (y' ++ flat_map (split []) y). reflexivity.
Qed.
(** Without a comment word. *)
Lemma without_comment_cut c r : without_comment (c ++ r) -> without_comment c.
Proof.
  unfold without_comment, words. destruct (words_cut c [] r) as [ts [part [rest [E1 [E2 H]]]]]. rewrite E1, E2. intros F. apply Forall_app in F. destruct F as [F1 F2].
  apply Forall_app. split; [exact F1|]. destruct H as [->|[x [y ->]]]; [constructor|]. inversion F2 as [|? ? Hl _]; subst.
  destruct part; constructor; [exact Hl|constructor].
Qed.
Lemma plain_file t : without_comment t -> ends_plain t /\ file_tokens t = flat_map (split []) (words t).
Proof.
  intros Hn. pose proof (words_all_lines t) as Hw. unfold without_comment in Hn.
  assert (Hc : Forall (fun l => Forall (fun w => comment_word w = false) (words l)) (lines t)).
  { apply Forall_forall. intros l Hl. apply Forall_forall. intros w Hwl. rewrite Forall_forall in Hn. apply Hn. rewrite <- Hw. apply in_flat_map. eauto. }
  split.
  - unfold ends_plain. set (L := filter _ _). destruct (existsb comment_word (last L [])) eqn:E; [|reflexivity]. exfalso.
    apply existsb_exists in E. destruct E as [w [Hw1 Hw2]]. assert (HL : L <> []) by (intros E; rewrite E in Hw1; destruct Hw1).
    assert (Hin : In (last L []) L). { destruct (exists_last HL) as [l' [a Ea]]. rewrite Ea. rewrite last_last. apply in_or_app. right. left. reflexivity. }
    unfold L in Hin at 2. apply filter_In in Hin. destruct Hin as [Hin _]. apply in_map_iff in Hin. destruct Hin as [l [El Hl]]. rewrite Forall_forall in Hc. specialize (Hc l Hl). rewrite El in Hc.
    rewrite Forall_forall in Hc. rewrite (Hc w Hw1) in Hw2. discriminate.
  - unfold file_tokens, file_words. f_equal. rewrite <- Hw. clear - Hc. induction Hc as [|l ls H _ IH]; cbn [flat_map]; [reflexivity|]. rewrite (uncomment_id _ H), IH. reflexivity.
Qed.
Lemma readable_cut c r : readable (c ++ r) -> readable c.
Proof.
  intros [H1 H2]. split; [apply Forall_app in H1; tauto|]. rewrite words_all_lines in *. unfold words in *.
  destruct (words_cut c [] r) as [ts [part [rest [E1 [E2 H]]]]]. rewrite E1. rewrite E2 in H2. apply Forall_app in H2. destruct H2 as [H2 H3].
  apply Forall_app. split; [exact H2|]. destruct H as [->|[x [y ->]]]; [constructor|]. inversion H3 as [|? ? Hl _]; subst. rewrite app_length in Hl.
  destruct part; constructor; [cbn [length] in *; lia|constructor].
Qed.

(** ** The cuts of a document *)
Lemma end_like_equal e x : are_equal e (str "end") = true -> end_like (e ++ x) = true.
Proof.
  unfold end_like. chars. destruct e as [|a [|b [|c [|d e]]]]; cbn; rewrite ?andb_false_r; try discriminate. auto.
Qed.
Lemma end_length e : are_equal e (str "end") = true -> length e = 3.
Proof. destruct e as [|a [|b [|c [|d e]]]]; cbn; rewrite ?andb_false_r; try discriminate. auto. Qed.
Lemma not_end_prefix (body pre : list text) e rest tail : Forall (fun w => end_like w = false) body -> end_like e = true ->
  pre ++ e :: rest = body ++ tail -> exists more, pre = body ++ more /\ tail = more ++ e :: rest.
Proof.
  intros Hb He. revert pre. induction body as [|w body IH]; intros pre E; [exists pre; auto|].
  inversion Hb; subst. destruct pre as [|v pre]; cbn [app] in E.
  - injection E as -> _. congruence.
  - injection E as -> E. destruct (IH H2 pre E) as [more [-> ->]]. exists more. auto.
Qed.
Theorem cut_tokens t c body e0 (colon : bool) : cut_of c t -> without_comment t ->
  file_tokens t = body ++ e0 :: (if colon then [str ":"] else []) -> are_equal e0 (str "end") = true -> Forall (fun w => end_like w = false) body ->
  forall pre e, (file_tokens c = pre ++ [e] \/ file_tokens c = pre ++ [e; str ":"]) -> are_equal e (str "end") = true ->
  file_tokens c = body ++ [e0] \/ (colon = true /\ file_tokens c = body ++ [e0; str ":"]).
Proof.
  intros [r ->] Hc Ht He0 Hb pre e Hf He.
  assert (Hc' : without_comment c) by (exact (without_comment_cut _ _ Hc)).
  destruct (plain_file _ Hc) as [_ Et]. destruct (plain_file _ Hc') as [_ Ec]. rewrite Et in Ht. rewrite Ec in *. clear Et Ec Hc Hc'.
  destruct (words_tokens_cut c r) as [ts [part [rest [E1 [E2 H]]]]]. rewrite E1 in *. rewrite E2 in Ht. clear E1 E2.
  pose proof (end_like_equal e [] He) as Hl. rewrite app_nil_r in Hl.
  assert (Hin : forall p r', p ++ e :: r' = body ++ e0 :: (if colon then [str ":"] else []) -> p = body /\ e = e0 /\ r' = (if colon then [str ":"] else [])).
  { intros p r' E. destruct (not_end_prefix body p e r' _ Hb Hl E) as [more [-> Em]]. destruct more as [|m more]; cbn [app] in Em.
    - injection Em as Em1 Em2. rewrite app_nil_r. auto.
    - injection Em as -> Em. destruct colon; [|destruct more; discriminate Em]. destruct more as [|m2 more]; [|destruct more; discriminate Em].
      cbn [app] in Em. injection Em as <-. vm_compute in He. discriminate. }
  destruct part as [|a part]; cbn [flush] in *.
  - rewrite app_nil_r in *. destruct Hf as [-> | ->].
    + rewrite <- app_assoc in Ht. cbn [app] in Ht. destruct (Hin pre rest Ht) as [-> [-> _]]. left. reflexivity.
    + rewrite <- app_assoc in Ht. cbn [app] in Ht. destruct (Hin pre _ Ht) as [-> [-> E]]. right. destruct colon; [|discriminate E]. auto.
  - destruct H as [H|[x [y ->]]]; [discriminate|]. destruct Hf as [Hf|Hf].
    + apply app_inj_tail in Hf. destruct Hf as [-> Hf]. rewrite Hf in *. clear Hf.
      pose proof (end_like_equal e x He) as Hlx.
      destruct (not_end_prefix body pre (e ++ x) y _ Hb Hlx Ht) as [more [-> Em]]. destruct more as [|m more]; cbn [app] in Em.
      * injection Em as Em _. assert (Hx : x = []). { apply (f_equal (@length _)) in Em. rewrite app_length, !end_length in Em by assumption. destruct x; [reflexivity|cbn in Em; lia]. }
        subst x. rewrite app_nil_r in *. subst e0. left. reflexivity.
      * injection Em as -> Em. destruct colon; [|destruct more; discriminate Em]. destruct more as [|m2 more]; [|destruct more; discriminate Em].
        cbn [app] in Em. injection Em as Em _. exfalso. rewrite <- Em in Hlx. vm_compute in Hlx. discriminate.
    + replace (pre ++ [e; str ":"]) with ((pre ++ [e]) ++ [str ":"]) in Hf by (rewrite <- app_assoc; reflexivity).
      apply app_inj_tail in Hf. destruct Hf as [-> Ep]. rewrite Ep in *. rewrite <- app_assoc in Ht. cbn [app] in Ht.
      destruct (Hin pre _ Ht) as [-> [-> E]]. right. destruct colon; [|discriminate E]. split; [reflexivity|]. rewrite <- app_assoc. reflexivity.
Qed.

Section Documents.
Context {D : Type} (dn : dops D).
Local Notation raw_problem := (raw_problem (D := D)).

Definition body_tokens (d : document) : list text :=
  dc_type d :: label_tokens (dc_label d) ++ flat_map oterm_tokens (dc_objective d) ++
  header_tokens (dc_subject d) ++ flat_map cst_tokens (dc_constraints d) ++
  section_tokens bline_tokens (dc_bounds d) ++ section_tokens (fun nm => [nm]) (dc_binary d) ++
  section_tokens (fun nm => [nm]) (dc_general d).
Lemma document_body d : document_tokens d = body_tokens d ++ header_tokens (dc_end d).
Proof. unfold document_tokens, body_tokens. cbn [app]. rewrite <- !app_assoc. reflexivity. Qed.
Local Notation plain_word w := (end_like w = false).
Lemma end_like_same w w' : same_word w w' = true -> end_like w = end_like w'.
Proof.
  unfold end_like. chars. intros H. apply are_equal_iff in H.
  assert (E : map tolower (firstn 3 w) = map tolower (firstn 3 w')) by (rewrite <- !firstn_map, H; reflexivity).
  destruct (are_equal (firstn 3 w) (str "end")) eqn:E1, (are_equal (firstn 3 w') (str "end")) eqn:E2; try reflexivity.
  - apply are_equal_iff in E1. rewrite E in E1. apply are_equal_iff in E1. congruence.
  - apply are_equal_iff in E2. rewrite <- E in E2. apply are_equal_iff in E2. congruence.
Qed.
Lemma num_plain_word n : num_ok dn n -> plain_word n.
Proof.
  intros [[c [r [-> Hc]]] _]. unfold end_like. chars.
  pose proof (all_chars (fun c => implb (is_digit c || Ascii.eqb c ".") (negb (Ascii.eqb (tolower c) (tolower "e")))) ltac:(vm_compute; reflexivity) c) as H. cbv beta in H.
  rewrite Hc in H. cbn [implb] in H. cbn [firstn str list_ascii_of_string are_equal]. destruct (Ascii.eqb (tolower c) (tolower "e")); [discriminate|reflexivity].
Qed.
Lemma signs_plain s : Forall (fun w => plain_word w) (sign_tokens s).
Proof. destruct s as [[|]|]; repeat constructor. Qed.
Lemma ops_plain op sp : Forall (fun w => plain_word w) (op_tokens op sp).
Proof. destruct op, sp; repeat constructor. Qed.
Lemma signed_plain s : signed_ok dn s -> Forall (fun w => plain_word w) (signed_tokens s).
Proof. intros H. apply Forall_app. split; [apply signs_plain|]. constructor; [apply num_plain_word, H|constructor]. Qed.
Lemma term_plain t : term_ok dn t -> plain_word (t_var t) -> Forall (fun w => plain_word w) (term_tokens t).
Proof.
  intros [_ H] Hv. apply Forall_app. split; [apply signs_plain|]. apply Forall_app. split; [|constructor; [exact Hv|constructor]].
  destruct (t_num t); constructor; [apply num_plain_word, H|constructor].
Qed.
Lemma label_plain l : Forall (fun w => plain_word w) (opt_list l) -> Forall (fun w => plain_word w) (label_tokens l).
Proof. intros H. destruct l; cbn in *; [|constructor]. inversion H; subst. constructor; [assumption|]. constructor; [reflexivity|constructor]. Qed.
Lemma firsts_in x l : In x l -> In x (firsts l).
Proof.
  induction l as [|y l IH]; [intros []|]. cbn [firsts In]. intros [->|H]; [auto|].
  destruct (text_eqb_spec y x) as [->|Hn]; [auto|right]. apply filter_In. split; [auto|].
  rewrite text_eqb_neq by exact Hn. reflexivity.
Qed.
Lemma header_plain w (h : header) : h_words h = [w] -> plain_word w -> Forall (fun w => plain_word w) (header_tokens h).
Proof. intros H Hw. unfold header_tokens. rewrite H. constructor; [exact Hw|]. destruct (h_colon h); repeat constructor. Qed.
Lemma one_of_plain w kws : is_one_of w kws = true -> forallb (fun k => negb (end_like k)) kws = true -> plain_word w.
Proof.
  intros H Hk. unfold is_one_of in H. apply existsb_exists in H. destruct H as [k [Hin H]]. rewrite forallb_forall in Hk. specialize (Hk k Hin).
  rewrite (end_like_same _ _ H). destruct (end_like k); [discriminate|reflexivity].
Qed.
Lemma section_plain {A} kws (P : A -> Prop) (f : A -> list text) s : section_ok kws P s -> forallb (fun k => negb (end_like k)) kws = true ->
  (forall a, P a -> Forall (fun w => plain_word w) (f a)) -> Forall (fun w => plain_word w) (section_tokens f s).
Proof.
  intros H Hk Hf. destruct s as [[h l]|]; [|constructor]. destruct H as [[w [Hw Ho]] Hl]. cbn [section_tokens]. apply Forall_app. split.
  - apply (header_plain w h Hw). exact (one_of_plain _ _ Ho Hk).
  - induction Hl as [|a l Ha _ IH]; cbn [flat_map]; [constructor|]. apply Forall_app. split; [apply Hf, Ha|exact IH].
Qed.
Lemma body_plain d ty : document_ok dn ty d -> Forall (fun w => plain_word w) (document_names d ++ document_labels d) ->
  Forall (fun w => plain_word w) (body_tokens d).
Proof.
  intros Hd H. apply Forall_app in H. destruct H as [HN HL]. unfold document_labels in HL. apply Forall_app in HL. destruct HL as [HL1 HL2].
  rewrite Forall_forall in HN.
  assert (HO : forall x, In x (flat_map oterm_names (dc_objective d)) -> plain_word x) by (intros x Hx; apply HN, firsts_in, in_or_app; auto).
  assert (HC : forall x, In x (flat_map (fun k => map t_var (cst_terms k)) (dc_constraints d)) -> plain_word x) by (intros x Hx; apply HN, firsts_in, in_or_app; auto).
  constructor.
  { pose proof (ok_type _ _ _ Hd) as H. unfold direction, is_word in H.
    apply (one_of_plain _ [str "maximize"; str "maximum"; str "max"; str "minimize"; str "minimum"; str "min"]); [|reflexivity].
    unfold is_one_of. cbn [existsb]. change (list_ascii_of_string ?s) with (str s) in H.
    repeat match goal with |- context [same_word (dc_type d) ?k] => destruct (same_word (dc_type d) k); [rewrite ?orb_true_r; reflexivity|] end.
    exfalso. cbn in H. discriminate. }
  apply Forall_app. split; [apply label_plain, HL1|]. apply Forall_app. split.
  { clear - dn Hd HO. pose proof (ok_objective _ _ _ Hd) as H. revert H HO. generalize (dc_objective d). induction l as [|o l IH]; cbn [flat_map]; intros Ho HO; [constructor|].
    apply Forall_app. destruct o as [t|s]; cbn [objective_ok oterm_tokens oterm_names] in *.
    - destruct Ho as [Ho1 Ho2]. split; [apply term_plain; [exact Ho1|]; apply HO; left; reflexivity|]. apply IH; [exact Ho2|]. intros x Hx. apply HO. right. exact Hx.
    - destruct Ho as [Ho1 [_ Ho2]]. split; [apply signed_plain, Ho1|]. apply IH; [exact Ho2|exact HO]. }
  apply Forall_app. split.
  { pose proof (ok_subject _ _ _ Hd) as H. unfold header_tokens. destruct H as [[w [-> Hw]]|[w1 [w2 [-> H]]]].
    - constructor; [apply (one_of_plain _ _ Hw); reflexivity|]. destruct (h_colon _); repeat constructor.
    - destruct H as [[H1 H2]|[H1 H2]]; (constructor; [rewrite (end_like_same _ _ H1); reflexivity|]; constructor; [rewrite (end_like_same _ _ H2); reflexivity|]; destruct (h_colon _); repeat constructor). }
  apply Forall_app. split.
  { pose proof (ok_constraints _ _ _ Hd) as H. revert H HC HL2. generalize (dc_constraints d). induction l as [|k l IH]; cbn [flat_map]; intros Hk HC HL2; [constructor|].
    inversion Hk as [|? ? Hk1 Hk2]; subst. apply Forall_app in HL2. destruct HL2 as [HL3 HL4]. apply Forall_app. split.
    - destruct Hk1 as [_ [Ht [Hv _]]]. unfold cst_tokens. unfold cst_terms in *. inversion Ht as [|? ? Ht1 Ht2]; subst.
      apply Forall_app. split; [apply label_plain, HL3|]. apply Forall_app. split; [apply term_plain; [apply Ht1|]; apply HC, in_or_app; left; left; reflexivity|].
      apply Forall_app. split; [|apply Forall_app; split; [apply ops_plain|apply signed_plain, Hv]].
      assert (HC' : forall x, In x (map t_var (k_terms k)) -> plain_word x) by (intros x Hx; apply HC, in_or_app; left; right; exact Hx).
      clear - dn Ht2 HC'. induction Ht2 as [|t ts [H _] _ IH]; cbn [flat_map map] in *; [constructor|]. apply Forall_app. split; [apply term_plain; [exact H|]; apply HC'; left; reflexivity|].
      apply IH. intros x Hx. apply HC'. right. exact Hx.
    - apply IH; [exact Hk2| |exact HL4]. intros x Hx. apply HC, in_or_app. right. exact Hx. }
  apply Forall_app. split.
  { apply (section_plain _ _ _ _ (ok_bounds _ _ _ Hd) eq_refl). intros b [Hb1 Hb2]. pose proof (HN _ Hb1) as Hp. destruct b as [nm sp v|lo sp1 nm sp2 hi]; cbn [bline_tokens bline_name] in *.
    - destruct Hb2 as [_ [Hv _]]. constructor; [exact Hp|]. apply Forall_app. split; [apply ops_plain|apply signed_plain, Hv].
    - destruct Hb2 as [Hlo [Hhi _]]. apply Forall_app. split; [apply signed_plain, Hlo|]. apply Forall_app. split; [apply ops_plain|]. constructor; [exact Hp|].
      apply Forall_app. split; [apply ops_plain|apply signed_plain, Hhi]. }
  apply Forall_app. split.
  - apply (section_plain _ _ _ _ (ok_binary _ _ _ Hd) eq_refl). intros nm Hn. constructor; [apply HN, Hn|constructor].
  - apply (section_plain _ _ _ _ (ok_general _ _ _ Hd) eq_refl). intros nm Hn. constructor; [apply HN, Hn|constructor].
Qed.
Definition end_plain (d : document) : document :=
  mk_document (dc_type d) (dc_label d) (dc_objective d) (dc_subject d) (dc_constraints d) (dc_bounds d) (dc_binary d) (dc_general d)
    (mk_header (h_words (dc_end d)) false).
Theorem cut_document d ty t c fuel p : dops_ok dn -> readable t -> without_comment t -> file_tokens t = document_tokens d -> document_ok dn ty d ->
  Forall (fun w => plain_word w) (document_names d ++ document_labels d) -> length (file_tokens t) <= fuel -> cut_of c t ->
  make_problem dn fuel c = P_ok p -> make_problem dn fuel t = P_ok p /\ (h_colon (dc_end d) = false -> file_tokens c = file_tokens t).
Proof.
  intros Hdn Hr Hc Ht Hd Hw Hf Hcut Hp. destruct Hcut as [r Er].
  assert (Hrc : readable c) by (rewrite Er in Hr; exact (readable_cut _ _ Hr)).
  assert (Hcc : without_comment c) by (rewrite Er in Hc; exact (without_comment_cut _ _ Hc)).
  destruct (plain_file _ Hc) as [Hpt _]. destruct (plain_file _ Hcc) as [Hpc _].
  destruct (accepted_end dn c fuel p Hrc Hpc Hp) as [pre [e [Hpre He]]].
  cut (make_problem dn fuel c = P_ok (meaning dn ty d) /\ (h_colon (dc_end d) = false -> file_tokens c = file_tokens t)).
  { intros [H1 H2]. split; [|exact H2]. rewrite (make_problem_document dn Hdn t d ty fuel Hr Hpt Ht Hd Hf). congruence. }
  destruct (ok_end _ _ _ Hd) as [w [Ew Hwe]]. chars.
  assert (Hct : cut_of c t) by (exists r; exact Er).
  assert (Et : file_tokens t = body_tokens d ++ w :: (if h_colon (dc_end d) then [str ":"] else [])) by (rewrite Ht, document_body; unfold header_tokens; rewrite Ew; reflexivity).
  destruct (cut_tokens t c (body_tokens d) w _ Hct Hc Et Hwe (body_plain d ty Hd Hw) pre e Hpre He) as [E|[Ecol E]].
  - split; [|intros Hcol; rewrite E, Et, Hcol; reflexivity].
    apply (make_problem_document dn Hdn c (end_plain d) ty fuel Hrc Hpc).
    + rewrite E, document_body. unfold header_tokens. cbn [end_plain dc_end h_words h_colon]. rewrite Ew. reflexivity.
    + destruct Hd. constructor; try assumption.
    + rewrite E. rewrite Et in Hf. rewrite app_length in *. cbn [length] in *. lia.
  - split; [|intros Hcol; congruence].
    apply (make_problem_document dn Hdn c d ty fuel Hrc Hpc); [|exact Hd|].
    + rewrite E, document_body. unfold header_tokens. rewrite Ew, Ecol. reflexivity.
    + rewrite E. rewrite Et, Ecol in Hf. exact Hf.
Qed.
Lemma written_labels p x : In x (document_labels (doc_of dn p)) -> exists c, In c (rw_equal p ++ rw_greater p ++ rw_less p) /\ c_label c = x.
Proof.
  unfold document_labels. cbn [doc_of dc_label opt_list app]. intros H. apply in_flat_map in H. destruct H as [k [Hk Hx]].
  change (In k (csts p)) in Hk. destruct (csts_In_all p k Hk) as [op [c [-> Hc]]]. exists c. split; [exact Hc|].
  cbn [cst_of k_label] in Hx. destruct (c_label c); cbn [opt_list In] in Hx; [destruct Hx|]. destruct Hx as [<-|[]]. reflexivity.
Qed.
Theorem cut_written p : dops_ok dn -> writable dn p ->
  Forall (fun w => plain_word w) (v_names (rw_vars p) ++ map c_label (rw_equal p ++ rw_greater p ++ rw_less p)) ->
  exists t p' s, write_problem dn p = Some t /\ renumbered s p p' /\
    forall c fuel q, cut_of c t -> length (file_tokens t) <= fuel -> make_problem dn fuel c = P_ok q -> q = p' /\ file_tokens c = file_tokens t.
Proof.
  intros Hdn Hw Hn. destruct (write_lexes dn p Hw) as [t [E L]]. destruct (lexes_file t _ L) as [R [P F]].
  exists t, (meaning dn (rw_type p) (doc_of dn p)). eexists. split; [exact E|]. split; [apply meaning_back, Hw|].
  intros c fuel q Hc Hf Hq.
  assert (Hcm : without_comment t).
  { destruct L as [ws [H1 [_ [H3 _]]]]. specialize (H1 []). rewrite app_nil_r in H1. change (words []) with (@nil text) in H1. rewrite app_nil_r in H1.
    unfold without_comment. rewrite H1. eapply Forall_impl; [|exact H3]. intros w [H _]. exact H. }
  pose proof (cut_document (doc_of dn p) (rw_type p) t c fuel q Hdn R Hcm F (document_written dn p Hw)) as HH.
  assert (HN : Forall (fun w => plain_word w) (document_names (doc_of dn p) ++ document_labels (doc_of dn p))).
  { apply Forall_forall. intros x Hx. rewrite Forall_forall in Hn. apply Hn, in_or_app. apply in_app_or in Hx. destruct Hx as [Hx|Hx].
    - left. apply (names_In dn p Hw x). exact Hx.
    - right. destruct (written_labels p x Hx) as [k [Hk <-]]. apply in_map, Hk. }
  specialize (HH HN Hf Hc Hq). destruct HH as [HH H2]. split; [|apply H2; reflexivity]. rewrite (make_problem_document dn Hdn t (doc_of dn p) (rw_type p) fuel R P F (document_written dn p Hw) Hf) in HH. congruence.
Qed.
End Documents.
