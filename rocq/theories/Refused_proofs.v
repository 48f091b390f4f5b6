(** The error of a refused file names the first section that cannot be read. *)
From Coq Require Import Ascii String Lia.
From Verif Require Import Base Problem_model ResultIO_model Chars_spec Lexer_model Lexer_spec Lexer_proofs Parser_model Parser_spec
  Parser_proofs Parser_proofs2 Parser_proofs3 Parser_proofs4 Parser_proofs5 Accept_spec Accept_proofs Accept_proofs2 Accept_proofs3 Accept_proofs4 Accept_proofs5 Accept_proofs6 Refused_spec.
Open Scope string_scope.
Open Scope list_scope.
Open Scope nat_scope.

Section Refused.
Context {D : Type} (dn : dops D).
Local Notation raw_problem := (raw_problem (D := D)).
Local Notation fine := (Forall (usual_word dn)).

(** ** The tags of each loop *)
Lemma or_abort_error {A} (o : option A) e : or_abort o <> P_error e.
Proof. destruct o; discriminate. Qed.
Lemma or_error_error {A} t (o : option A) e : or_error t o = P_error e -> e = t.
Proof. destruct o; cbn; congruence. Qed.
Lemma bind_error {A B} (r : pres A) (f : A -> pres B) e : pbind r f = P_error e -> r = P_error e \/ exists a, r = P_ok a /\ f a = P_error e.
Proof. destruct r; cbn; intros H; [right; eauto|left; congruence|discriminate|discriminate]. Qed.
Lemma real1_error t e : read_real1 dn t <> P_error e.
Proof. unfold read_real1. destruct (_ && _); [discriminate|]. destruct (Nat.ltb _ _); [discriminate|]. destruct (Nat.eqb _ _); discriminate. Qed.
Lemma real2_error t1 t2 e : read_real2 dn t1 t2 <> P_error e.
Proof.
  unfold read_real2. intros H. destruct (text_eqb t1 (str "-")); [|destruct (text_eqb t1 (str "+"))];
    (apply bind_error in H; destruct H as [H|(a & _ & H)]; [exact (real1_error _ _ H)|destruct a; discriminate]).
Qed.
Lemma element_error t1 t2 t3 e : read_function_element dn t1 t2 t3 <> P_error e.
Proof.
  unfold read_function_element. intros H. apply bind_error in H. destruct H as [H|([v n] & _ & H)]; [exact (real2_error _ _ _ H)|].
  cbn beta iota in H. destruct (_ && _); [|discriminate]. destruct (read_name _); discriminate.
Qed.
Lemma objective_tag : forall fuel b (p : raw_problem) toks e, repr b toks -> ~ In (str "[") toks -> objective_loop dn fuel b p = P_error e -> e = bad_objective.
Proof.
  induction fuel as [|fuel IH]; intros b p toks e HR Hb H; cbn [objective_loop] in H; destruct (is_keyword (first b)); try discriminate.
  apply bind_error in H. destruct H as [H|([b1 p1] & E & H)].
  - unfold objective_step in H. rewrite (repr_first _ _ HR), (repr_second _ _ HR), (no_quadratic _ Hb) in H.
    apply bind_error in H. destruct H as [H|(o & _ & H)]; [exfalso; exact (element_error _ _ _ _ H)|].
    apply bind_error in H. destruct H as [H|([[f nm] n] & _ & H)]; [exact (or_error_error _ _ _ H)|].
    apply bind_error in H. destruct H as [H|(b2 & _ & H)]; [exfalso; exact (or_abort_error _ _ H)|discriminate].
  - unfold objective_step in E. rewrite (repr_first _ _ HR), (repr_second _ _ HR), (no_quadratic _ Hb) in E.
    destruct (read_function_element dn _ _ _) as [o| | |]; cbn [pbind] in E; try discriminate. destruct o as [[[f nm] n]|]; cbn [or_error pbind] in E; [|discriminate].
    destruct (pop n b) as [b2|] eqn:E2; cbn [or_abort pbind] in E; [|discriminate]. injection E as <- <-. destruct (pop_sound _ _ _ _ HR E2) as [_ R2].
    exact (IH _ _ _ _ R2 (not_in_skipn _ _ _ Hb) H).
Qed.
Lemma celement_tag b vs els e : constraint_element dn b vs els = P_error e -> e = bad_constraint.
Proof.
  unfold constraint_element. intros H. apply bind_error in H. destruct H as [H|(o & _ & H)]; [exfalso; exact (element_error _ _ _ _ H)|].
  apply bind_error in H. destruct H as [H|([[f nm] n] & _ & H)]; [exact (or_error_error _ _ _ H)|]. destruct (get_or_assign_variable vs nm) as [id vs1].
  apply bind_error in H. destruct H as [H|(z & _ & H)]; [exfalso; exact (or_abort_error _ _ H)|].
  apply bind_error in H. destruct H as [H|(b2 & _ & H)]; [exfalso; exact (or_abort_error _ _ H)|discriminate].
Qed.
Lemma elements_tag : forall fuel b vs els e, elements_loop dn fuel b vs els = P_error e -> e = bad_constraint.
Proof.
  induction fuel as [|fuel IH]; intros b vs els e H; cbn [elements_loop] in H; destruct (first b) as [|c w]; try discriminate; destruct (starts_with_operator (c :: w)); try discriminate.
  apply bind_error in H. destruct H as [H|([[b1 vs1] els1] & _ & H)]; [exact (celement_tag _ _ _ _ H)|exact (IH _ _ _ _ H)].
Qed.
Lemma row_tag fuel id b p e : constraint_step dn fuel id b p = P_error e -> e = bad_constraint.
Proof.
  unfold constraint_step. intros H. apply bind_error in H. destruct H as [H|([lb b1] & _ & H)].
  { unfold read_label in H. destruct (_ && _); [|discriminate]. apply bind_error in H. destruct H as [H|(b1 & _ & H)]; [exfalso; exact (or_abort_error _ _ H)|discriminate]. }
  apply bind_error in H. destruct H as [H|([[b2 vs2] els2] & _ & H)]; [exact (celement_tag _ _ _ _ H)|].
  apply bind_error in H. destruct H as [H|([[b3 vs3] els3] & _ & H)]; [exact (elements_tag _ _ _ _ _ H)|].
  apply bind_error in H. destruct H as [H|([op n] & _ & H)]; [exact (or_error_error _ _ _ H)|].
  apply bind_error in H. destruct H as [H|(b4 & _ & H)]; [exfalso; exact (or_abort_error _ _ H)|].
  apply bind_error in H. destruct H as [H|([v n2] & _ & H)]; [exfalso; exact (real2_error _ _ _ H)|].
  apply bind_error in H. destruct H as [H|(z & _ & H)]; [exfalso; exact (or_abort_error _ _ H)|].
  apply bind_error in H. destruct H as [H|(b5 & _ & H)]; [exfalso; exact (or_abort_error _ _ H)|discriminate].
Qed.
Lemma rows_tag : forall fuel id b p e, constraints_loop dn fuel id b p = P_error e -> e = bad_constraint.
Proof.
  induction fuel as [|fuel IH]; intros id b p e H; cbn [constraints_loop] in H; destruct (first b) as [|c w]; try discriminate; destruct (is_keyword (c :: w)); try discriminate.
  apply bind_error in H. destruct H as [H|([b1 p1] & _ & H)]; [exact (row_tag _ _ _ _ _ H)|exact (IH _ _ _ _ H)].
Qed.
Lemma left_error t1 t2 t3 t4 e : read_left_bound dn t1 t2 t3 t4 <> P_error e.
Proof.
  unfold read_left_bound. intros H. destruct (_ || _); (apply bind_error in H; destruct H as [H|(o & _ & H)]; [exact (real1_error _ _ H)|discriminate]).
Qed.
Lemma right_error t1 t2 t3 t4 e : read_right_bound dn t1 t2 t3 t4 <> P_error e.
Proof.
  unfold read_right_bound. intros H. destruct (read_operator t1 t2) as [[op n]|]; [|discriminate]. destruct (if Nat.eqb n 1 then (t2, t3) else (t3, t4)) as [a b].
  destruct (_ || _); (apply bind_error in H; destruct H as [H|(o & _ & H)]; [exact (real1_error _ _ H)|discriminate]).
Qed.
Lemma bound_error t e : read_bound dn t <> P_error e.
Proof.
  unfold read_bound. intros H. destruct (starts_with_number (t 0)).
  - apply bind_error in H. destruct H as [H|(o & _ & H)]; [exact (left_error _ _ _ _ _ H)|]. destruct o as [[lv n]|]; [|discriminate]. destruct (read_name (t n)) as [nm|]; [|discriminate].
    destruct (negb _); [discriminate|]. apply bind_error in H. destruct H as [H|(o & _ & H)]; [exact (right_error _ _ _ _ _ H)|]. destruct o as [[rv m]|]; [|discriminate]. destruct (d_gt dn lv rv); discriminate.
  - destruct (starts_with_name (t 0)); [|discriminate]. destruct (read_name (t 0)) as [nm|]; [|discriminate]. destruct (starts_with_operator (t 1)); [|discriminate].
    apply bind_error in H. destruct H as [H|(o & _ & H)]; [exact (right_error _ _ _ _ _ H)|]. destruct o as [[rv m]|]; discriminate.
Qed.
Lemma set_value_error vs id f e : set_value vs id f <> P_error e.
Proof. unfold set_value. intros H. apply bind_error in H. destruct H as [H|(o & _ & H)]; [exact (or_abort_error _ _ H)|discriminate]. Qed.
Lemma bounds_tag : forall fuel b vs e, bounds_loop dn fuel b vs = P_error e -> e = bad_bound.
Proof.
  induction fuel as [|fuel IH]; intros b vs e H; cbn [bounds_loop] in H; destruct (is_keyword (first b)); try discriminate.
  apply bind_error in H. destruct H as [H|(o & _ & H)]; [exfalso; exact (bound_error _ _ H)|].
  apply bind_error in H. destruct H as [H|(bd & _ & H)]; [exact (or_error_error _ _ _ H)|].
  apply bind_error in H. destruct H as [H|(vs1 & _ & H)].
  - unfold set_bound_variable in H. apply bind_error in H. destruct H as [H|(id & _ & H)]; [exact (or_error_error _ _ _ H)|]. exfalso.
    apply bind_error in H. destruct H as [H|(mn & _ & H)]; [unfold bound_min in H; destruct (d_is_ninf dn _); [discriminate|exact (or_abort_error _ _ H)]|].
    apply bind_error in H. destruct H as [H|(mx & _ & H)]; [unfold bound_max in H; destruct (d_is_pinf dn _); [discriminate|exact (or_abort_error _ _ H)]|].
    exact (set_value_error _ _ _ _ H).
  - apply bind_error in H. destruct H as [H|(b1 & _ & H)]; [exfalso; exact (or_abort_error _ _ H)|exact (IH _ _ _ H)].
Qed.
Lemma names_tag set t : (forall nm vs e, set nm vs = P_error e -> e = t) -> forall fuel b vs e, names_loop set fuel b vs = P_error e -> e = t.
Proof.
  intros Hs. induction fuel as [|fuel IH]; intros b vs e H; cbn [names_loop] in H; destruct (is_keyword (first b)); try discriminate.
  apply bind_error in H. destruct H as [H|(vs1 & _ & H)]; [exact (Hs _ _ _ H)|].
  apply bind_error in H. destruct H as [H|(b1 & _ & H)]; [exfalso; exact (or_abort_error _ _ H)|exact (IH _ _ _ H)].
Qed.
Lemma set_boolean_tag nm vs e : set_boolean_variable nm vs = P_error e -> e = bad_binary.
Proof. unfold set_boolean_variable. intros H. apply bind_error in H. destruct H as [H|(id & _ & H)]; [exact (or_error_error _ _ _ H)|exfalso; exact (set_value_error _ _ _ _ H)]. Qed.
Lemma set_integer_tag nm vs e : set_integer_variable nm vs = P_error e -> e = bad_general.
Proof. unfold set_integer_variable. intros H. apply bind_error in H. destruct H as [H|(id & _ & H)]; [exact (or_error_error _ _ _ H)|exfalso; exact (set_value_error _ _ _ _ H)]. Qed.

(** ** The words that announce the sections *)
Lemma header_read kws toks n : any_of [] kws = false -> read_section kws (tk toks 0) (tk toks 1) = S n ->
  exists h w, h_words h = [w] /\ any_of w kws = true /\ toks = header_tokens h ++ skipn (S n) toks /\ whole_header h (skipn (S n) toks).
Proof.
  intros H0 H. unfold whole_header, word. unfold read_section, colon in H. destruct (any_of (tk toks 0) kws) eqn:A; [|discriminate].
  destruct toks as [|x toks]; [unfold tk in A; cbn in A; congruence|]. unfold tk in *. cbn [nth] in *.
  destruct toks as [|y toks]; cbn [nth] in H.
  - cbn in H. injection H as <-. exists (mk_header [x] false), x. repeat split; [exact A|intros _; discriminate].
  - destruct (are_equal y (str ":")) eqn:C; cbn in H; injection H as <-; [apply colon_text in C; subst y; exists (mk_header [x] true), x|exists (mk_header [x] false), x];
      repeat split; try exact A; [discriminate|]. intros _ Q. cbn [skipn nth] in Q. subst y. discriminate C.
Qed.
Lemma label_read toks : exists lb, opt (fun l => keyword l = false) lb /\ length (label_tokens lb) = try_read_objective_label (tk toks 0) (tk toks 1) /\
  toks = label_tokens lb ++ skipn (length (label_tokens lb)) toks /\ (lb = None -> keyword (word toks) = true \/ nth 1 toks [] <> str ":").
Proof.
  unfold try_read_objective_label. destruct (is_keyword (tk toks 0)) eqn:K; [exists (@None text); split; [exact I|split; [reflexivity|split; [reflexivity|intros _; left; exact K]]]|].
  destruct (are_equal (tk toks 1) (str ":")) eqn:C; [|exists (@None text); split; [exact I|split; [reflexivity|split; [reflexivity|intros _; right; intros Q; unfold tk in C; rewrite Q in C; discriminate C]]]].
  exists (Some (tk toks 0)). split; [exact K|]. split; [reflexivity|]. split; [|discriminate]. apply colon_text in C. destruct toks as [|x [|y toks]]; [discriminate C|discriminate C|]. unfold tk in *. cbn [nth] in *. subst y. reflexivity.
Qed.
Lemma subject_read toks n : is_keyword (tk toks 0) = true -> read_subject_to (tk toks 0) (tk toks 1) (tk toks 2) = S n ->
  exists h, subject_ok h /\ toks = header_tokens h ++ skipn (S n) toks.
Proof.
  intros K H. unfold read_subject_to in H. destruct (any_of (tk toks 0) _) eqn:A.
  - assert (A' : any_of (tk toks 0) [str "st"; str "st."; str "s.t."] = true).
    { unfold any_of in *. cbn [existsb] in A |- *. destruct (are_equal (tk toks 0) (str "st")); [reflexivity|]. destruct (are_equal (tk toks 0) (str "st.")); [reflexivity|].
      destruct (are_equal (tk toks 0) (str "s.t.")); [reflexivity|]. cbn [orb] in A. rewrite !orb_false_r in A. exfalso. unfold is_keyword in K. apply existsb_exists in K. destruct K as [k [K1 K2]].
      apply are_equal_iff in A, K2. rewrite A in K2. cbn in K1. repeat (destruct K1 as [<-|K1]; [discriminate K2|]). destruct K1. }
    destruct (header_read [str "st"; str "st."; str "s.t."] toks n eq_refl (eq_trans (f_equal (fun x : bool => if x then colon 1 (tk toks 1) else 0) A') H)) as (h & w & Hw & Ha & E & _).
    exists h. split; [left; exists w; auto|exact E].
  - assert (Q : colon 2 (tk toks 2) = S n ->
       ((same_word (tk toks 0) (str "subject") = true /\ same_word (tk toks 1) (str "to") = true) \/ (same_word (tk toks 0) (str "sush") = true /\ same_word (tk toks 1) (str "that") = true)) ->
       exists h, subject_ok h /\ toks = header_tokens h ++ skipn (S n) toks).
    { intros Hc Hw. destruct toks as [|x [|y toks]]; [destruct Hw as [[Q1 _]|[Q1 _]]; discriminate Q1|destruct Hw as [[_ Q1]|[_ Q1]]; discriminate Q1|]. unfold tk, colon in *. cbn [nth] in *.
      destruct toks as [|z toks]; cbn [nth] in Hc.
      - cbn in Hc. injection Hc as <-. exists (mk_header [x; y] false). split; [right; exists x, y; auto|reflexivity].
      - destruct (are_equal z (str ":")) eqn:C; cbn in Hc; injection Hc as <-;
          [apply colon_text in C; subst z; exists (mk_header [x; y] true)|exists (mk_header [x; y] false)]; (split; [right; exists x, y; auto|reflexivity]). }
    destruct (are_equal (tk toks 0) (str "subject") && are_equal (tk toks 1) (str "to")) eqn:S1.
    + apply andb_true_iff in S1. apply Q; [exact H|left; exact S1].
    + destruct (are_equal (tk toks 0) (str "sush") && are_equal (tk toks 1) (str "that")) eqn:S2; [|discriminate].
      apply andb_true_iff in S2. apply Q; [exact H|right; exact S2].
Qed.

Lemma same_colon w a : same_word w a = true -> are_equal a (str ":") = false -> are_equal w (str ":") = false.
Proof. intros H N. destruct (are_equal w (str ":")) eqn:E; [|reflexivity]. apply are_equal_iff in E. change (are_equal w a = true) in H. apply are_equal_iff in H. rewrite <- N. symmetry. apply are_equal_iff. congruence. Qed.
Lemma subject_read' toks n : is_keyword (tk toks 0) = true -> read_subject_to (tk toks 0) (tk toks 1) (tk toks 2) = S n ->
  exists h, subject_ok h /\ toks = header_tokens h ++ skipn (S n) toks /\ whole_header h (skipn (S n) toks).
Proof.
  intros K H. destruct (subject_read toks n K H) as (h & Hh & T). exists h. split; [exact Hh|]. split; [exact T|]. intros Hc Ew.
  assert (L : length (h_words h) = S n).
  { pose proof (f_equal (@length text) T) as L. unfold header_tokens in L. rewrite Hc, app_nil_r, app_length, skipn_length in L.
    assert (skipn (S n) toks <> []) by (intros E; rewrite E in Ew; discriminate Ew). assert (S n < length toks) by (apply skipn_more; assumption). lia. }
  destruct (skipn (S n) toks) as [|x z]; [discriminate Ew|]. cbn [word nth] in Ew. unfold word in Ew. cbn [nth] in Ew. subst x. unfold header_tokens in T. rewrite Hc, app_nil_r in T. subst toks. clear K.
  destruct Hh as [(w & Hw & _)|(w1 & w2 & Hw & Hs)]; rewrite Hw in *; cbn [length] in L; injection L as <-; unfold tk in H; cbn [app nth] in H; unfold read_subject_to, colon in H.
  - destruct (any_of w _); [discriminate H|]. change (are_equal (str ":") (str "to")) with false in H. change (are_equal (str ":") (str "that")) with false in H. rewrite !andb_false_r in H. discriminate H.
  - assert (E : are_equal w2 (str ":") = false) by (destruct Hs as [[_ Hs]|[_ Hs]]; exact (same_colon _ _ Hs eq_refl)). rewrite E in H. destruct (any_of w1 _); [discriminate H|].
    change (are_equal (str ":") (str ":")) with true in H. repeat match type of H with context[if ?c then _ else _] => destruct c end; discriminate H.
Qed.
Lemma no_subject toks : is_keyword (tk toks 0) = true -> read_subject_to (tk toks 0) (tk toks 1) (tk toks 2) = 0 <-> (forall h more, subject_ok h -> toks <> header_tokens h ++ more).
Proof.
  intros K. split.
  - intros H h more Hh ->. destruct Hh as [(w & Hw & Ha)|(w1 & w2 & Hw & Ha)]; unfold header_tokens, tk in *; rewrite Hw in *; cbn [app nth] in *; unfold read_subject_to in H.
    + replace (any_of w [str "st"; str "st."; str "s.t"; str "s.t."]) with true in H; [unfold colon in H; destruct (are_equal _ _) in H; discriminate H|].
      change is_one_of with any_of in Ha. unfold any_of in *. cbn [existsb] in *. destruct (are_equal w (str "st")), (are_equal w (str "st.")), (are_equal w (str "s.t")), (are_equal w (str "s.t.")); auto.
    + unfold colon in H. change same_word with are_equal in Ha. destruct (any_of w1 _); [destruct (are_equal w2 (str ":")); discriminate H|].
      destruct Ha as [[H1 H2]|[H1 H2]]; rewrite H1, H2 in H; cbn [andb] in H; repeat match type of H with context[if ?c then _ else _] => destruct c end; discriminate H.
  - intros H. destruct (read_subject_to _ _ _) as [|n] eqn:E; [reflexivity|]. destruct (subject_read toks n K E) as (h & Hh & T). destruct (H h _ Hh T).
Qed.
Lemma section_read {A} kws (f : A -> list text) (P : A -> Prop) (step : (text -> variable_value) -> A -> text -> variable_value) N loop : any_of [] kws = false ->
  (forall b h b' vs' toks, loop b (vars_of N h) = P_ok (b', vs') -> repr b toks ->
     exists l rest, toks = flat_map f l ++ rest /\ Forall P l /\ repr b' rest /\ is_keyword (tk rest 0) = true /\ vs' = vars_of N (fold_left step l h)) ->
  forall b (p : raw_problem) h b' p' toks, rw_vars p = vars_of N h -> section_ (read_section kws (first b) (second b)) loop b p = P_ok (b', p') -> repr b toks -> is_keyword (tk toks 0) = true ->
  exists s rest, (exists front, toks = front ++ rest) /\ list_section kws f P s toks rest /\ repr b' rest /\ is_keyword (tk rest 0) = true /\ exists h', rw_vars p' = vars_of N h'.
Proof.
  intros H0 Hloop b p h b' p' toks Hv H HR K. rewrite (repr_first _ _ HR), (repr_second _ _ HR) in H. unfold section_ in H. destruct (read_section kws (tk toks 0) (tk toks 1)) as [|n] eqn:E.
  - injection H as <- <-. exists None, toks. split; [exists []; reflexivity|]. split; [|split; [exact HR|split; [exact K|exists h; exact Hv]]]. split; [reflexivity|]. change is_one_of with any_of. unfold word.
    unfold read_section, colon in E. change (nth 0 toks []) with (tk toks 0). destruct (any_of (tk toks 0) kws); [|reflexivity]. destruct (are_equal _ _) in E; discriminate E.
  - destruct (pop (S n) b) as [b1|] eqn:E1; cbn [or_abort pbind] in H; [|discriminate]. destruct (pop_sound _ _ _ _ HR E1) as [_ R1]. destruct (header_read kws toks n H0 E) as (hd & w & Hw & Ha & T & Wh).
    rewrite Hv in H. destruct (loop b1 (vars_of N h)) as [[b2 vs2]| | |] eqn:E2; cbn [pbind] in H; try discriminate. injection H as <- <-.
    destruct (Hloop _ _ _ _ _ E2 R1) as (l & rest & T2 & Hl & R2 & K2 & ->). exists (Some l), rest. split; [exists (header_tokens hd ++ flat_map f l); rewrite <- app_assoc, <- T2; exact T|].
    split; [|split; [exact R2|split; [exact K2|eexists; reflexivity]]]. exists (skipn (S n) toks). split; [exists hd, w; auto|]. split; [exact T2|split; [exact Hl|exact K2]].
Qed.

(** ** A section that the loop refuses *)
Lemma section_refused {A} kws (f : A -> list text) (P : A -> Prop) N loop e b (p : raw_problem) h toks : any_of [] kws = false -> repr b toks -> rw_vars p = vars_of N h ->
  (forall b1 more, repr b1 more -> (exists front, toks = front ++ more) -> loop b1 (vars_of N h) = P_error e -> forall l rest, ~ list_part f P l more rest) ->
  section_ (read_section kws (first b) (second b)) loop b p = P_error e -> exists more b1, announced kws toks more /\ loop b1 (vars_of N h) = P_error e /\ forall l rest, ~ list_part f P l more rest.
Proof.
  intros H0 HR Hv Hl H. rewrite (repr_first _ _ HR), (repr_second _ _ HR) in H. unfold section_ in H. destruct (read_section kws (tk toks 0) (tk toks 1)) as [|n] eqn:E; [discriminate|].
  apply bind_error in H. destruct H as [H|(b1 & E1 & H)]; [exfalso; exact (or_abort_error _ _ H)|]. destruct (pop (S n) b) as [b1'|] eqn:Ep; [|discriminate]. injection E1 as ->.
  destruct (pop_sound _ _ _ _ HR Ep) as [_ R1]. destruct (header_read kws toks n H0 E) as (hd & w & Hw & Ha & ET & Wh). rewrite Hv in H.
  apply bind_error in H. destruct H as [H|([b2 vs2] & _ & H)]; [|discriminate]. exists (skipn (S n) toks), b1. split; [exists hd, w; auto|]. split; [exact H|].
  apply (Hl b1); [exact R1|exists (header_tokens hd); exact ET|exact H].
Qed.
Lemma names_good_in l (s : option (header * list row)) a : items_ok dn l a -> opt (fun s => exists a, rows_ok dn (snd s) a) s ->
  forall nm, In nm (names_in l s) -> nm <> [] -> good_name nm.
Proof.
  intros H1 H2 nm Hin Hne. unfold names_in in Hin. rewrite firsts_In in Hin. apply in_app_iff in Hin. destruct Hin as [Hin|Hin].
  - pose proof (items_vars dn _ _ H1) as F. rewrite Forall_forall in F. exact (F _ Hin).
  - destruct s as [[h ks]|]; [|destruct Hin]. destruct H2 as [a2 H2]. cbn [snd] in H2. pose proof (rows_names dn _ _ H2) as F. rewrite Forall_forall in F. destruct (F nm Hin); [congruence|assumption].
Qed.
Lemma firsts_in_front {A} (a b : list A) (Q : A -> Prop) : Forall Q (a ++ b) -> Forall Q b.
Proof. intros H. apply Forall_app in H. apply H. Qed.

(** ** A file that stops inside the constraints *)
Lemma row_read fuel id b p b' p' toks : constraint_step dn fuel id b p = P_ok (b', p') -> repr b toks -> is_keyword (tk toks 0) = false -> d_scan dn [] = None ->
  exists k, (S id, p') = append_row dn (id, p) k /\ exists rest, toks = row_tokens k ++ rest /\ repr b' rest /\ row_ok dn k (tk rest 0).
Proof.
  unfold constraint_step. intros H HR Hk Hs.
  destruct (read_label b) as [[label b1]| | |] eqn:E1; cbn [pbind] in H; try discriminate.
  destruct (constraint_element dn b1 (rw_vars p) []) as [[[b2 vs2] els2]| | |] eqn:E2; cbn [pbind] in H; try discriminate.
  destruct (elements_loop dn fuel b2 vs2 els2) as [[[b3 vs3] els3]| | |] eqn:E3; cbn [pbind] in H; try discriminate.
  destruct (read_operator (first b3) (second b3)) as [[op n4]|] eqn:E4; cbn [pbind or_error] in H; [|discriminate].
  destruct (pop n4 b3) as [b4|] eqn:E5; cbn [or_abort pbind] in H; [|discriminate].
  destruct (read_real2 dn (first b4) (second b4)) as [[v n5]| | |] eqn:E6; cbn [pbind] in H; try discriminate.
  destruct (d_int dn v) as [z|] eqn:E7; cbn [or_abort pbind] in H; [|discriminate].
  destruct (pop n5 b4) as [b5|] eqn:E8; cbn [or_abort pbind] in H; [|discriminate]. injection H as <- <-.
  (* the label *)
  assert (L : exists lb toks1, label = match lb with Some l => l | None => [] end /\ opt (fun l => name_like l = true /\ keyword l = false) lb /\ repr b1 toks1 /\
    (toks1 <> [] -> toks = label_tokens lb ++ toks1)).
  { unfold read_label in E1. rewrite (repr_first _ _ HR), (repr_second _ _ HR) in E1. destruct (starts_with_name (tk toks 0)) eqn:Sn.
    - destruct (text_eqb_spec (tk toks 1) (str ":")) as [Ec|Nc]; cbn [andb] in E1.
      + destruct (pop 2 b) as [b0|] eqn:E0; cbn [or_abort pbind] in E1; [|discriminate]. injection E1 as <- <-. destruct (pop_sound _ _ _ _ HR E0) as [_ R0].
        exists (Some (tk toks 0)), (skipn 2 toks). split; [reflexivity|]. split; [cbn [opt]; split; assumption|]. split; [exact R0|].
        intros Nz. apply skipn_more in Nz. cbn [label_tokens]. rewrite (tk_seq 2 toks) at 1 by lia. cbn [seq map]. rewrite Ec. reflexivity.
      + injection E1 as <- <-. exists None, toks. split; [reflexivity|]. split; [exact I|]. split; [exact HR|]. reflexivity.
    - cbn [andb] in E1. injection E1 as <- <-. exists None, toks. split; [reflexivity|]. split; [exact I|]. split; [exact HR|]. reflexivity. }
  destruct L as (lb & toks1 & -> & Hlb & R1 & T1).
  destruct (element_sound dn _ _ _ _ _ _ _ E2 R1) as (i & Ei & Zi & R2 & T2).
  destruct (elements_loop_sound dn _ _ _ _ _ _ _ _ E3 R2) as [R3|(l & rest & T3 & Hl & R3 & Ne & F & Z)].
  { rewrite (repr_first _ _ R3), (repr_second _ _ R3) in E4. discriminate E4. }
  assert (Nk : skipn (length (item_tokens i)) toks1 <> []) by (rewrite T3; intros E0; apply app_eq_nil in E0; destruct E0; contradiction).
  destruct (T2 Nk) as [T2' O2]. assert (N1 : toks1 <> []) by (intros E0; rewrite E0, skipn_nil in Nk; congruence). specialize (T1 N1).
  rewrite (repr_first _ _ R3), (repr_second _ _ R3) in E4. apply read_operator_sound in E4. destruct E4 as (sp & En4 & Et4).
  destruct (pop_sound _ _ _ _ R3 E5) as [Hn4 R4]. rewrite (repr_first _ _ R4), (repr_second _ _ R4) in E6. apply (read_real2_sound dn) in E6.
  destruct E6 as (s & m & En5 & Et5 & Hm & Hv & Hm0). destruct (pop_sound _ _ _ _ R4 E8) as [Hn5 R5].
  exists (mk_row lb (i :: l) op sp s m). unfold append_row, row_ok, row_terms, row_number, row_tokens. cbn [fst snd w_label w_items w_op w_spell w_sign w_num map fold_left].
  rewrite <- Ei, <- F. split; [unfold int_of; rewrite <- Hv, E7; reflexivity|].
  assert (L4 : n4 <= 2) by (rewrite En4; destruct op, sp; cbn; lia). assert (L5 : n5 <= 2) by (rewrite En5, app_length; destruct s as [[]|], m; cbn; lia).
  assert (Q4 : n4 <= length rest).
  { destruct (Nat.le_gt_cases n4 (length rest)) as [K|K]; [exact K|exfalso]. destruct rest as [|r0 [|r1 rest]]; [congruence| |cbn [length] in K; lia].
    cbn [length] in K. assert (Two : n4 = 2) by lia. rewrite Two in Et4, En4. destruct op, sp; cbn in Et4, En4; discriminate. }
  assert (Q5 : n5 <= length (skipn n4 rest)).
  { destruct (Nat.le_gt_cases n5 (length (skipn n4 rest))) as [K|K]; [exact K|exfalso]. set (r := skipn n4 rest) in *.
    assert (Nn : number dn [] = None) by (unfold number; cbn; exact Hs).
    destruct m as [m|]; [|destruct s as [[]|]; cbn in En5, Et5; subst n5; cbn [length] in K; (destruct r; [cbn in Et5; discriminate|cbn [length] in K; lia])].
    assert (Em : m = []).
    { destruct s as [sg|]; cbn [sign_tokens num_tokens app length] in En5, Et5; subst n5.
      - destruct r as [|r0 [|r1 r]]; cbn [length] in K; [|  |lia]; unfold tk in Et5; cbn in Et5; destruct sg; cbn in Et5; congruence.
      - destruct r as [|r0 r]; cbn [length] in K; [|lia]. unfold tk in Et5. cbn in Et5. congruence. }
    cbn [opt] in Hm. unfold is_num in Hm. rewrite Em in Hm. congruence. }
  exists (skipn n5 (skipn n4 rest)). split; [|split; [exact R5|]].
  - rewrite T1, T2', T3. rewrite <- !app_assoc. f_equal. cbn [flat_map]. rewrite <- app_assoc. do 2 f_equal.
    rewrite (three n4 rest) at 1 by lia. replace (firstn n4 [tk rest 0; tk rest 1; tk rest 2]) with (op_tokens op sp)
      by (rewrite Et4; destruct n4 as [|[|[|n4]]]; try reflexivity; lia). f_equal.
    rewrite (three n5 (skipn n4 rest)) at 1 by lia. rewrite app_assoc. f_equal. rewrite Et5. destruct n5 as [|[|[|n5]]]; try reflexivity; lia.
  - split; [exact Hlb|]. split; [discriminate|]. split.
    + assert (A : items_ok dn (i :: l) rest) by (cbn [items_ok]; rewrite <- T3; split; assumption).
      revert A. apply items_ok_after. rewrite Et4. destruct n4 as [|n4]; [lia|reflexivity].
    + split; [constructor; assumption|]. split; [|split; [exact Hm|split; [|unfold int_ok; rewrite <- Hv; congruence]]].
      * destruct s; [left; discriminate|]. destruct m; [right; discriminate|]. cbn in En5. lia.
      * cbn [w_num]. intros Em. specialize (Hm0 Em). rewrite Em in *. rewrite <- Hm0. f_equal. rewrite tk_skipn, Nat.add_0_r.
        destruct s as [[]|]; cbn in En5; rewrite En5 in *; [reflexivity|reflexivity|lia].
Qed.
Lemma rows_read : forall fuel id b (p : raw_problem) b' p' toks, d_scan dn [] = None -> constraints_loop dn fuel id b p = P_ok (b', p') -> repr b toks -> repr b' [] ->
  exists ks, toks = flat_map row_tokens ks /\ rows_ok dn ks [].
Proof.
  induction fuel as [|fuel IH]; intros id b p b' p' toks Hs H HR H0; cbn [constraints_loop] in H; destruct (first b) as [|c w] eqn:Ef.
  1,3: exists []; split; [|exact I]; rewrite (repr_first _ _ HR) in Ef; destruct toks as [|x toks]; [reflexivity|];
    pose proof (rp_toks _ _ HR) as F; inversion F as [|? ? F1 F2]; subst; unfold tk in Ef; cbn in Ef; congruence.
  1,2: rewrite <- Ef in H; destruct (is_keyword (first b)) eqn:K;
    [exfalso; injection H as -> _; rewrite (repr_first _ _ H0) in Ef; discriminate Ef|].
  - discriminate.
  - destruct (constraint_step dn fuel id b p) as [[b1 p1]| | |] eqn:E; cbn [pbind] in H; try discriminate. rewrite (repr_first _ _ HR) in K.
    destruct (row_read _ _ _ _ _ _ _ E HR K Hs) as (k & _ & rest1 & T1 & R1 & Hk). destruct (IH _ _ _ _ _ _ Hs H R1 H0) as (ks & T & Hks).
    exists (k :: ks). cbn [flat_map rows_ok]. rewrite app_nil_r, <- T. split; [exact T1|]. split; [exact Hk|exact Hks].
Qed.
Lemma rows_to_the_end : forall ks fuel id b (p : raw_problem), rows_ok dn ks [] -> repr b (flat_map row_tokens ks) -> fine (flat_map row_tokens ks) ->
  length (flat_map row_tokens ks) <= fuel -> exists b' p', constraints_loop dn fuel id b p = P_ok (b', p') /\ repr b' [].
Proof.
  induction ks as [|k ks IH]; intros fuel id b p Hok HR H3 Hf.
  { exists b, p. split; [|exact HR]. pose proof (repr_first _ _ HR) as E. destruct fuel; cbn [constraints_loop]; rewrite E; reflexivity. }
  destruct Hok as [Hi Hok]. cbn [flat_map] in *. rewrite app_length in Hf. rewrite app_nil_r in Hi.
  destruct (row_first dn k _ (flat_map row_tokens ks) (fine_left dn _ _ H3) Hi) as (x & y & Ex & Kx & Nx & _).
  assert (L1 : 1 <= length (row_tokens k)). { destruct Hi as (_ & Hne & His & _). unfold row_tokens. rewrite !app_length. pose proof (items_len dn _ _ His). destruct (w_items k); [congruence|cbn [length] in *; lia]. }
  destruct fuel as [|fuel]; [lia|]. cbn [constraints_loop]. assert (Ef : first b = x) by (rewrite (repr_first _ _ HR), Ex; reflexivity). rewrite Ef. destruct x as [|c x]; [congruence|]. rewrite Kx.
  destruct (row_complete dn k fuel id b p _ Hi HR H3) as [b1 [E1 R1]]; [pose proof (row_len dn _ _ Hi); lia|]. rewrite E1. cbn [pbind].
  exact (IH fuel (S id) b1 _ Hok R1 (fine_app dn _ _ H3) ltac:(lia)).
Qed.

Theorem parse_refused fuel b toks e : d_scan dn [] = None -> repr b toks -> ~ In (str "[") toks -> fine toks -> length toks <= fuel ->
  parse dn fuel b (empty_problem dn) = P_error e -> first_fault dn e toks.
Proof.
  intros Hscan HR Hb Hfine Hfuel H. pose proof (rp_toks _ _ HR) as Hne. unfold parse in H. rewrite (repr_first _ _ HR) in H.
  destruct (read_objective_type (tk toks 0)) as [ty|] eqn:Ety; cbn [or_error pbind] in H; [|injection H as <-; apply Fault_type; exact Ety].
  destruct toks as [|w toks]; [discriminate Ety|]. change (tk (w :: toks) 0) with w in Ety.
  destruct (pop_front_ok _ _ HR) as [b1 [E1 R1]]. rewrite E1 in H. cbn [or_abort pbind tl] in *.
  assert (Hb1 : ~ In (str "[") toks) by (intros K; apply Hb; right; exact K). pose proof (Forall_inv_tail Hfine) as Hf1. pose proof (Forall_inv_tail Hne) as Hn1.
  destruct (label_read toks) as (lb & Hlb & Ln & T1 & Nlb). rewrite (repr_first _ _ R1), (repr_second _ _ R1), <- Ln in H.
  assert (HL : exists b2 t1, pop_read (length (label_tokens lb)) b1 = P_ok b2 /\ repr b2 t1 /\ toks = label_tokens lb ++ t1 \/ pop_read (length (label_tokens lb)) b1 = P_abort).
  { destruct lb as [x|]; cbn [label_tokens length pop_read] in *.
    - destruct (pop 2 b1) as [b2|] eqn:E2; [|exists b1, toks; right; reflexivity]. destruct (pop_sound _ _ _ _ R1 E2) as [_ R2]. exists b2, (skipn 2 toks). left. split; [reflexivity|]. split; [exact R2|exact T1].
    - exists b1, toks. left. split; [reflexivity|]. split; [exact R1|reflexivity]. }
  destruct HL as (b2 & t1 & [(E2 & R2 & T2)|E2]); rewrite E2 in H; cbn [pbind] in H; [|discriminate].
  assert (Hop : opening (w :: toks) t1) by (exists w, ty, lb; split; [exact Ety|]; split; [exact Hlb|]; split; [intros E; rewrite T2 in Nlb; rewrite E in Nlb; exact (Nlb eq_refl)|rewrite T2; reflexivity]).
  assert (Hb2 : ~ In (str "[") t1) by (rewrite T2 in Hb1; exact (no_in_app _ _ _ Hb1)).
  assert (Hf2 : fine t1) by (rewrite T2 in Hf1; exact (fine_app dn _ _ Hf1)). assert (Hn2 : Forall (fun x => x <> []) t1) by (rewrite T2 in Hn1; exact (firsts_in_front _ _ _ Hn1)).
  assert (L1 : length t1 <= fuel) by (rewrite T2 in Hfuel; cbn [length] in Hfuel; rewrite app_length in Hfuel; lia).
  destruct (objective_loop dn fuel b2 _) as [[b3 p3]|e3| |] eqn:E3; cbn [pbind] in H; try discriminate.
  2:{ injection H as <-. rewrite (objective_tag _ _ _ _ _ R2 Hb2 E3). apply (Fault_objective dn _ t1 Hop). intros l rest (T3 & Hl & K3).
      destruct (objective_loop_complete dn l fuel b2 (set_type ty (empty_problem dn)) rest Hl) as [b' [Q _]]; try (rewrite <- T3; assumption); try exact K3;
        [pose proof (items_len dn l rest Hl); rewrite T3, app_length in L1; lia|congruence]. }
  destruct (objective_loop_sound dn _ _ _ _ _ _ E3 R2 Hb2) as (obj & t2 & T3 & Hobj & R3 & K3 & P3).
  assert (Hf3 : fine t2) by (rewrite T3 in Hf2; exact (fine_app dn _ _ Hf2)). assert (Hn3 : Forall (fun x => x <> []) t2) by (rewrite T3 in Hn2; exact (firsts_in_front _ _ _ Hn2)).
  assert (L2 : length t2 <= fuel) by (rewrite T3, app_length in L1; lia).
  assert (Hto : to_constraints dn (w :: toks) obj t2) by (exists t1; split; [exact Hop|]; split; [exact T3|]; split; [exact Hobj|exact K3]).
  set (names0 := map t_var (item_vars obj)) in *.
  assert (V3 : rw_vars p3 = seen_vars names0).
  { rewrite P3. rewrite (objective_closed dn obj [] _ (firsts (map t_var (item_vars ([] ++ obj)) ++ [])) []); [reflexivity|eapply items_named; exact Hobj|reflexivity|reflexivity|reflexivity]. }
  match type of H with pbind ?a _ = _ => replace a with (match read_subject_to (tk t2 0) (tk t2 1) (tk t2 2) with O => P_ok (b3, p3) | S n0 => let? b := or_abort (pop (S n0) b3) in constraints_loop dn fuel 0 b p3 end) in H
    by (rewrite (repr_first _ _ R3), (repr_second _ _ R3), (repr_third _ _ R3); destruct (read_subject_to (tk t2 0) (tk t2 1) (tk t2 2)); reflexivity) end.
  (* the constraints *)
  assert (S4 : first_fault dn e (w :: toks) \/ exists rows t3 b4 (p4 : raw_problem), repr b4 t3 /\ keyword (word t3) = true /\ constraints_section dn rows t2 t3 /\
     opt (fun s => exists a, rows_ok dn (snd s) a) rows /\ rw_vars p4 = vars_of (names_in obj rows) (fun _ => fresh) /\ (exists front, t2 = front ++ t3) /\
     (let? (b, p) := section_ (read_bounds (first b4) (second b4)) (bounds_loop dn fuel) b4 p4 in
      let? (b, p) := section_ (read_binary (first b) (second b)) (names_loop set_boolean_variable fuel) b p in
      let? (b, p) := section_ (read_general (first b) (second b)) (names_loop set_integer_variable fuel) b p in
      match read_end (first b) (second b) with
      | O => P_error bad_end
      | n => let? b := or_abort (pop n b) in match first b with [] => P_ok p | _ => P_error bad_end_of_file end
      end) = P_error e).
  { destruct (read_subject_to (tk t2 0) (tk t2 1) (tk t2 2)) as [|n] eqn:En; cbn [pbind] in H.
    - right. exists None, t2, b3, p3. split; [exact R3|]. split; [exact K3|]. split; [split; [reflexivity|exact (proj1 (no_subject t2 K3) En)]|]. split; [exact I|].
      split; [rewrite V3, seen_vars_of; unfold names_in; cbn [section_list flat_map]; rewrite app_nil_r; reflexivity|]. split; [exists []; reflexivity|exact H].
    - destruct (subject_read' t2 n K3 En) as (h & Hh & T4 & Hcol). destruct (pop (S n) b3) as [b3'|] eqn:Ep; cbn [or_abort pbind] in H; [|discriminate]. destruct (pop_sound _ _ _ _ R3 Ep) as [_ R3'].
      set (more := skipn (S n) t2) in *.
      assert (Hfm : fine more) by (rewrite T4 in Hf3; exact (fine_app dn _ _ Hf3)). assert (Lm : length more <= fuel) by (rewrite T4, app_length in L2; lia).
      assert (Hto' : to_constraints dn (w :: toks) obj (header_tokens h ++ more)) by (rewrite <- T4; exact Hto).
      assert (Comp : forall ks rest, rows_part dn ks more rest -> exists b', constraints_loop dn fuel 0 b3' p3 = P_ok (b', snd (fold_left (append_row dn) ks (0, p3))) /\ repr b' rest).
      { intros ks rest (T5 & Hks & K5). apply rows_complete; [exact Hks|rewrite <- T5; exact R3'|rewrite <- T5; exact Hfm|exact K5|rewrite T5, app_length in Lm; lia]. }
      destruct (constraints_loop dn fuel 0 b3' p3) as [[b4 p4]|e4| |] eqn:E4; cbn [pbind] in H; try discriminate.
      + destruct (rows_sound dn _ _ _ _ _ _ _ E4 R3') as [R4|(ks & t3 & T5 & Hks & R4 & K5 & P4)].
        * left. assert (Ee : e = bad_end).
          { unfold read_bounds, read_binary, read_general, read_end in H. rewrite (repr_first _ _ R4), (repr_second _ _ R4) in H. cbn in H.
            rewrite (repr_first _ _ R4), (repr_second _ _ R4) in H. cbn in H. rewrite (repr_first _ _ R4), (repr_second _ _ R4) in H. cbn in H.
            rewrite (repr_first _ _ R4), (repr_second _ _ R4) in H. cbn in H. congruence. }
          subst e. destruct (rows_read _ _ _ _ _ _ _ Hscan E4 R3' R4) as (ks & T5 & Hks). rewrite T5 in Hto'. refine (Fault_unended dn _ obj h ks Hto' Hh _ Hks). rewrite <- T5. exact Hcol.
        * right. exists (Some (h, ks)), t3, b4, p4. split; [exact R4|]. split; [exact K5|]. split; [split; [exact Hh|exists more; split; [exact T4|split; [exact Hcol|split; [exact T5|split; [exact Hks|exact K5]]]]]|].
          split; [exists t3; exact Hks|]. split; [|split; [exists (header_tokens h ++ flat_map row_tokens ks); rewrite <- app_assoc, <- T5; exact T4|exact H]].
          rewrite P4, (rows_closed dn ks 0 p3 names0 (names_in obj (Some (h, ks))) [] V3); [reflexivity|]. unfold names_in. rewrite app_nil_r. reflexivity.
      + left. injection H as <-. rewrite (rows_tag _ _ _ _ _ E4). apply (Fault_constraint dn _ obj h more Hto' Hh Hcol); [intros ks rest Hp; destruct (Comp ks rest Hp) as (b' & Q & _); discriminate Q|].
        intros ks Hks T5. rewrite T5 in R3', Hfm, Lm. destruct (rows_to_the_end ks fuel 0 b3' p3 Hks R3' Hfm Lm) as (b' & p' & Q & _). congruence. }
  destruct S4 as [S4|(rows & t3 & b4 & p4 & R4 & K4 & Hrows & Hrk & V4 & [fr4 T4] & H4)]; [exact S4|]. clear H. rename H4 into H.
  assert (Hf4 : fine t3) by (rewrite T4 in Hf3; exact (fine_app dn _ _ Hf3)). assert (Hn4 : Forall (fun x => x <> []) t3) by (rewrite T4 in Hn3; exact (firsts_in_front _ _ _ Hn3)).
  assert (L4 : length t3 <= fuel) by (rewrite T4, app_length in L2; lia).
  set (N := names_in obj rows) in *. assert (Nd : NoDup N) by apply firsts_NoDup.
  pose proof (names_good_in obj rows _ Hobj Hrk) as Hgood. fold N in Hgood.
  assert (Hto3 : to_bounds dn (w :: toks) N t3) by (exists obj, rows, t2; split; [exact Hto|]; split; [exact Hrows|reflexivity]).
  (* the bounds *)
  apply bind_error in H. destruct H as [H|([b5 p5] & E5 & H)].
  { destruct (section_refused in_bounds line_tokens (line_ok dn N) N (bounds_loop dn fuel) e b4 p4 _ t3 eq_refl R4 V4) with (2 := H) as (more & b1' & An & El & Hno).
    - intros bb more Rm [fr T] El l rest (T5 & Hl & K5). destruct (bounds_complete dn l fuel bb (fun _ => fresh) N rest Nd Hl) as (b' & Q & _).
      + rewrite T, T5 in Hn4. apply firsts_in_front in Hn4. apply Forall_app in Hn4. destruct Hn4 as [Hn4 _]. rewrite Forall_forall in *. intros x Hx. apply Hgood; [apply (Hl x Hx)|].
        apply Hn4. apply in_flat_map. exists x. split; [exact Hx|apply line_name_token].
      + rewrite <- T5. exact Rm.
      + rewrite <- T5. rewrite T in Hf4. exact (fine_app dn _ _ Hf4).
      + exact K5.
      + assert (length l <= length (flat_map line_tokens l)) by (apply flat_len; intros x; apply line_len). rewrite T, T5, !app_length in L4. lia.
      + congruence.
    - rewrite (bounds_tag _ _ _ _ El). exact (Fault_bound dn _ N t3 more Hto3 An Hno). }
  destruct (section_read in_bounds line_tokens (line_ok dn N) (line_step dn) N (bounds_loop dn fuel) eq_refl
    (fun b h b' vs' toks E R => bounds_sound dn fuel b N h b' vs' toks Nd E R) _ _ _ _ _ _ V4 E5 R4 K4) as (s5 & t4 & [fr5 T5] & Hs5 & R5 & K5 & [h5 V5]).
  assert (Hto4 : to_binary dn (w :: toks) N t4) by (exists s5, t3; split; [exact Hto3|exact Hs5]).
  assert (Hn5 : Forall (fun x => x <> []) t4) by (rewrite T5 in Hn4; exact (firsts_in_front _ _ _ Hn4)). assert (L5 : length t4 <= fuel) by (rewrite T5, app_length in L4; lia).
  assert (Names : forall set f, (forall nm h, In nm N -> set nm (vars_of N h) = P_ok (vars_of N (fun x => if text_eqb x nm then f (h x) else h x))) ->
    forall t h, Forall (fun x => x <> []) t -> length t <= fuel -> forall b1 more, repr b1 more -> (exists front, t = front ++ more) -> names_loop set fuel b1 (vars_of N h) = P_error e ->
    forall l rest, ~ list_part (fun nm : text => [nm]) (fun nm => In nm N) l more rest).
  { intros set f Hset t h Hnt Lt' bb more Rm [fr T] El l rest (T6 & Hl & K6). destruct (names_complete set f N Hset l fuel bb h rest Hl) as (b' & Q & _).
    - rewrite T, T6 in Hnt. apply firsts_in_front in Hnt. apply Forall_app in Hnt. destruct Hnt as [Hnt _]. rewrite Forall_forall in *. intros x Hx. apply Hgood; [exact (Hl x Hx)|].
      apply Hnt. apply in_flat_map. exists x. split; [exact Hx|left; reflexivity].
    - rewrite <- T6. exact Rm.
    - exact K6.
    - assert (length l <= length (flat_map (fun nm : text => [nm]) l)) by (apply flat_len; intros x; cbn; lia). rewrite T, T6, !app_length in Lt'. lia.
    - congruence. }
  (* the binary variables *)
  apply bind_error in H. destruct H as [H|([b6 p6] & E6 & H)].
  { destruct (section_refused in_binary (fun nm => [nm]) (fun nm => In nm N) N (names_loop set_boolean_variable fuel) e b5 p5 _ t4 eq_refl R5 V5) with (2 := H) as (more & b1' & An & El & Hno).
    - apply (Names _ (fun _ => mk_variable_value 0 1 vt_binary)); [intros nm h; apply set_boolean_complete; exact Nd|exact Hn5|exact L5].
    - rewrite (names_tag _ bad_binary set_boolean_tag _ _ _ _ El). exact (Fault_binary dn _ N t4 more Hto4 An Hno). }
  destruct (section_read in_binary (fun nm => [nm]) (fun nm => In nm N) _ N (names_loop set_boolean_variable fuel) eq_refl
    (names_sound set_boolean_variable (fun _ => mk_variable_value 0 1 vt_binary) N (fun nm h vs => set_boolean_sound N nm h vs Nd) fuel) _ _ _ _ _ _ V5 E6 R5 K5) as (s6 & t5 & [fr6 T6] & Hs6 & R6 & K6 & [h6 V6]).
  assert (Hto5 : to_general dn (w :: toks) N t5) by (exists s6, t4; split; [exact Hto4|exact Hs6]).
  assert (Hn6 : Forall (fun x => x <> []) t5) by (rewrite T6 in Hn5; exact (firsts_in_front _ _ _ Hn5)). assert (L6 : length t5 <= fuel) by (rewrite T6, app_length in L5; lia).
  (* the general variables *)
  apply bind_error in H. destruct H as [H|([b7 p7] & E7 & H)].
  { destruct (section_refused in_general (fun nm => [nm]) (fun nm => In nm N) N (names_loop set_integer_variable fuel) e b6 p6 _ t5 eq_refl R6 V6) with (2 := H) as (more & b1' & An & El & Hno).
    - apply (Names _ (fun v => mk_variable_value (v_min v) (v_max v) vt_general)); [intros nm h; apply set_integer_complete; exact Nd|exact Hn6|exact L6].
    - rewrite (names_tag _ bad_general set_integer_tag _ _ _ _ El). exact (Fault_general dn _ N t5 more Hto5 An Hno). }
  destruct (section_read in_general (fun nm => [nm]) (fun nm => In nm N) _ N (names_loop set_integer_variable fuel) eq_refl
    (names_sound set_integer_variable (fun v => mk_variable_value (v_min v) (v_max v) vt_general) N (fun nm h vs => set_integer_sound N nm h vs Nd) fuel) _ _ _ _ _ _ V6 E7 R6 K6) as (s7 & t6 & [fr7 T7] & Hs7 & R7 & K7 & [h7 V7]).
  assert (Hto6 : to_end dn (w :: toks) N t6) by (exists s7, t5; split; [exact Hto5|exact Hs7]).
  (* the end *)
  unfold read_end in H. rewrite (repr_first _ _ R7), (repr_second _ _ R7) in H. destruct (read_section [str "end"] (tk t6 0) (tk t6 1)) as [|n] eqn:E8.
  { injection H as <-. apply (Fault_end dn _ N t6 Hto6). unfold read_section, colon in E8. unfold any_of in E8. cbn [existsb] in E8. change (word t6) with (tk t6 0). change same_word with are_equal.
    destruct (are_equal (tk t6 0) (str "end")); [|reflexivity]. cbn [orb] in E8. destruct (are_equal (tk t6 1) (str ":")); discriminate E8. }
  apply bind_error in H. destruct H as [H|(b8 & E9 & H)]; [exfalso; exact (or_abort_error _ _ H)|]. destruct (pop (S n) b7) as [b8'|] eqn:Ep; [|discriminate]. injection E9 as ->.
  destruct (pop_sound _ _ _ _ R7 Ep) as [_ R8]. destruct (header_read [str "end"] t6 n eq_refl E8) as (he & we & Hwe & Hae & T8 & Wh8).
  destruct (first b8) as [|c x] eqn:Ef; [discriminate|]. injection H as <-. apply (Fault_after dn _ N t6 (skipn (S n) t6) Hto6); [exists he, we; auto|].
  intros E0. rewrite E0 in R8. rewrite (repr_first _ _ R8) in Ef. discriminate Ef.
Qed.
Theorem make_problem_refused fuel t e : d_scan dn [] = None -> readable t -> ends_plain t -> ~ In (str "[") (file_tokens t) -> fine (file_tokens t) -> length (file_tokens t) <= fuel ->
  make_problem dn fuel t = P_error e -> first_fault dn e (file_tokens t).
Proof.
  intros Hscan H1 H2 H3 H4 H5 H. destruct (buffer_tokens t H1 H2) as [b [E R]]. unfold make_problem in H. rewrite E in H. cbn [or_abort pbind] in H.
  exact (parse_refused fuel b _ e Hscan R H3 H4 H5 H).
Qed.
End Refused.
