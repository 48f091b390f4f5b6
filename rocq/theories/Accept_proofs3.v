(** A file that is accepted has a reading, and its problem is the one of the reading. *)
From Coq Require Import Ascii String Lia.
From Verif Require Import Base Problem_model ResultIO_model Chars_spec Lexer_model Lexer_spec Lexer_proofs Parser_model Parser_spec
  Parser_proofs Parser_proofs2 Parser_proofs3 Parser_proofs4 Parser_proofs5 Accept_spec Accept_proofs Accept_proofs2.
Open Scope string_scope.
Open Scope list_scope.
Open Scope nat_scope.

Lemma colon_text t : are_equal t (str ":") = true -> t = str ":".
Proof.
  intros C. destruct t as [|c [|c2 r]]; try discriminate C.
  - cbn in C. rewrite andb_true_r in C. assert (Hc : forall c, (if Ascii.eqb (tolower c) ":"%char then Ascii.eqb c ":"%char else true) = true) by (apply all_chars; vm_compute; reflexivity).
    specialize (Hc c). change (tolower ":"%char) with ":"%char in C. rewrite C in Hc. apply Ascii.eqb_eq in Hc. rewrite Hc. reflexivity.
  - cbn in C. rewrite andb_false_r in C. discriminate.
Qed.
Lemma tk_len toks i : tk toks i <> [] -> i < length toks.
Proof. intros H. destruct (Nat.lt_ge_cases i (length toks)) as [L|L]; [exact L|]. destruct H. unfold tk. apply nth_overflow. exact L. Qed.

Section Sound.
Context {D : Type} (dn : dops D).
Local Notation raw_problem := (raw_problem (D := D)).
Local Notation coefficient := (coefficient dn).

(** ** The sums *)
Lemma the_objective_snoc N l t : incl (map t_var (item_vars l ++ [t])) N ->
  add_dterm dn (coefficient t) (position (t_var t) N) (the_objective dn N l) = the_objective dn N (l ++ [I_var t]).
Proof.
  intros H. rewrite add_dterm_add_to. unfold the_objective. replace (item_vars (l ++ [I_var t])) with (item_vars l ++ [t])
    by (unfold item_vars; rewrite flat_map_app; reflexivity).
  apply (add_to_sums (d_add dn) coefficient (sum_values dn)); auto.
  intros a r v. cbn. rewrite fold_left_app. reflexivity.
Qed.
Lemma the_elements_snoc N l t : incl (map t_var (l ++ [t])) N ->
  add_term (int_of dn (coefficient t)) (position (t_var t) N) (the_elements dn N l) = the_elements dn N (l ++ [t]).
Proof.
  intros H. apply as_pair_inj. rewrite add_term_add_to. unfold the_elements. rewrite !map_map. cbn [as_pair f_factor f_var].
  apply (add_to_sums Z.add (fun t => int_of dn (coefficient t)) (fun l => fold_left Z.add l 0%Z)); auto.
  intros a r v. cbn. rewrite fold_left_app. reflexivity.
Qed.
Definition named (i : item) : Prop := match i with I_var t => t_var t <> [] | I_const _ _ => True end.
Lemma items_named l : forall after, items_ok dn l after -> Forall named l.
Proof. induction l as [|i l IH]; intros after H; constructor; [|apply (IH after), H]. destruct H as [H _]. destruct i; [apply H|exact I]. Qed.
Lemma objective_closed : forall l done (p : raw_problem) N more, Forall named l ->
  rw_vars p = seen_vars (map t_var (item_vars done)) -> rw_objective p = the_objective dn N done -> N = firsts (map t_var (item_vars (done ++ l)) ++ more) ->
  fold_left (append_item dn) l p = with_objective p (the_objective dn N (done ++ l)) (rw_quadratic p)
    (fold_left (d_add dn) (map coefficient (item_consts l)) (rw_value p)) (seen_vars (map t_var (item_vars (done ++ l)))).
Proof.
  induction l as [|i l IH]; intros done p N more Hn Hv Ho HN.
  { rewrite app_nil_r, <- Ho, <- Hv. destruct p; reflexivity. }
  inversion Hn as [|? ? H1 H2]; subst i l0. cbn [fold_left]. replace (done ++ x :: l) with ((done ++ [x]) ++ l) in * by (rewrite <- app_assoc; reflexivity).
  destruct x as [t|s m]; unfold append_item at 2, append_to_objective; cbn [item_term t_var].
  - destruct (t_var t) as [|c nm] eqn:Ev; [cbn in H1; congruence|]. rewrite <- Ev in *. rewrite Hv, get_or_assign_seen.
    assert (Es : map t_var (item_vars done) ++ [t_var t] = map t_var (item_vars (done ++ [I_var t]))) by (unfold item_vars; rewrite flat_map_app, map_app; reflexivity).
    assert (HN2 : N = firsts (map t_var (item_vars done) ++ t_var t :: (map t_var (item_vars l) ++ more))).
    { rewrite HN. unfold item_vars. rewrite !flat_map_app, !map_app. cbn [flat_map app map]. rewrite <- !app_assoc. reflexivity. }
    rewrite (position_stable _ _ (map t_var (item_vars l) ++ more)), <- HN2, Ho, Es, the_objective_snoc.
    + rewrite (IH (done ++ [I_var t]) _ N more H2); [reflexivity|reflexivity|reflexivity|exact HN].
    + rewrite map_app. cbn [map]. intros z Hz. rewrite HN2, firsts_In. apply in_app_iff. apply in_app_iff in Hz. destruct Hz as [Hz|[Hz|[]]]; [left; exact Hz|right; left; exact Hz].
  - assert (Ev : item_vars (done ++ [I_const s m]) = item_vars done) by (unfold item_vars; rewrite flat_map_app; cbn; apply app_nil_r).
    rewrite (IH (done ++ [I_const s m]) _ N more H2); [reflexivity|cbn [with_objective rw_vars]; rewrite Ev; exact Hv| |exact HN].
    cbn [with_objective rw_objective]. rewrite Ho. unfold the_objective. rewrite Ev. reflexivity.
Qed.
Lemma elements_closed : forall l done seen N more, N = firsts (seen ++ map t_var (done ++ l) ++ more) ->
  fold_left (append_term dn) l (seen_vars (seen ++ map t_var done), the_elements dn N done) = (seen_vars (seen ++ map t_var (done ++ l)), the_elements dn N (done ++ l)).
Proof.
  induction l as [|t l IH]; intros done seen N more HN; [rewrite app_nil_r; reflexivity|]. cbn [fold_left].
  replace (done ++ t :: l) with ((done ++ [t]) ++ l) in * by (rewrite <- app_assoc; reflexivity).
  rewrite <- (IH (done ++ [t]) seen N more HN). f_equal. unfold append_term. cbn [fst snd]. rewrite get_or_assign_seen.
  assert (HN2 : N = firsts ((seen ++ map t_var done) ++ t_var t :: (map t_var l ++ more))) by (rewrite HN, !map_app; cbn [map]; rewrite <- !app_assoc; reflexivity).
  rewrite (position_stable _ _ (map t_var l ++ more)), <- HN2, the_elements_snoc.
  - rewrite map_app, app_assoc. reflexivity.
  - rewrite map_app. cbn [map]. intros z Hz. rewrite HN2, firsts_In. apply in_app_iff in Hz. apply in_app_iff.
    destruct Hz as [Hz|[Hz|[]]]; [left; apply in_app_iff; right; exact Hz|right; left; exact Hz].
Qed.
Definition row_names (k : row) : list text := map t_var (row_terms k).
Definition numbered_rows (op : operator_type) (N : list text) (id : nat) (l : list row) : list constraint :=
  map (fun x => the_constraint dn N (fst x) (snd x)) (filter (fun x => operator_eqb (w_op (snd x)) op) (combine (seq id (length l)) l)).
Lemma rows_closed : forall ks id (p : raw_problem) seen N more, rw_vars p = seen_vars seen -> N = firsts (seen ++ flat_map row_names ks ++ more) ->
  snd (fold_left (append_row dn) ks (id, p)) =
    with_constraints p (numbered_rows op_equal N id ks) (numbered_rows op_greater N id ks) (numbered_rows op_less N id ks) (seen_vars (seen ++ flat_map row_names ks)).
Proof.
  induction ks as [|k ks IH]; intros id p seen N more Hv HN.
  { cbn. rewrite app_nil_r, <- Hv. unfold with_constraints. rewrite !app_nil_r. destruct p; reflexivity. }
  cbn [fold_left]. unfold append_row at 2. cbn [fst snd]. rewrite Hv.
  assert (E : fold_left (append_term dn) (row_terms k) (seen_vars seen, []) = (seen_vars (seen ++ row_names k), the_elements dn N (row_terms k))).
  { pose proof (elements_closed (row_terms k) [] seen N (flat_map row_names ks ++ more)) as Q. cbn [map app] in Q. rewrite app_nil_r in Q. apply Q.
    rewrite HN. cbn [flat_map]. unfold row_names at 1. rewrite <- !app_assoc. reflexivity. }
  rewrite E. rewrite (IH (S id) _ (seen ++ row_names k) N more).
  - cbn [flat_map]. rewrite <- app_assoc. unfold numbered_rows. cbn [length seq combine filter snd].
    destruct p as [ty o q v e g l vs]. destruct (w_op k) eqn:Eop; cbn [operator_eqb]; unfold with_constraints, add_constraint, with_vars; cbn; rewrite <- !app_assoc; reflexivity.
  - destruct p as [ty o q v e g l vs]. destruct (w_op k); reflexivity.
  - rewrite HN. cbn [flat_map]. rewrite <- !app_assoc. reflexivity.
Qed.
(** ** The variables *)
Lemma lines_closed ls h x : fold_left (line_step dn) ls h x =
  match find (fun l => text_eqb (line_name l) x) (rev ls) with Some l => set_line dn l (h x) | None => h x end.
Proof.
  induction ls as [|l ls IH] using rev_ind; [reflexivity|]. rewrite fold_left_app, rev_app_distr. cbn [fold_left rev app find]. unfold line_step at 1.
  rewrite text_eqb_sym. destruct (text_eqb (line_name l) x); [|exact IH]. rewrite IH. destruct (find _ (rev ls)); reflexivity.
Qed.
Lemma names_closed (f : variable_value -> variable_value) (Hf : forall v, f (f v) = f v) l h x :
  fold_left (fun h nm x => if text_eqb x nm then f (h x) else h x) l h x = if mem x l then f (h x) else h x.
Proof.
  induction l as [|nm l IH] using rev_ind; [reflexivity|]. rewrite fold_left_app. cbn [fold_left]. rewrite IH. unfold mem. rewrite existsb_app. cbn [existsb]. rewrite orb_false_r.
  destruct (text_eqb x nm), (existsb (text_eqb x) l); cbn [orb]; try reflexivity. apply Hf.
Qed.
Lemma seen_vars_of l : seen_vars l = vars_of (firsts l) (fun _ => fresh).
Proof. reflexivity. Qed.

(** ** The file *)
Lemma label_sound b b' toks : repr b toks -> pop_read (try_read_objective_label (first b) (second b)) b = P_ok b' ->
  exists lb toks1, opt (fun l => keyword l = false) lb /\ repr b' toks1 /\ (toks1 <> [] -> toks = label_tokens lb ++ toks1).
Proof.
  intros HR H. rewrite (repr_first _ _ HR), (repr_second _ _ HR) in H. unfold try_read_objective_label in H. destruct (is_keyword (tk toks 0)) eqn:K.
  - injection H as <-. exists None, toks. split; [exact I|]. split; [exact HR|reflexivity].
  - destruct (are_equal (tk toks 1) (str ":")) eqn:C; cbn [pop_read] in H.
    + destruct (pop 2 b) as [b0|] eqn:E0; cbn [or_abort] in H; [|discriminate]. injection H as <-. destruct (pop_sound _ _ _ _ HR E0) as [_ R0].
      exists (Some (tk toks 0)), (skipn 2 toks). split; [exact K|]. split; [exact R0|]. intros Nz. apply skipn_more in Nz. rewrite (tk_seq 2 toks) at 1 by lia.
      cbn [seq map label_tokens app]. rewrite (colon_text _ C). reflexivity.
    + injection H as <-. exists None, toks. split; [exact I|]. split; [exact HR|reflexivity].
Qed.
Lemma subject_sound b b' toks n : repr b toks -> is_keyword (tk toks 0) = true -> read_subject_to (first b) (second b) (third b) = S n -> pop (S n) b = Some b' ->
  exists h toks1, subject_ok h /\ repr b' toks1 /\ (toks1 <> [] -> toks = header_tokens h ++ toks1).
Proof.
  intros HR K H E. destruct (pop_sound _ _ _ _ HR E) as [_ R]. rewrite (repr_first _ _ HR), (repr_second _ _ HR), (repr_third _ _ HR) in H. unfold read_subject_to in H.
  destruct (any_of (tk toks 0) _) eqn:A.
  - assert (A' : any_of (tk toks 0) [str "st"; str "st."; str "s.t."] = true).
    { unfold any_of in *. cbn [existsb] in A |- *. destruct (are_equal (tk toks 0) (str "st")); [reflexivity|]. destruct (are_equal (tk toks 0) (str "st.")); [reflexivity|].
      destruct (are_equal (tk toks 0) (str "s.t.")); [reflexivity|]. cbn [orb] in A. rewrite !orb_false_r in A. exfalso. unfold is_keyword in K. apply existsb_exists in K. destruct K as [k [K1 K2]].
      apply are_equal_iff in A, K2. rewrite A in K2. cbn in K1. repeat (destruct K1 as [<-|K1]; [discriminate K2|]). destruct K1. }
    unfold colon in H. destruct (are_equal (tk toks 1) (str ":")) eqn:C; cbn in H; injection H as <-.
    + exists (mk_header [tk toks 0] true), (skipn 2 toks). split; [left; exists (tk toks 0); split; [reflexivity|exact A']|]. split; [exact R|]. intros Nz. apply skipn_more in Nz.
      rewrite (tk_seq 2 toks) at 1 by lia. cbn [seq map]. rewrite (colon_text _ C). reflexivity.
    + exists (mk_header [tk toks 0] false), (skipn 1 toks). split; [left; exists (tk toks 0); split; [reflexivity|exact A']|]. split; [exact R|]. intros Nz. apply skipn_more in Nz.
      rewrite (tk_seq 1 toks) at 1 by lia. reflexivity.
  - assert (Q : forall h, h_words h = [tk toks 0; tk toks 1] -> colon 2 (tk toks 2) = S n ->
       ((same_word (tk toks 0) (str "subject") = true /\ same_word (tk toks 1) (str "to") = true) \/ (same_word (tk toks 0) (str "sush") = true /\ same_word (tk toks 1) (str "that") = true)) ->
       exists h toks1, subject_ok h /\ repr b' toks1 /\ (toks1 <> [] -> toks = header_tokens h ++ toks1)).
    { intros _ _ Hc Hw. unfold colon in Hc. destruct (are_equal (tk toks 2) (str ":")) eqn:C; cbn in Hc; injection Hc as <-.
      - exists (mk_header [tk toks 0; tk toks 1] true), (skipn 3 toks). split; [right; exists (tk toks 0), (tk toks 1); split; [reflexivity|exact Hw]|]. split; [exact R|]. intros Nz. apply skipn_more in Nz.
        rewrite (tk_seq 3 toks) at 1 by lia. cbn [seq map]. rewrite (colon_text _ C). reflexivity.
      - exists (mk_header [tk toks 0; tk toks 1] false), (skipn 2 toks). split; [right; exists (tk toks 0), (tk toks 1); split; [reflexivity|exact Hw]|]. split; [exact R|]. intros Nz. apply skipn_more in Nz.
        rewrite (tk_seq 2 toks) at 1 by lia. reflexivity. }
    destruct (are_equal (tk toks 0) (str "subject") && are_equal (tk toks 1) (str "to")) eqn:S1.
    + apply andb_true_iff in S1. apply (Q (mk_header [tk toks 0; tk toks 1] true)); [reflexivity|exact H|left; exact S1].
    + destruct (are_equal (tk toks 0) (str "sush") && are_equal (tk toks 1) (str "that")) eqn:S2; [|discriminate].
      apply andb_true_iff in S2. apply (Q (mk_header [tk toks 0; tk toks 1] true)); [reflexivity|exact H|right; exact S2].
Qed.
Lemma end_sound b b' toks n : repr b toks -> read_end (first b) (second b) = S n -> pop (S n) b = Some b' -> first b' = [] ->
  exists h, toks = header_tokens h /\ exists w, h_words h = [w] /\ same_word w (str "end") = true.
Proof.
  intros HR H E Hf. destruct (pop_sound _ _ _ _ HR E) as [_ R]. rewrite (repr_first _ _ HR), (repr_second _ _ HR) in H. unfold read_end, read_section, colon in H.
  assert (Z : skipn (S n) toks = []).
  { rewrite (repr_first _ _ R) in Hf. destruct (skipn (S n) toks) as [|x y]; [reflexivity|]. pose proof (rp_toks _ _ R) as F. inversion F as [|? ? F1 F2]; subst. unfold tk in Hf; cbn in Hf; congruence. }
  destruct (any_of (tk toks 0) [str "end"]) eqn:A; [|discriminate]. unfold any_of in A. cbn [existsb] in A. rewrite orb_false_r in A.
  assert (N0 : tk toks 0 <> []) by (intros E0; rewrite E0 in A; discriminate A). apply tk_len in N0.
  destruct (are_equal (tk toks 1) (str ":")) eqn:C; cbn in H; injection H as <-.
  - exists (mk_header [tk toks 0] true). split; [|exists (tk toks 0); split; [reflexivity|exact A]]. apply colon_text in C.
    assert (N1 : 1 < length toks) by (apply tk_len; rewrite C; discriminate). rewrite (tk_seq 2 toks) at 1 by lia. rewrite Z, app_nil_r. cbn [seq map]. rewrite C. reflexivity.
  - exists (mk_header [tk toks 0] false). split; [|exists (tk toks 0); split; [reflexivity|exact A]]. rewrite (tk_seq 1 toks) at 1 by lia. rewrite Z, app_nil_r. reflexivity.
Qed.
Theorem parse_sound fuel b toks p : repr b toks -> ~ In (str "[") toks -> parse dn fuel b (empty_problem dn) = P_ok p ->
  exists ty r, toks = reading_tokens r /\ reading_ok dn ty r /\ p = the_problem dn ty r.
Proof.
  intros HR Hb H. unfold parse in H. rewrite (repr_first _ _ HR) in H. destruct (read_objective_type (tk toks 0)) as [ty|] eqn:Ety; cbn [or_error pbind] in H; [|discriminate].
  assert (N0 : tk toks 0 <> []) by (intros E0; rewrite E0 in Ety; discriminate Ety). apply tk_len in N0.
  destruct (pop_front_ok _ _ HR) as [b1 [E1 R1]]. rewrite E1 in H. cbn [or_abort pbind] in H.
  assert (Hb1 : ~ In (str "[") (tl toks)) by (destruct toks as [|x t0]; [exact Hb|intros K; apply Hb; right; exact K]).
  destruct (pop_read _ b1) as [b2| | |] eqn:E2; cbn [pbind] in H; try discriminate. destruct (label_sound _ _ _ R1 E2) as (lb & toks2 & Hlb & R2 & T2).
  destruct (objective_loop dn fuel b2 _) as [[b3 p3]| | |] eqn:E3; cbn [pbind] in H; try discriminate.
  assert (Hb2 : ~ In (str "[") toks2).
  { intros K. apply Hb1. rewrite T2; [apply in_or_app; right; exact K|]. intros E0. rewrite E0 in K. destruct K. }
  destruct (objective_loop_sound _ _ _ _ _ _ _ E3 R2 Hb2) as (obj & toks3 & T3 & Hobj & R3 & K3 & P3).
  assert (N2 : toks2 <> []) by (rewrite T3; intros E0; apply app_eq_nil in E0; destruct E0 as [_ E0]; exact (keyword_nonempty _ K3 E0)). specialize (T2 N2).
  set (names0 := map t_var (item_vars obj)) in *.
  assert (V3 : rw_vars p3 = seen_vars names0).
  { rewrite P3. rewrite (objective_closed obj [] _ (firsts (map t_var (item_vars ([] ++ obj)) ++ [])) []); [reflexivity|eapply items_named; exact Hobj|reflexivity|reflexivity|reflexivity]. }
  destruct (match read_subject_to (first b3) (second b3) (third b3) with O => P_ok (b3, p3) | S n0 => let? b := or_abort (pop (S n0) b3) in constraints_loop dn fuel 0 b p3 end) as [[b4 p4]| | |] eqn:E4;
    match type of H with pbind ?a _ = _ => replace a with (match read_subject_to (first b3) (second b3) (third b3) with O => P_ok (b3, p3) | S n0 => let? b := or_abort (pop (S n0) b3) in constraints_loop dn fuel 0 b p3 end) in H
      by (destruct (read_subject_to (first b3) (second b3) (third b3)); reflexivity) end; rewrite E4 in H; cbn [pbind] in H; try discriminate.
  (* the constraints *)
  assert (S4 : repr b4 [] \/ exists rows toks4, toks3 = section_tokens row_tokens rows ++ toks4 /\ repr b4 toks4 /\ is_keyword (tk toks4 0) = true /\
    opt (fun s => subject_ok (fst s) /\ exists next, keyword next = true /\ rows_ok dn (snd s) [next]) rows /\ p4 = snd (fold_left (append_row dn) (section_list rows) (0, p3))).
  { destruct (read_subject_to (first b3) (second b3) (third b3)) as [|n] eqn:En.
    - injection E4 as <- <-. right. exists None, toks3. split; [reflexivity|]. split; [exact R3|]. split; [exact K3|]. split; [exact I|reflexivity].
    - destruct (pop (S n) b3) as [b3'|] eqn:Ep; cbn [or_abort pbind] in E4; [|discriminate]. destruct (subject_sound _ _ _ _ R3 K3 En Ep) as (h & toks3' & Hh & R3' & T3').
      destruct (rows_sound dn _ _ _ _ _ _ _ E4 R3') as [R4|(ks & toks4 & T4 & Hks & R4 & K4 & P4)]; [left; exact R4|]. right. exists (Some (h, ks)), toks4.
      split; [cbn [section_tokens]; rewrite <- app_assoc, <- T4; apply T3'; rewrite T4; intros E0; apply app_eq_nil in E0; destruct E0 as [_ E0]; exact (keyword_nonempty _ K4 E0)|].
      split; [exact R4|]. split; [exact K4|]. split; [|exact P4]. split; [exact Hh|]. exists (tk toks4 0). split; [exact K4|]. revert Hks. apply rows_ok_after. reflexivity. }
  destruct S4 as [R4|(rows & toks4 & T4 & R4 & K4 & Hrows & P4)].
  { unfold read_bounds, read_binary, read_general, read_end in H. rewrite (repr_first _ _ R4), (repr_second _ _ R4) in H. cbn in H.
    rewrite (repr_first _ _ R4), (repr_second _ _ R4) in H. cbn in H. rewrite (repr_first _ _ R4), (repr_second _ _ R4) in H. cbn in H.
    rewrite (repr_first _ _ R4), (repr_second _ _ R4) in H. cbn in H. discriminate H. }
  set (N := firsts (names0 ++ flat_map row_names (section_list rows))) in *.
  assert (Q4 : p4 = with_constraints p3 (numbered_rows op_equal N 0 (section_list rows)) (numbered_rows op_greater N 0 (section_list rows)) (numbered_rows op_less N 0 (section_list rows)) (vars_of N (fun _ => fresh))).
  { rewrite P4, (rows_closed (section_list rows) 0 p3 names0 N [] V3); [reflexivity|]. unfold N. rewrite app_nil_r. reflexivity. }
  assert (V4 : rw_vars p4 = vars_of N (fun _ => fresh)) by (rewrite Q4; reflexivity).
  assert (Nd : NoDup N) by apply firsts_NoDup.
  destruct (section_ (read_bounds _ _) _ b4 p4) as [[b5 p5]| | |] eqn:E5; cbn [pbind] in H; try discriminate.
  destruct (section_sound (D := D) _ line_tokens (line_ok dn N) (line_step dn) N (bounds_loop dn fuel)
    (fun b h b' vs' toks E R => bounds_sound dn fuel b N h b' vs' toks Nd E R) _ _ _ _ _ _ V4 E5 R4) as (bounds & toks5 & T5 & Hbd & R5 & K5 & P5).
  destruct (section_ (read_binary _ _) _ b5 p5) as [[b6 p6]| | |] eqn:E6; cbn [pbind] in H; try discriminate.
  assert (V5 : rw_vars p5 = vars_of N (fold_left (line_step dn) (section_list bounds) (fun _ => fresh))) by (rewrite P5; reflexivity).
  destruct (section_sound (D := D) _ (fun nm => [nm]) (fun nm => In nm N) _ N (names_loop set_boolean_variable fuel)
    (names_sound set_boolean_variable (fun _ => mk_variable_value 0 1 vt_binary) N (fun nm h vs => set_boolean_sound N nm h vs Nd) fuel) _ _ _ _ _ _ V5 E6 R5) as (bin & toks6 & T6 & Hbin & R6 & K6 & P6).
  destruct (section_ (read_general _ _) _ b6 p6) as [[b7 p7]| | |] eqn:E7; cbn [pbind] in H; try discriminate.
  assert (V6 : rw_vars p6 = vars_of N (fold_left (fun h nm x => if text_eqb x nm then mk_variable_value 0 1 vt_binary else h x) (section_list bin)
    (fold_left (line_step dn) (section_list bounds) (fun _ => fresh)))) by (rewrite P6; reflexivity).
  destruct (section_sound (D := D) _ (fun nm => [nm]) (fun nm => In nm N) _ N (names_loop set_integer_variable fuel)
    (names_sound set_integer_variable (fun v => mk_variable_value (v_min v) (v_max v) vt_general) N (fun nm h vs => set_integer_sound N nm h vs Nd) fuel) _ _ _ _ _ _ V6 E7 R6) as (gen & toks7 & T7 & Hgen & R7 & K7 & P7).
  destruct (read_end (first b7) (second b7)) as [|n] eqn:E8; [discriminate|].
  destruct (pop (S n) b7) as [b8|] eqn:E9; cbn [or_abort pbind] in H; [|discriminate]. destruct (first b8) as [|c w] eqn:E10; [|discriminate]. injection H as <-.
  destruct (end_sound _ _ _ _ R7 E8 E9 E10) as (he & T8 & Hend).
  exists ty, (mk_reading (tk toks 0) lb obj rows bounds bin gen he).
  assert (EN : reading_names (mk_reading (tk toks 0) lb obj rows bounds bin gen he) = N) by reflexivity.
  split; [|split].
  - unfold reading_tokens. cbn [rd_type rd_label rd_objective rd_rows rd_bounds rd_binary rd_general rd_end].
    rewrite <- T8, <- T7, <- T6, <- T5, <- T4, <- T3, <- T2. destruct toks as [|x t0]; [cbn in N0; lia|reflexivity].
  - constructor; cbn [rd_type rd_label rd_objective rd_rows rd_bounds rd_binary rd_general rd_end]; rewrite ?EN; try assumption.
    + exists (tk toks3 0). split; [exact K3|]. revert Hobj. apply items_ok_after. reflexivity.
  - rewrite P7, P6, P5, Q4, P3. rewrite (objective_closed obj [] _ N (flat_map row_names (section_list rows))).
    2:{ eapply items_named; exact Hobj. } 2:{ reflexivity. } 2:{ reflexivity. } 2:{ reflexivity. }
    unfold the_problem. rewrite EN. unfold with_vars, with_constraints, with_objective, set_type, empty_problem.
    cbn [rw_type rw_objective rw_quadratic rw_value rw_equal rw_greater rw_less rw_vars app rd_type rd_label rd_objective rd_rows rd_bounds rd_binary rd_general rd_end]. f_equal.
    unfold vars_of. f_equal. apply map_ext. intros x. rewrite (names_closed (fun v => mk_variable_value (v_min v) (v_max v) vt_general)) by reflexivity.
    rewrite (names_closed (fun _ => mk_variable_value 0 1 vt_binary)) by reflexivity. rewrite lines_closed.
    unfold the_variable. cbn [rd_bounds rd_binary rd_general].
    destruct (find _ (rev (section_list bounds))), (mem x (section_list bin)), (mem x (section_list gen)); reflexivity.
Qed.
Theorem make_problem_sound fuel t p : readable t -> ends_plain t -> ~ In (str "[") (file_tokens t) -> make_problem dn fuel t = P_ok p ->
  exists ty r, file_tokens t = reading_tokens r /\ reading_ok dn ty r /\ p = the_problem dn ty r.
Proof.
  intros H1 H2 H3 H. destruct (buffer_tokens t H1 H2) as [b [E R]]. unfold make_problem in H. rewrite E in H. cbn [or_abort pbind] in H.
  exact (parse_sound fuel b _ p R H3 H).
Qed.
End Sound.
