(** A file that has a reading is accepted: the whole file. *)
From Coq Require Import Ascii String Lia.
From Verif Require Import Base Problem_model ResultIO_model Chars_spec Lexer_model Lexer_spec Lexer_proofs Parser_model Parser_spec
  Parser_proofs Parser_proofs2 Parser_proofs3 Parser_proofs4 Parser_proofs5 Accept_spec Accept_proofs Accept_proofs2 Accept_proofs3 Accept_proofs4 Accept_proofs5.
Open Scope string_scope.
Open Scope list_scope.
Open Scope nat_scope.

Section Complete.
Context {D : Type} (dn : dops D).
Local Notation raw_problem := (raw_problem (D := D)).
Local Notation number := (number dn).
Local Notation fine := (Forall (usual_word dn)).

Lemma keyword_no_number t : usual_word dn t -> keyword t = true -> number t = None.
Proof. intros Hu H. destruct (number t) as [d|] eqn:E; [|reflexivity]. destruct (num_facts dn t Hu) as [_ K]; [unfold is_num; rewrite E; discriminate|congruence]. Qed.
Lemma tk_usual toks i : fine toks -> tk toks i <> [] -> usual_word dn (tk toks i).
Proof. intros H N. rewrite Forall_forall in H. apply H. unfold tk. apply nth_In. apply tk_len. exact N. Qed.
Lemma kw_nonempty t : keyword t = true -> t <> [].
Proof. intros K ->. discriminate K. Qed.
Lemma items_kw l : forall a b, keyword (nth 0 b []) = true -> number (nth 0 b []) = None -> items_ok dn l a -> items_ok dn l b.
Proof.
  induction l as [|i l IH]; intros a b K Nn H; [exact I|]. destruct H as [H1 H2]. split; [|exact (IH a b K Nn H2)].
  destruct (flat_map item_tokens l) as [|x y] eqn:F; cbn [app] in *; [|exact H1]. destruct i as [t|s m]; [exact H1|]. destruct H1 as (A & B & C & E). cbn [item_ok]. auto.
Qed.
Lemma rows_kw l : forall a b, number (nth 0 b []) = None -> rows_ok dn l a -> rows_ok dn l b.
Proof.
  induction l as [|i l IH]; intros a b Nn H; [exact I|]. destruct H as [H1 H2]. split; [|exact (IH a b Nn H2)].
  destruct (flat_map row_tokens l) as [|x y] eqn:F; cbn [app] in *; [|exact H1]. destruct H1 as (A & B & C & E & G & J & K & L). repeat (split; [assumption|]). split; [auto|exact L].
Qed.
Lemma items_vars l : forall after, items_ok dn l after -> Forall good_name (map t_var (item_vars l)).
Proof.
  induction l as [|i l IH]; intros after H; [constructor|]. destruct H as [H1 H2]. destruct i as [t|s m]; cbn [item_vars flat_map app map]; [|exact (IH _ H2)].
  constructor; [split; apply H1|exact (IH _ H2)].
Qed.
Lemma items_terms l : forall after, items_ok dn l after -> Forall (fun nm => nm = [] \/ good_name nm) (map t_var (map item_term l)).
Proof.
  induction l as [|i l IH]; intros after H; [constructor|]. destruct H as [H1 H2]. cbn [map]. constructor; [|exact (IH _ H2)].
  destruct i as [t|s m]; [right; split; apply H1|left; reflexivity].
Qed.
Lemma rows_names l : forall after, rows_ok dn l after -> Forall (fun nm => nm = [] \/ good_name nm) (flat_map row_names l).
Proof.
  induction l as [|k l IH]; intros after H; [constructor|]. destruct H as [H1 H2]. cbn [flat_map]. apply Forall_app. split; [|exact (IH _ H2)].
  destruct H1 as (_ & _ & H1 & _). exact (items_terms _ _ H1).
Qed.
Lemma names_good ty r : reading_ok dn ty r -> forall nm, In nm (reading_names r) -> nm <> [] -> good_name nm.
Proof.
  intros Hok nm Hin Hne. destruct Hok as [_ _ [n1 [_ H1]] H2 _ _ _ _]. unfold reading_names in Hin. rewrite firsts_In in Hin. apply in_app_iff in Hin. destruct Hin as [Hin|Hin].
  - pose proof (items_vars _ _ H1) as F. rewrite Forall_forall in F. exact (F _ Hin).
  - destruct (rd_rows r) as [[h ks]|]; [|destruct Hin]. destruct H2 as [_ [n2 [_ H2]]]. pose proof (rows_names _ _ H2) as F. rewrite Forall_forall in F. destruct (F nm Hin); [congruence|assumption].
Qed.
Lemma line_name_token l : In (line_name l) (line_tokens l).
Proof.
  destruct l; cbn [line_name line_tokens]; [left; reflexivity|left; reflexivity| |]; apply in_or_app; right; apply in_or_app; right; left; reflexivity.
Qed.
Lemma label_complete lb l r b : opt (fun x => keyword x = false) lb -> items_ok dn l r -> fine (flat_map item_tokens l) -> is_keyword (tk r 0) = true ->
  repr b (label_tokens lb ++ flat_map item_tokens l ++ r) ->
  exists b', pop_read (try_read_objective_label (first b) (second b)) b = P_ok b' /\ repr b' (flat_map item_tokens l ++ r).
Proof.
  intros Hlb Hl H3 Hr HR. rewrite (repr_first _ _ HR), (repr_second _ _ HR). unfold try_read_objective_label. destruct lb as [x|]; cbn [label_tokens app opt] in *; unfold tk in *; cbn [nth].
  - change keyword with is_keyword in Hlb. rewrite Hlb. change (are_equal (str ":") (str ":")) with true. cbv iota.
    destruct (pop_app [x; str ":"] (flat_map item_tokens l ++ r) b HR) as [b1 [E1 R1]]; [cbn; lia|]. exists b1. split; [|exact R1]. unfold pop_read. cbn [length] in E1. rewrite E1. reflexivity.
  - exists b. split; [|exact HR]. destruct l as [|i l].
    + cbn [flat_map app]. rewrite Hr. reflexivity.
    + destruct (is_keyword (nth 0 (flat_map item_tokens (i :: l) ++ r) [])); [reflexivity|]. replace (are_equal (nth 1 (flat_map item_tokens (i :: l) ++ r) []) (str ":")) with false; [reflexivity|]. symmetry.
      pose proof (items_all dn _ _ H3 Hl) as F. pose proof (items_len dn _ _ Hl) as L. cbn [length] in L. destruct (Nat.lt_ge_cases 1 (length (flat_map item_tokens (i :: l)))) as [G|G].
      * rewrite app_nth1 by exact G. rewrite Forall_forall in F. apply sum_token_facts. apply F, nth_In, G.
      * rewrite app_nth2 by exact G. replace (1 - length (flat_map item_tokens (i :: l))) with 0 by lia. apply keyword_not_colon. exact Hr.
Qed.
Lemma not_subject t : any_of t (kw_bounds ++ kw_binary ++ kw_general ++ kw_end) = true -> forall a b, read_subject_to t a b = 0.
Proof.
  intros H a b. assert (Q : any_of t [str "st"; str "st."; str "s.t"; str "s.t."; str "subject"; str "sush"] = false) by (eapply kw_not_other; [exact H|apply disjoint_kw; reflexivity]).
  unfold any_of in Q. cbn [existsb] in Q. rewrite !orb_false_iff in Q. destruct Q as (Q1 & Q2 & Q3 & Q4 & Q5 & Q6 & _). unfold read_subject_to, any_of. cbn [existsb]. rewrite Q1, Q2, Q3, Q4, Q5, Q6. reflexivity.
Qed.
Lemma subject_keyword h r : subject_ok h -> is_keyword (tk (header_tokens h ++ r) 0) = true.
Proof.
  intros Hsub. unfold header_tokens. destruct Hsub as [[w [-> Ha]]|[w1 [w2 [-> Ha]]]]; words; cbn [app tk nth].
  - eapply any_keyword; [exact Ha|apply all_kw; reflexivity].
  - apply (any_keyword w1 [str "subject"; str "sush"]); [unfold any_of; cbn [existsb]; destruct Ha as [[-> _]|[-> _]]; rewrite ?orb_true_r; reflexivity|apply all_kw; reflexivity].
Qed.
Lemma flat_len {A} (f : A -> list text) l : (forall x, 1 <= length (f x)) -> length l <= length (flat_map f l).
Proof. intros H. induction l as [|x l IH]; [cbn; lia|]. cbn [flat_map length]. rewrite app_length. specialize (H x). lia. Qed.
Lemma part_section {A} kw (P : A -> Prop) s : part_ok kw P s -> section_ok kw P s.
Proof. destruct s as [[h l]|]; exact (fun x => x). Qed.
Theorem parse_complete r ty b fuel : reading_ok dn ty r -> repr b (reading_tokens r) -> fine (reading_tokens r) -> ~ In (str "[") (reading_tokens r) ->
  length (reading_tokens r) <= fuel -> parse dn fuel b (empty_problem dn) = P_ok (the_problem dn ty r).
Proof.
  intros Hok HR H3 Hb Hfuel. pose proof (names_good ty r Hok) as Hgood. pose proof (rp_toks _ _ HR) as Hne. destruct Hok as [Hty Hlb Hobj Hrow Hbd Hbin Hgen Hend]. destruct Hend as [we [Hwe Hae]].
  apply part_section in Hbd, Hbin, Hgen. words.
  unfold reading_tokens in *. set (N := reading_names r) in *. assert (Nd : NoDup N) by apply firsts_NoDup.
  set (Te := header_tokens (rd_end r)) in *. set (Tg := section_tokens (fun nm => [nm]) (rd_general r) ++ Te) in *.
  set (Tb := section_tokens (fun nm => [nm]) (rd_binary r) ++ Tg) in *.
  set (Tbd := section_tokens line_tokens (rd_bounds r) ++ Tb) in *. set (Tc := section_tokens row_tokens (rd_rows r) ++ Tbd) in *.
  assert (Hke : any_of (tk Te 0) kw_end = true).
  { unfold Te, header_tokens. rewrite Hwe. cbn [app tk nth]. unfold any_of, kw_end. cbn [existsb]. rewrite Hae. reflexivity. }
  assert (Hkg : any_of (tk Tg 0) (kw_general ++ kw_end) = true) by (eapply section_first; eassumption).
  assert (Hkb : any_of (tk Tb 0) (kw_binary ++ kw_general ++ kw_end) = true) by (eapply section_first; eassumption).
  assert (Hkbd : any_of (tk Tbd 0) (kw_bounds ++ kw_binary ++ kw_general ++ kw_end) = true) by (eapply section_first; eassumption).
  assert (Ke : is_keyword (tk Te 0) = true) by (eapply any_keyword; [eassumption|apply all_kw; reflexivity]).
  assert (Kg : is_keyword (tk Tg 0) = true) by (eapply any_keyword; [eassumption|apply all_kw; reflexivity]).
  assert (Kb : is_keyword (tk Tb 0) = true) by (eapply any_keyword; [eassumption|apply all_kw; reflexivity]).
  assert (Kbd : is_keyword (tk Tbd 0) = true) by (eapply any_keyword; [eassumption|apply all_kw; reflexivity]).
  assert (Kc : is_keyword (tk Tc 0) = true).
  { unfold Tc. destruct (rd_rows r) as [[h ks]|]; [|exact Kbd]. cbn [section_tokens]. rewrite <- app_assoc. apply subject_keyword. apply Hrow. }
  (* the words of the parts *)
  apply Forall_inv_tail in H3, Hne. assert (Hb1 : ~ In (str "[") (label_tokens (rd_label r) ++ flat_map item_tokens (rd_objective r) ++ Tc)) by (intros K; apply Hb; right; exact K).
  apply no_in_app in Hb1. pose proof (fine_app dn _ _ H3) as Fo. pose proof (fine_app dn _ _ Fo) as Fc.
  assert (Fbd : fine Tbd) by exact (fine_app dn _ _ Fc). assert (Fb : fine Tb) by exact (fine_app dn _ _ Fbd). assert (Fg : fine Tg) by exact (fine_app dn _ _ Fb).
  apply Forall_app in Hne. destruct Hne as [_ Hne]. apply Forall_app in Hne. destruct Hne as [_ Hne]. unfold Tc in Hne. apply Forall_app in Hne. destruct Hne as [_ Hne].
  unfold Tbd in Hne. apply Forall_app in Hne. destruct Hne as [Nbd Hne]. unfold Tb in Hne. apply Forall_app in Hne. destruct Hne as [Nb Hne]. unfold Tg in Hne. apply Forall_app in Hne. destruct Hne as [Ng _].
  assert (Gbd : forall h l, rd_bounds r = Some (h, l) -> Forall (fun x => good_name (line_name x)) l).
  { intros h l E. rewrite E in Nbd, Hbd. cbn [section_tokens section_ok] in *. apply Forall_app in Nbd. destruct Nbd as [_ Nbd]. destruct Hbd as [_ Hbd]. rewrite Forall_forall in *. intros x Hx. apply Hgood.
    - destruct (Hbd x Hx) as [Q _]. exact Q.
    - apply Nbd. apply in_flat_map. exists x. split; [exact Hx|apply line_name_token]. }
  assert (Gs : forall s kws, section_ok kws (fun nm => In nm N) s -> Forall (fun x => x <> []) (section_tokens (fun nm => [nm]) s) -> forall h l, s = Some (h, l) -> Forall good_name l).
  { intros s kws Hs Hn h l E. rewrite E in Hn, Hs. cbn [section_tokens section_ok] in *. apply Forall_app in Hn. destruct Hn as [_ Hn]. destruct Hs as [_ Hs]. rewrite Forall_forall in *. intros x Hx. apply Hgood.
    - exact (Hs x Hx).
    - apply Hn. apply in_flat_map. exists x. split; [exact Hx|left; reflexivity]. }
  pose proof (Gs _ _ Hbin Nb) as Gb. pose proof (Gs _ _ Hgen Ng) as Gg. clear Gs.
  assert (Gc : forall l (t : list text), Forall good_name l -> is_keyword (tk t 0) = true -> not_colon (tk (flat_map (fun nm => [nm]) l ++ t) 0)).
  { intros l t Hl Ht. destruct l as [|x l]; [apply keyword_not_colon; exact Ht|]. inversion Hl as [|? ? Q _]; subst. apply (plain_facts x). apply is_name_plain, Q. }
  (* lengths *)
  assert (Lo : length (rd_objective r) <= length (flat_map item_tokens (rd_objective r))) by (destruct Hobj as [n1 [_ H1]]; exact (items_len dn _ _ H1)).
  assert (Lc : length (section_tokens row_tokens (rd_rows r)) + length Tbd = length Tc) by (unfold Tc; rewrite app_length; lia).
  assert (Lbd : forall h l, rd_bounds r = Some (h, l) -> length l <= length Tbd).
  { intros h l E. unfold Tbd. rewrite E. cbn [section_tokens]. rewrite !app_length. pose proof (flat_len line_tokens l (fun b => proj1 (line_len b))). lia. }
  assert (Lbin : forall h l, rd_binary r = Some (h, l) -> length l <= length Tb).
  { intros h l E. unfold Tb. rewrite E. cbn [section_tokens]. rewrite !app_length. pose proof (flat_len (fun nm : text => [nm]) l (fun _ => le_n 1)). lia. }
  assert (Lgen : forall h l, rd_general r = Some (h, l) -> length l <= length Tg).
  { intros h l E. unfold Tg. rewrite E. cbn [section_tokens]. rewrite !app_length. pose proof (flat_len (fun nm : text => [nm]) l (fun _ => le_n 1)). lia. }
  assert (L1 : length Tg <= length Tb) by (unfold Tb; rewrite app_length; lia).
  assert (L2 : length Tb <= length Tbd) by (unfold Tbd; rewrite app_length; lia).
  cbn [length] in Hfuel. rewrite !app_length in Hfuel.
  (* run *)
  unfold parse. rewrite (repr_first _ _ HR). cbn [tk nth]. rewrite Hty. cbn [or_error pbind].
  destruct (pop_front_ok _ _ HR) as [b1 [E1 R1]]. cbn [tl] in R1. rewrite E1. cbn [or_abort pbind].
  assert (Nc : number (tk Tc 0) = None) by (apply keyword_no_number; [apply tk_usual; [exact Fc|apply kw_nonempty; exact Kc]|exact Kc]).
  assert (Hobj' : items_ok dn (rd_objective r) Tc) by (destruct Hobj as [n1 [_ H1]]; exact (items_kw _ _ _ Kc Nc H1)).
  destruct (label_complete (rd_label r) (rd_objective r) Tc b1 Hlb Hobj' (fine_left dn _ _ Fo) Kc R1) as [b2 [E2 R2]]. rewrite E2. cbn [pbind].
  destruct (objective_loop_complete dn (rd_objective r) fuel b2 (set_type ty (empty_problem dn)) Tc Hobj' R2 Fo Hb1 Kc ltac:(lia)) as [b3 [E3 R3]].
  rewrite E3. cbn [pbind]. clear E3. set (p3 := fold_left (append_item dn) (rd_objective r) (set_type ty (empty_problem dn))).
  set (ks := section_list (rd_rows r)).
  assert (S4 : exists b4, (match read_subject_to (first b3) (second b3) (third b3) with O => P_ok (b3, p3) | S n0 => let? b := or_abort (pop (S n0) b3) in constraints_loop dn fuel 0 b p3 end) =
     P_ok (b4, snd (fold_left (append_row dn) ks (0, p3))) /\ repr b4 Tbd).
  { unfold Tc, ks in *. destruct (rd_rows r) as [[h l]|]; cbn [section_tokens section_list] in *.
    - destruct Hrow as [Hsub [n2 [_ Hrows]]]. cbn [fst snd] in *. rewrite <- app_assoc in R3, Fc.
      assert (Nbd' : number (tk Tbd 0) = None) by (apply keyword_no_number; [apply tk_usual; [exact Fbd|apply kw_nonempty; exact Kbd]|exact Kbd]).
      assert (Hrows' : rows_ok dn l Tbd) by exact (rows_kw _ _ _ Nbd' Hrows). pose proof (fine_app dn _ _ Fc) as Fr.
      assert (Hcc : not_colon (tk (flat_map row_tokens l ++ Tbd) 0)).
      { destruct l as [|k l]; [apply keyword_not_colon; exact Kbd|]. cbn [flat_map] in *. rewrite <- app_assoc in *. destruct Hrows' as [Hk _].
        destruct (row_first dn k _ (flat_map row_tokens l ++ Tbd) (fine_left dn _ _ Fr) Hk) as (x & y & Ex & _ & _ & Cx). rewrite Ex. exact Cx. }
      destruct (subject_run _ _ _ Hsub Hcc R3) as [_ [b4 [R4 [Er [E4 Hlen]]]]]. rewrite Er. destruct (length (header_tokens h)) as [|ns] eqn:Ens; [lia|]. rewrite E4. cbn [pbind].
      apply rows_complete; [exact Hrows'|exact R4|exact Fr|exact Kbd|]. rewrite app_length in Lc. lia.
    - exists b3. cbn [app] in R3. split; [|exact R3]. rewrite (repr_first _ _ R3), (not_subject _ Hkbd). reflexivity. }
  destruct S4 as [b4 [E4 R4]].
  match goal with |- pbind ?a _ = _ => replace a with (match read_subject_to (first b3) (second b3) (third b3) with O => P_ok (b3, p3) | S n0 => let? b := or_abort (pop (S n0) b3) in constraints_loop dn fuel 0 b p3 end)
      by (destruct (read_subject_to (first b3) (second b3) (third b3)); reflexivity) end. rewrite E4. cbn [pbind]. clear E4.
  set (names0 := map t_var (item_vars (rd_objective r))).
  assert (V3 : p3 = with_objective (set_type ty (empty_problem dn)) (the_objective dn N (rd_objective r)) []
    (fold_left (d_add dn) (map (coefficient dn) (item_consts (rd_objective r))) (d_zero dn)) (seen_vars names0)).
  { unfold p3. rewrite (objective_closed dn (rd_objective r) [] _ N (flat_map row_names ks)); [reflexivity|eapply items_named; exact Hobj'|reflexivity|reflexivity|reflexivity]. }
  assert (Q4 : snd (fold_left (append_row dn) ks (0, p3)) = with_constraints p3 (the_constraints dn op_equal N ks) (the_constraints dn op_greater N ks) (the_constraints dn op_less N ks) (vars_of N (fun _ => fresh))).
  { rewrite (rows_closed dn ks 0 p3 names0 N []); [reflexivity|rewrite V3; reflexivity|]. rewrite app_nil_r. reflexivity. }
  rewrite Q4. set (p4 := with_constraints p3 _ _ _ _).
  (* bounds *)
  set (h1 := fold_left (line_step dn) (section_list (rd_bounds r)) (fun _ => fresh)).
  destruct (section_run kw_bounds (kw_binary ++ kw_general ++ kw_end) (line_ok dn N) line_tokens (rd_bounds r) (bounds_loop dn fuel) b4 p4 (vars_of N h1) Tb) as [b5 [E5 R5]].
  { exact Hbd. } { exact Hkb. } { apply disjoint_kw. reflexivity. } { exact R4. }
  { intros h l E. specialize (Gbd h l E). rewrite E in Hbd. destruct Hbd as [_ Hbd]. destruct l as [|x l]; [apply keyword_not_colon; exact Kb|]. cbn [flat_map]. rewrite <- app_assoc.
    inversion Hbd as [|? ? O1 _]; subst. inversion Gbd as [|? ? G1 _]; subst. unfold Tbd in Fbd. rewrite E in Fbd. cbn [section_tokens flat_map] in Fbd. rewrite <- !app_assoc in Fbd.
    destruct (line_first dn N x (flat_map line_tokens l ++ Tb) O1 G1 (fine_left dn _ _ (fine_app dn _ _ Fbd))) as [S1 _]. apply (sum_token_facts _ S1). }
  { intros h l b' E HP R'. change (rw_vars p4) with (vars_of N (fun _ => fresh)). unfold h1. pose proof (Lbd h l E) as L5. pose proof (Gbd h l E) as G5. rewrite E. cbn [section_list].
    apply (bounds_complete dn l fuel b' (fun _ => fresh) N Tb Nd HP G5 R'); [|exact Kb|lia].
    unfold Tbd in Fbd. rewrite E in Fbd. cbn [section_tokens] in Fbd. rewrite <- app_assoc in Fbd. exact (fine_app dn _ _ Fbd). }
  { intros E. unfold h1. rewrite E. reflexivity. }
  unfold read_bounds. fold kw_bounds. rewrite E5. cbn [pbind]. clear E5.
  (* binary *)
  set (h2 := fold_left (fun (h : text -> variable_value) nm x => if text_eqb x nm then mk_variable_value 0 1 vt_binary else h x) (section_list (rd_binary r)) h1).
  destruct (section_run kw_binary (kw_general ++ kw_end) (fun nm => In nm N) (fun nm => [nm]) (rd_binary r) (names_loop set_boolean_variable fuel) b5 (with_vars p4 (vars_of N h1)) (vars_of N h2) Tg) as [b6 [E6 R6]].
  { exact Hbin. } { exact Hkg. } { apply disjoint_kw. reflexivity. } { exact R5. }
  { intros h l E. apply Gc; [exact (Gb h l E)|exact Kg]. }
  { intros h l b' E HP R'. cbn [rw_vars with_vars]. unfold h2. pose proof (Lbin h l E) as L6. pose proof (Gb h l E) as G6. rewrite E. cbn [section_list].
    apply (names_complete set_boolean_variable (fun _ => mk_variable_value 0 1 vt_binary) N (fun nm h0 Hin => set_boolean_complete N nm h0 Nd Hin) l fuel b' h1 Tg HP G6 R' Kg). lia. }
  { intros E. unfold h2. rewrite E. reflexivity. }
  unfold read_binary. fold kw_binary. rewrite E6. cbn [pbind]. clear E6.
  (* general *)
  set (h3 := fold_left (fun (h : text -> variable_value) nm x => if text_eqb x nm then mk_variable_value (v_min (h x)) (v_max (h x)) vt_general else h x) (section_list (rd_general r)) h2).
  destruct (section_run kw_general kw_end (fun nm => In nm N) (fun nm => [nm]) (rd_general r) (names_loop set_integer_variable fuel) b6 (with_vars (with_vars p4 (vars_of N h1)) (vars_of N h2)) (vars_of N h3) Te) as [b7 [E7 R7]].
  { exact Hgen. } { exact Hke. } { apply disjoint_kw. reflexivity. } { exact R6. }
  { intros h l E. apply Gc; [exact (Gg h l E)|exact Ke]. }
  { intros h l b' E HP R'. cbn [rw_vars with_vars]. unfold h3. pose proof (Lgen h l E) as L7. pose proof (Gg h l E) as G7. rewrite E. cbn [section_list].
    apply (names_complete set_integer_variable (fun v => mk_variable_value (v_min v) (v_max v) vt_general) N (fun nm h0 Hin => set_integer_complete N nm h0 Nd Hin) l fuel b' h2 Te HP G7 R' Ke). lia. }
  { intros E. unfold h3. rewrite E. reflexivity. }
  unfold read_general. fold kw_general. rewrite E7. cbn [pbind]. clear E7.
  (* end *)
  rewrite (repr_first _ _ R7), (repr_second _ _ R7).
  assert (Ee : read_end (tk Te 0) (tk Te 1) = length Te).
  { unfold read_end. pose proof (read_section_ok kw_end (rd_end r) [] we Hwe) as H. rewrite app_nil_r in H. fold Te in H. apply H; [|reflexivity]. unfold any_of, kw_end. cbn [existsb]. rewrite Hae. reflexivity. }
  rewrite Ee. assert (Hle : 1 <= length Te < 10) by (apply (header_len _ we Hwe)).
  rewrite <- (app_nil_r Te) in R7. destruct (pop_app _ _ _ R7 Hle) as [b8 [E8 R8]].
  destruct (length Te) as [|ne] eqn:Ene; [lia|]. rewrite E8. cbn [or_abort pbind]. rewrite (repr_first _ _ R8). cbn [tk nth].
  f_equal. unfold p4. rewrite V3. unfold the_problem. fold N ks. unfold with_vars, with_constraints, with_objective, set_type, empty_problem.
  cbn [rw_type rw_objective rw_quadratic rw_value rw_equal rw_greater rw_less rw_vars app]. f_equal.
  unfold vars_of. f_equal. apply map_ext. intros x. unfold h3, h2, h1. rewrite (names_closed (fun v => mk_variable_value (v_min v) (v_max v) vt_general)) by reflexivity.
  rewrite (names_closed (fun _ => mk_variable_value 0 1 vt_binary)) by reflexivity. rewrite lines_closed. unfold the_variable.
  destruct (find _ (rev (section_list (rd_bounds r)))), (mem x (section_list (rd_binary r))), (mem x (section_list (rd_general r))); reflexivity.
Qed.
Theorem make_problem_complete fuel t ty r : readable t -> ends_plain t -> ~ In (str "[") (file_tokens t) -> fine (file_tokens t) -> length (file_tokens t) <= fuel ->
  file_tokens t = reading_tokens r -> reading_ok dn ty r -> make_problem dn fuel t = P_ok (the_problem dn ty r).
Proof.
  intros H1 H2 H3 H4 H5 H6 H7. destruct (buffer_tokens t H1 H2) as [b [E R]]. unfold make_problem. rewrite E. cbn [or_abort pbind].
  rewrite H6 in *. apply parse_complete; assumption.
Qed.
End Complete.
