(** What the functions of the parser read when they accept. *)
From Coq Require Import Ascii String Lia.
From Verif Require Import Base Problem_model ResultIO_model Chars_spec Lexer_model Lexer_spec Lexer_proofs Parser_model Parser_spec
  Parser_proofs Parser_proofs2 Parser_proofs3 Parser_proofs4 Parser_proofs5 Accept_spec.
Open Scope string_scope.
Open Scope list_scope.
Open Scope nat_scope.

(** ** Tokens *)
Lemma pop_sound n b b' toks : repr b toks -> pop n b = Some b' -> 1 <= n < 10 /\ repr b' (skipn n toks).
Proof.
  intros HR E. assert (H : 1 <= n < 10).
  { unfold pop in E. destruct (Nat.leb 1 n && Nat.ltb n 10) eqn:Q; [|discriminate]. apply andb_true_iff in Q. destruct Q as [Q1 Q2].
    apply Nat.leb_le in Q1. apply Nat.ltb_lt in Q2. lia. }
  split; [exact H|]. destruct (pop_ok n b toks HR H) as [b2 [E2 R2]]. congruence.
Qed.
Lemma tk_seq n : forall toks, n <= length toks -> toks = map (tk toks) (seq 0 n) ++ skipn n toks.
Proof.
  induction n as [|n IH]; intros toks H; [reflexivity|]. destruct toks as [|x toks]; [cbn in H; lia|]. cbn [length] in H.
  cbn [seq map app skipn]. unfold tk at 1. cbn [nth]. f_equal. rewrite <- seq_shift, map_map. rewrite (IH toks) at 1 by lia. f_equal.
Qed.
Lemma skipn_more {A} n (l : list A) : skipn n l <> [] -> n < length l.
Proof. intros H. destruct (Nat.le_gt_cases (length l) n) as [K|K]; [|exact K]. destruct H. apply skipn_all2. exact K. Qed.
Lemma tk_skipn n toks i : tk (skipn n toks) i = tk toks (n + i).
Proof. unfold tk. apply nth_skipn. Qed.
Lemma three n toks : n <= length toks -> n <= 3 -> toks = firstn n [tk toks 0; tk toks 1; tk toks 2] ++ skipn n toks.
Proof.
  intros H K. rewrite (tk_seq n toks H) at 1. f_equal. destruct n as [|[|[|[|n]]]]; try reflexivity. lia.
Qed.
Lemma keyword_nonempty l : is_keyword (tk l 0) = true -> l <> [].
Proof. intros H ->. discriminate H. Qed.

Section Sound.
Context {D : Type} (dn : dops D).
Local Notation raw_problem := (raw_problem (D := D)).
Local Notation number := (number dn).
Local Notation coefficient := (coefficient dn).

Lemma read_real1_sound t o : read_real1 dn t = P_ok o -> o = number t.
Proof.
  unfold read_real1, number. chars. intros H. destruct (are_equal t (str "inf")) eqn:E.
  - apply are_equal_iff in E. assert (L : length t = 3) by (apply (f_equal (@length _)) in E; rewrite !map_length in E; exact E).
    rewrite L in H. cbn [Nat.leb andb] in H. congruence.
  - rewrite andb_false_r in H. destruct (Nat.ltb_spec 320 (length t)).
    + destruct (Nat.ltb_spec (length t) 320); [lia|congruence].
    + destruct (Nat.eqb_spec (length t) 320); [discriminate|]. destruct (Nat.ltb_spec (length t) 320); [congruence|lia].
Qed.
Lemma read_real2_sound t1 t2 v n : read_real2 dn t1 t2 = P_ok (v, n) ->
  exists s m, n = length (sign_tokens s ++ num_tokens m) /\ sign_tokens s ++ num_tokens m = firstn n [t1; t2] /\ opt (is_num dn) m /\
    v = with_sign dn s (number_of dn m) /\ (m = None -> number (nth n [t1; t2] []) = None).
Proof.
  unfold read_real2. intros H. destruct (text_eqb_spec t1 (str "-")) as [->|N1]; [|destruct (text_eqb_spec t1 (str "+")) as [->|N2]].
  - destruct (read_real1 dn t2) as [o| | |] eqn:E; cbn [pbind] in H; try discriminate. apply read_real1_sound in E.
    destruct o as [d|]; injection H as <- <-.
    + exists (Some Minus), (Some t2). cbn. unfold is_num. rewrite <- E. repeat split; discriminate.
    + exists (Some Minus), None. cbn. repeat split. intros _. symmetry. exact E.
  - destruct (read_real1 dn t2) as [o| | |] eqn:E; cbn [pbind] in H; try discriminate. apply read_real1_sound in E.
    destruct o as [d|]; injection H as <- <-.
    + exists (Some Plus), (Some t2). cbn. unfold is_num. rewrite <- E. repeat split; discriminate.
    + exists (Some Plus), None. cbn. repeat split. intros _. symmetry. exact E.
  - destruct (read_real1 dn t1) as [o| | |] eqn:E; cbn [pbind] in H; try discriminate. apply read_real1_sound in E.
    destruct o as [d|]; injection H as <- <-.
    + exists None, (Some t1). cbn. unfold is_num. rewrite <- E. repeat split; discriminate.
    + exists None, None. cbn. repeat split. intros _. symmetry. exact E.
Qed.
Lemma read_operator_sound t1 t2 op n : read_operator t1 t2 = Some (op, n) ->
  exists sp, n = length (op_tokens op sp) /\ op_tokens op sp = firstn n [t1; t2].
Proof.
  unfold read_operator. intros H.
  destruct (text_eqb_spec t1 (str "<")) as [->|N1]; [|destruct (text_eqb_spec t1 (str ">")) as [->|N2]; [|destruct (text_eqb_spec t1 (str "=")) as [->|N3]; [|discriminate]]].
  - destruct (text_eqb_spec t2 (str "=")) as [->|]; injection H as <- <-; [exists Sp2|exists Sp1]; split; reflexivity.
  - destruct (text_eqb_spec t2 (str "=")) as [->|]; injection H as <- <-; [exists Sp2|exists Sp1]; split; reflexivity.
  - destruct (text_eqb_spec t2 (str "<")) as [->|]; [|destruct (text_eqb_spec t2 (str "=")) as [->|]; [|destruct (text_eqb_spec t2 (str ">")) as [->|]]];
      injection H as <- <-; [exists Sp3|exists Sp2|exists Sp3|exists Sp1]; split; reflexivity.
Qed.
Lemma read_element_sound t1 t2 t3 v nm n : read_function_element dn t1 t2 t3 = P_ok (Some (v, nm, n)) ->
  exists i, nm = t_var (item_term i) /\ v = coefficient (item_term i) /\ n = length (item_tokens i) /\ n <= 3 /\ item_tokens i = firstn n [t1; t2; t3] /\
    (n <> 0 -> item_ok dn i (nth n [t1; t2; t3] [])).
Proof.
  unfold read_function_element. destruct (read_real2 dn t1 t2) as [[v' r]| | |] eqn:E; cbn [pbind]; try discriminate.
  apply read_real2_sound in E. destruct E as (s & m & En & Et & Hm & Hv & Hn).
  assert (Hr : r <= 2) by (rewrite En, app_length; destruct s as [[]|], m; cbn; lia).
  assert (Hp : pick r t1 t2 t3 = nth r [t1; t2; t3] []) by (destruct r as [|[|[|r]]]; try reflexivity; lia).
  assert (Hf : forall t, firstn r [t1; t2] ++ [nth r [t1; t2; t3] t] = firstn (r + 1) [t1; t2; t3]) by (intros t; destruct r as [|[|[|r]]]; try reflexivity; lia).
  assert (Hf' : firstn r [t1; t2] = firstn r [t1; t2; t3]) by (destruct r as [|[|[|r]]]; try reflexivity; lia).
  rewrite Hp. set (t := nth r [t1; t2; t3] []) in *. destruct (negb (is_keyword t) && starts_with_name t) eqn:K; intros H.
  - apply andb_true_iff in K. destruct K as [K1 K2]. apply negb_true_iff in K1. unfold read_name in H. destruct (forallb is_char_name t) eqn:F; [|discriminate].
    injection H as <- <- <-. exists (I_var (mk_term s m t)). cbn [item_term item_tokens t_var]. split; [reflexivity|]. split; [exact Hv|].
    unfold term_tokens. cbn [t_sign t_num t_var]. rewrite app_assoc. split; [rewrite app_length, <- En; reflexivity|]. split; [lia|].
    split; [rewrite Et; apply Hf|]. intros _. cbn [item_ok t_var t_num]. chars. unfold is_name. chars. split; [split; [intros E0; rewrite E0 in K2; discriminate|exact F]|].
    split; [exact K1|]. split; [exact Hm|]. intros Hm0. specialize (Hn Hm0). destruct m; [discriminate Hm0|]. unfold t.
    destruct s as [[]|]; cbn [sign_tokens num_tokens app length] in En; rewrite En in *; exact Hn.
  - injection H as <- <- <-. exists (I_const s m). cbn [item_term item_tokens t_var]. split; [reflexivity|]. split; [exact Hv|]. split; [exact En|]. split; [lia|].
    split; [rewrite Et; exact Hf'|]. intros N0. cbn [item_ok]. split; [destruct s as [[]|], m; try (left; discriminate); try (right; discriminate); destruct N0; exact En|].
    split; [exact Hm|]. split; [intros Hm0; specialize (Hn Hm0); destruct m; [discriminate Hm0|]; destruct s as [[]|]; cbn [sign_tokens num_tokens app length] in En; rewrite En in *; exact Hn|].
    change keyword with is_keyword. change name_like with starts_with_name. fold t. apply andb_false_iff in K. destruct K as [K|K]; [left; apply negb_false_iff; exact K|right; exact K].
Qed.

Lemma items_ok_after l : forall a b, nth 0 a [] = nth 0 b [] -> items_ok dn l a -> items_ok dn l b.
Proof.
  induction l as [|i l IH]; intros a b E H; [exact I|]. destruct H as [H1 H2]. split; [|exact (IH a b E H2)].
  destruct (flat_map item_tokens l) as [|x y] eqn:F; cbn [app] in *; [exact (eq_ind _ (fun z => item_ok dn i z) H1 _ E)|exact H1].
Qed.

Lemma rows_ok_after l : forall a b, nth 0 a [] = nth 0 b [] -> rows_ok dn l a -> rows_ok dn l b.
Proof.
  induction l as [|i l IH]; intros a b E H; [exact I|]. destruct H as [H1 H2]. split; [|exact (IH a b E H2)].
  destruct (flat_map row_tokens l) as [|x y] eqn:F; cbn [app] in *; [exact (eq_ind _ (fun z => row_ok dn i z) H1 _ E)|exact H1].
Qed.

(** ** The objective *)
Definition append_item (p : raw_problem) (i : item) : raw_problem := append_to_objective dn (coefficient (item_term i)) (t_var (item_term i)) p.
Lemma no_bracket toks i : ~ In (str "[") toks -> text_eqb (tk toks i) (str "[") = false.
Proof.
  intros H. apply text_eqb_neq. intros E. apply H. rewrite <- E. unfold tk. apply nth_In.
  destruct (Nat.lt_ge_cases i (length toks)) as [L|L]; [exact L|]. unfold tk in E. rewrite nth_overflow in E by exact L. discriminate E.
Qed.
Lemma no_quadratic toks : ~ In (str "[") toks -> starts_with_quadratic (tk toks 0) (tk toks 1) = false.
Proof. intros H. unfold starts_with_quadratic. rewrite !(no_bracket toks _ H), !andb_false_r. reflexivity. Qed.
Lemma not_in_skipn {A} (a : A) n l : ~ In a l -> ~ In a (skipn n l).
Proof. intros H K. apply H. rewrite <- (firstn_skipn n l). apply in_or_app. right. exact K. Qed.
Lemma element_tokens i toks : length (item_tokens i) <= length toks -> length (item_tokens i) <= 3 ->
  item_tokens i = firstn (length (item_tokens i)) [tk toks 0; tk toks 1; tk toks 2] -> toks = item_tokens i ++ skipn (length (item_tokens i)) toks.
Proof. intros H1 H2 H3. rewrite (three _ toks H1 H2) at 1. rewrite <- H3. reflexivity. Qed.
Lemma item_next i toks : length (item_tokens i) <= 3 -> item_ok dn i (nth (length (item_tokens i)) [tk toks 0; tk toks 1; tk toks 2] []) ->
  item_ok dn i (nth 0 (skipn (length (item_tokens i)) toks) []).
Proof.
  intros H K. rewrite nth_skipn, Nat.add_0_r. destruct i as [t|s m]; [exact K|].
  assert (L : length (item_tokens (I_const s m)) <= 2) by (destruct s as [[]|], m; cbn; lia).
  destruct (length (item_tokens (I_const s m))) as [|[|[|n]]]; [exact K|exact K|exact K|lia].
Qed.
Lemma objective_loop_sound : forall fuel b p b' p' toks, objective_loop dn fuel b p = P_ok (b', p') -> repr b toks -> ~ In (str "[") toks ->
  exists l rest, toks = flat_map item_tokens l ++ rest /\ items_ok dn l rest /\ repr b' rest /\ is_keyword (tk rest 0) = true /\ p' = fold_left append_item l p.
Proof.
  assert (Hstop : forall b p b' p' toks, P_ok (b, p) = P_ok (b', p') -> repr b toks -> is_keyword (first b) = true ->
    exists l rest, toks = flat_map item_tokens l ++ rest /\ items_ok dn l rest /\ repr b' rest /\ is_keyword (tk rest 0) = true /\ p' = fold_left append_item l p).
  { intros b p b' p' toks H HR K. injection H as <- <-. exists [], toks. rewrite (repr_first _ _ HR) in K. split; [reflexivity|]. split; [exact I|]. split; [exact HR|]. split; [exact K|reflexivity]. }
  induction fuel as [|fuel IH]; intros b p b' p' toks H HR Hb; cbn [objective_loop] in H; (destruct (is_keyword (first b)) eqn:K; [eapply Hstop; eassumption|]); [discriminate|].
  destruct (objective_step dn fuel b p) as [[b1 p1]| | |] eqn:E; cbn [pbind] in H; try discriminate.
  unfold objective_step in E. rewrite (repr_first _ _ HR), (repr_second _ _ HR), (repr_third _ _ HR), (no_quadratic _ Hb) in E.
  destruct (read_function_element dn _ _ _) as [[[[v nm] n]|]| | |] eqn:E1; cbn [pbind or_error] in E; try discriminate.
  destruct (pop n b) as [b2|] eqn:E2; cbn [or_abort pbind] in E; [|discriminate]. injection E as <- <-.
  destruct (pop_sound _ _ _ _ HR E2) as [Hn R2]. apply read_element_sound in E1. destruct E1 as (i & -> & -> & En & L3 & Et & Hi). subst n.
  destruct (IH _ _ _ _ _ H R2 (not_in_skipn _ _ _ Hb)) as (l & rest & T & Hl & R' & K' & P').
  assert (Hlen : length (item_tokens i) < length toks).
  { apply skipn_more. rewrite T. intros E0. apply app_eq_nil in E0. destruct E0 as [_ E0]. exact (keyword_nonempty _ K' E0). }
  exists (i :: l), rest. split; [cbn [flat_map]; rewrite <- app_assoc, <- T; apply element_tokens; [lia|exact L3|exact Et]|].
  split; [|split; [exact R'|split; [exact K'|exact P']]]. cbn [items_ok]. split; [|exact Hl]. rewrite <- T. apply item_next; [exact L3|]. apply Hi. lia.
Qed.

(** ** The constraints *)
Definition append_term (acc : variables * list felem) (t : term) : variables * list felem :=
  let (id, vs) := get_or_assign_variable (fst acc) (t_var t) in (vs, add_term (int_of dn (coefficient t)) id (snd acc)).
Lemma element_sound b vs els b' vs' els' toks : constraint_element dn b vs els = P_ok (b', vs', els') -> repr b toks ->
  exists i, (vs', els') = append_term (vs, els) (item_term i) /\ int_ok dn (coefficient (item_term i)) /\ repr b' (skipn (length (item_tokens i)) toks) /\
    (skipn (length (item_tokens i)) toks <> [] -> toks = item_tokens i ++ skipn (length (item_tokens i)) toks /\ item_ok dn i (nth 0 (skipn (length (item_tokens i)) toks) [])).
Proof.
  unfold constraint_element. intros E HR. rewrite (repr_first _ _ HR), (repr_second _ _ HR), (repr_third _ _ HR) in E.
  destruct (read_function_element dn _ _ _) as [[[[v nm] n]|]| | |] eqn:E1; cbn [pbind or_error] in E; try discriminate.
  apply read_element_sound in E1. destruct E1 as (i & -> & -> & En & L3 & Et & Hi). subst n.
  destruct (get_or_assign_variable vs (t_var (item_term i))) as [id vs1] eqn:Eg. destruct (d_int dn (coefficient (item_term i))) as [z|] eqn:Ez; cbn [or_abort pbind] in E; [|discriminate].
  destruct (pop _ b) as [b2|] eqn:E2; cbn [or_abort pbind] in E; [|discriminate]. injection E as <- <- <-. destruct (pop_sound _ _ _ _ HR E2) as [Hn R2].
  exists i. split; [unfold append_term; cbn [fst snd]; rewrite Eg; unfold int_of; rewrite Ez; reflexivity|]. split; [unfold int_ok; congruence|].
  split; [exact R2|]. intros K. apply skipn_more in K. split; [apply element_tokens; [lia|exact L3|exact Et]|]. apply item_next; [exact L3|]. apply Hi. lia.
Qed.
Lemma elements_loop_sound : forall fuel b vs els b' vs' els' toks, elements_loop dn fuel b vs els = P_ok (b', vs', els') -> repr b toks ->
  repr b' [] \/ exists l rest, toks = flat_map item_tokens l ++ rest /\ items_ok dn l rest /\ repr b' rest /\ rest <> [] /\
    (vs', els') = fold_left append_term (map item_term l) (vs, els) /\ Forall (fun t => int_ok dn (coefficient t)) (map item_term l).
Proof.
  assert (Hstop : forall b vs els b' vs' els' toks, P_ok (b, vs, els) = P_ok (b', vs', els') -> repr b toks ->
    repr b' [] \/ exists l rest, toks = flat_map item_tokens l ++ rest /\ items_ok dn l rest /\ repr b' rest /\ rest <> [] /\
    (vs', els') = fold_left append_term (map item_term l) (vs, els) /\ Forall (fun t => int_ok dn (coefficient t)) (map item_term l)).
  { intros b vs els b' vs' els' toks H HR. injection H as <- <- <-. destruct toks as [|x toks]; [left; exact HR|]. right. exists [], (x :: toks).
    split; [reflexivity|]. split; [exact I|]. split; [exact HR|]. split; [discriminate|]. split; [reflexivity|constructor]. }
  induction fuel as [|fuel IH]; intros b vs els b' vs' els' toks H HR; cbn [elements_loop] in H;
    (destruct (first b) as [|c w] eqn:Ef; [eapply Hstop; eassumption|]); (destruct (starts_with_operator _) eqn:K; [eapply Hstop; eassumption|]); [discriminate|].
  destruct (constraint_element dn b vs els) as [[[b1 vs1] els1]| | |] eqn:E; cbn [pbind] in H; try discriminate.
  destruct (element_sound _ _ _ _ _ _ _ E HR) as (i & Ei & Zi & R1 & Ti).
  destruct (IH _ _ _ _ _ _ _ H R1) as [R'|(l & rest & T & Hl & R' & Ne & F & Z)]; [left; exact R'|]. right.
  assert (Nk : skipn (length (item_tokens i)) toks <> []) by (rewrite T; intros E0; apply app_eq_nil in E0; destruct E0; contradiction).
  destruct (Ti Nk) as [T1 O1]. exists (i :: l), rest. split; [cbn [flat_map]; rewrite <- app_assoc, <- T; exact T1|]. split; [cbn [items_ok]; rewrite <- T; split; assumption|].
  split; [exact R'|]. split; [exact Ne|]. cbn [map fold_left]. rewrite <- Ei. split; [exact F|]. constructor; assumption.
Qed.
Definition append_row (acc : nat * raw_problem) (k : row) : nat * raw_problem :=
  let (vs, els) := fold_left append_term (row_terms k) (rw_vars (snd acc), []) in
  (S (fst acc), add_constraint (w_op k) (mk_constraint (match w_label k with Some l => l | None => [] end) els (int_of dn (row_number dn k)) (Z.of_nat (fst acc))) (with_vars (snd acc) vs)).
Lemma repr_nil_first b : repr b [] -> first b = [].
Proof. intros H. apply (repr_first _ _ H). Qed.
Lemma row_sound fuel id b p b' p' toks : constraint_step dn fuel id b p = P_ok (b', p') -> repr b toks -> is_keyword (tk toks 0) = false ->
  exists k, (S id, p') = append_row (id, p) k /\ (repr b' [] \/ exists rest, toks = row_tokens k ++ rest /\ repr b' rest /\ row_ok dn k (tk rest 0)).
Proof.
  unfold constraint_step. intros H HR Hk.
  destruct (read_label b) as [[label b1]| | |] eqn:E1; cbn [pbind] in H; try discriminate.
  destruct (constraint_element dn b1 (rw_vars p) []) as [[[b2 vs2] els2]| | |] eqn:E2; cbn [pbind] in H; try discriminate.
  destruct (elements_loop dn fuel b2 vs2 els2) as [[[b3 vs3] els3]| | |] eqn:E3; cbn [pbind] in H; try discriminate.
  destruct (read_operator (first b3) (second b3)) as [[op n4]|] eqn:E4; cbn [pbind or_error] in H; [|discriminate].
  destruct (pop n4 b3) as [b4|] eqn:E5; cbn [or_abort pbind] in H; [|discriminate].
  destruct (read_real2 dn (first b4) (second b4)) as [[v n5]| | |] eqn:E6; cbn [pbind] in H; try discriminate.
  destruct (d_int dn v) as [z|] eqn:E7; cbn [or_abort pbind] in H; [|discriminate].
  destruct (pop n5 b4) as [b5|] eqn:E8; cbn [or_abort pbind] in H; [|discriminate]. injection H as <- <-.
  (* the label *)
  assert (L : exists lb toks1, label = match lb with Some l => l | None => [] end /\ opt (fun l => name_like l = true /\ keyword l = false) lb /\ repr b1 toks1 /\
    (toks1 <> [] -> toks = label_tokens lb ++ toks1)).
  { unfold read_label in E1. rewrite (repr_first _ _ HR), (repr_second _ _ HR) in E1. destruct (starts_with_name (tk toks 0)) eqn:Sn.
    - destruct (text_eqb_spec (tk toks 1) (str ":")) as [Ec|Nc]; cbn [andb] in E1.
      + destruct (pop 2 b) as [b0|] eqn:E0; cbn [or_abort pbind] in E1; [|discriminate]. injection E1 as <- <-. destruct (pop_sound _ _ _ _ HR E0) as [_ R0].
        exists (Some (tk toks 0)), (skipn 2 toks). split; [reflexivity|]. split; [cbn [opt]; split; assumption|]. split; [exact R0|].
        intros Nz. apply skipn_more in Nz. cbn [label_tokens]. rewrite (tk_seq 2 toks) at 1 by lia. cbn [seq map]. rewrite Ec. reflexivity.
      + injection E1 as <- <-. exists None, toks. split; [reflexivity|]. split; [exact I|]. split; [exact HR|]. reflexivity.
    - cbn [andb] in E1. injection E1 as <- <-. exists None, toks. split; [reflexivity|]. split; [exact I|]. split; [exact HR|]. reflexivity. }
  destruct L as (lb & toks1 & -> & Hlb & R1 & T1).
  destruct (element_sound _ _ _ _ _ _ _ E2 R1) as (i & Ei & Zi & R2 & T2).
  destruct (elements_loop_sound _ _ _ _ _ _ _ _ E3 R2) as [R3|(l & rest & T3 & Hl & R3 & Ne & F & Z)].
  { rewrite (repr_first _ _ R3), (repr_second _ _ R3) in E4. discriminate E4. }
  assert (Nk : skipn (length (item_tokens i)) toks1 <> []) by (rewrite T3; intros E0; apply app_eq_nil in E0; destruct E0; contradiction).
  destruct (T2 Nk) as [T2' O2]. assert (N1 : toks1 <> []) by (intros E0; rewrite E0, skipn_nil in Nk; congruence). specialize (T1 N1).
  rewrite (repr_first _ _ R3), (repr_second _ _ R3) in E4. apply read_operator_sound in E4. destruct E4 as (sp & En4 & Et4).
  destruct (pop_sound _ _ _ _ R3 E5) as [Hn4 R4]. rewrite (repr_first _ _ R4), (repr_second _ _ R4) in E6. apply read_real2_sound in E6.
  destruct E6 as (s & m & En5 & Et5 & Hm & Hv & Hm0). destruct (pop_sound _ _ _ _ R4 E8) as [Hn5 R5].
  exists (mk_row lb (i :: l) op sp s m). unfold append_row, row_ok, row_terms, row_number, row_tokens. cbn [fst snd w_label w_items w_op w_spell w_sign w_num map fold_left].
  rewrite <- Ei, <- F. split; [unfold int_of; rewrite <- Hv, E7; reflexivity|].
  assert (L4 : n4 <= 2) by (rewrite En4; destruct op, sp; cbn; lia). assert (L5 : n5 <= 2) by (rewrite En5, app_length; destruct s as [[]|], m; cbn; lia).
  destruct (skipn n5 (skipn n4 rest)) as [|x y] eqn:Q; [left; exact R5|]. right. exists (x :: y). split; [|split; [exact R5|]].
  - assert (Q5 : n5 < length (skipn n4 rest)) by (apply skipn_more; rewrite Q; discriminate).
    assert (Q4 : n4 < length rest) by (apply skipn_more; intros E0; rewrite E0, skipn_nil in Q; discriminate).
    rewrite T1, T2', T3. rewrite <- !app_assoc. f_equal. cbn [flat_map]. rewrite <- app_assoc. do 2 f_equal.
    rewrite (three n4 rest) at 1 by lia. replace (firstn n4 [tk rest 0; tk rest 1; tk rest 2]) with (op_tokens op sp)
      by (rewrite Et4; destruct n4 as [|[|[|n4]]]; try reflexivity; lia). f_equal.
    rewrite (three n5 (skipn n4 rest)) at 1 by lia. rewrite Q. rewrite app_assoc. f_equal. rewrite Et5. destruct n5 as [|[|[|n5]]]; try reflexivity; lia.
  - split; [exact Hlb|]. split; [discriminate|]. split.
    + assert (A : items_ok dn (i :: l) rest) by (cbn [items_ok]; rewrite <- T3; split; assumption).
      revert A. apply items_ok_after. rewrite Et4. destruct n4 as [|n4]; [lia|reflexivity].
    + split; [constructor; assumption|]. split; [|split; [exact Hm|split; [|unfold int_ok; rewrite <- Hv; congruence]]].
      * destruct s; [left; discriminate|]. destruct m; [right; discriminate|]. cbn in En5. lia.
      * cbn [w_num]. intros Em. specialize (Hm0 Em). rewrite Em in *. rewrite <- Hm0. f_equal. rewrite <- Q, tk_skipn, Nat.add_0_r.
        destruct s as [[]|]; cbn in En5; rewrite En5 in *; [reflexivity|reflexivity|lia].
Qed.
Lemma rows_sound : forall fuel id b p b' p' toks, constraints_loop dn fuel id b p = P_ok (b', p') -> repr b toks ->
  repr b' [] \/ exists ks rest, toks = flat_map row_tokens ks ++ rest /\ rows_ok dn ks rest /\ repr b' rest /\ is_keyword (tk rest 0) = true /\
    p' = snd (fold_left append_row ks (id, p)).
Proof.
  assert (Hempty : forall b (p : raw_problem) b' p' toks, P_ok (b, p) = P_ok (b', p') -> repr b toks -> first b = [] -> repr b' []).
  { intros b p b' p' toks H HR E. injection H as <- <-. rewrite (repr_first _ _ HR) in E. destruct toks as [|x toks]; [exact HR|].
    pose proof (rp_toks _ _ HR) as F. inversion F as [|? ? F1 F2]. subst. unfold tk in E. cbn in E. congruence. }
  assert (Hstop : forall id b p b' p' toks, P_ok (b, p) = P_ok (b', p') -> repr b toks -> is_keyword (first b) = true ->
    exists ks rest, toks = flat_map row_tokens ks ++ rest /\ rows_ok dn ks rest /\ repr b' rest /\ is_keyword (tk rest 0) = true /\ p' = snd (fold_left append_row ks (id, p))).
  { intros id b p b' p' toks H HR K. injection H as <- <-. exists [], toks. rewrite (repr_first _ _ HR) in K. split; [reflexivity|]. split; [exact I|]. split; [exact HR|]. split; [exact K|reflexivity]. }
  induction fuel as [|fuel IH]; intros id b p b' p' toks H HR; cbn [constraints_loop] in H; destruct (first b) as [|c w] eqn:Ef.
  - left. eapply Hempty; eassumption.
  - rewrite <- Ef in H. destruct (is_keyword (first b)) eqn:K; [right; eapply Hstop; eassumption|discriminate].
  - left. eapply Hempty; eassumption.
  - rewrite <- Ef in H. destruct (is_keyword (first b)) eqn:K; [right; eapply Hstop; eassumption|].
    destruct (constraint_step dn fuel id b p) as [[b1 p1]| | |] eqn:E; cbn [pbind] in H; try discriminate.
    rewrite (repr_first _ _ HR) in K. destruct (row_sound _ _ _ _ _ _ _ E HR K) as (k & Ek & [R1|(rest1 & T1 & R1 & Hk)]).
    + left. destruct (IH _ _ _ _ _ _ H R1) as [R'|(ks & rest & T & Hks & R' & K' & P')]; [exact R'|].
      symmetry in T. apply app_eq_nil in T. destruct T as [_ T]. destruct (keyword_nonempty _ K' T).
    + destruct (IH _ _ _ _ _ _ H R1) as [R'|(ks & rest & T & Hks & R' & K' & P')]; [left; exact R'|]. right. exists (k :: ks), rest.
      split; [cbn [flat_map]; rewrite <- app_assoc, <- T; exact T1|]. split; [cbn [rows_ok]; rewrite <- T; split; assumption|]. split; [exact R'|]. split; [exact K'|].
      cbn [fold_left]. rewrite <- Ek. exact P'.
Qed.
End Sound.
