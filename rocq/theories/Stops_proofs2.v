(** The converse: the files of [program_stops] and [reads_for_ever] get no answer. *)
From Coq Require Import Ascii String Lia.
From Verif Require Import Base Problem_model ResultIO_model Chars_spec Lexer_model Lexer_spec Lexer_proofs Parser_model Parser_spec
  Parser_proofs Parser_proofs2 Parser_proofs3 Parser_proofs4 Parser_proofs5 Accept_spec Accept_proofs Accept_proofs2 Accept_proofs3 Accept_proofs4 Accept_proofs5 Accept_proofs6
  Refused_spec Refused_proofs Stops_spec Stops_proofs.
Open Scope string_scope.
Open Scope list_scope.
Open Scope nat_scope.

Section Stops.
Context {D : Type} (dn : dops D).
Local Notation raw_problem := (raw_problem (D := D)).
Local Notation fine := (Forall (usual_word dn)).
Lemma fine_tk toks i : fine toks -> length (tk toks i) <> 320.
Proof.
  intros H. unfold tk. destruct (Nat.lt_ge_cases i (length toks)) as [L|L]; [|rewrite nth_overflow by exact L; discriminate].
  rewrite Forall_forall in H. apply H, nth_In, L.
Qed.
(** ** A word that is no element *)
Lemma real2_none t1 t2 : length t1 <> 320 -> no_value dn t1 -> read_real2 dn t1 t2 = P_ok (d_one dn, 0).
Proof.
  intros L (H1 & H2 & H3). unfold read_real2. rewrite (eqb_str t1 "-"), (eqb_str t1 "+") by assumption. rewrite (real1_complete dn t1 L), H1. reflexivity.
Qed.
Lemma element_none t1 t2 t3 : length t1 <> 320 -> no_element dn t1 -> read_function_element dn t1 t2 t3 = P_ok (Some (d_one dn, [], 0)).
Proof.
  intros L (H1 & H2). unfold read_function_element. rewrite (real2_none t1 t2 L H1). cbn [pbind pick]. change keyword with is_keyword in H2. change name_like with starts_with_name in H2.
  replace (negb (is_keyword t1) && starts_with_name t1) with false by (destruct H2 as [-> | ->]; [reflexivity|rewrite andb_false_r; reflexivity]). reflexivity.
Qed.
(** ** The objective *)
Lemma objective_run : forall l fuel b (p : raw_problem) rest, items_ok dn l rest -> repr b (flat_map item_tokens l ++ rest) -> fine (flat_map item_tokens l ++ rest) ->
  ~ In (str "[") (flat_map item_tokens l ++ rest) -> exists b' p', objective_loop dn (length l + fuel) b p = objective_loop dn fuel b' p' /\ repr b' rest.
Proof.
  induction l as [|i l IH]; intros fuel b p rest Hok HR H3 Hb; [exists b, p; split; [reflexivity|exact HR]|].
  destruct Hok as [Hi Hok]. cbn [flat_map length Nat.add] in *. rewrite <- app_assoc in *.
  destruct (item_first dn _ _ (fine_left dn _ _ H3) Hi) as (x & y & Ex & Kx). cbn [objective_loop]. rewrite (repr_first _ _ HR).
  replace (tk (item_tokens i ++ flat_map item_tokens l ++ rest) 0) with x by (rewrite Ex; reflexivity). rewrite Kx.
  unfold objective_step. rewrite (repr_first _ _ HR), (repr_second _ _ HR), (repr_third _ _ HR), (no_quadratic _ Hb).
  rewrite (element_complete dn i _ H3 Hi). cbn [pbind or_error]. destruct (pop_app _ _ _ HR (item_len dn _ _ Hi)) as [b1 [E1 R1]]. rewrite E1. cbn [or_abort pbind].
  exact (IH fuel b1 _ rest Hok R1 (fine_app dn _ _ H3) (no_in_app _ _ _ Hb)).
Qed.
Lemma objective_stops b (p : raw_problem) toks fuel : objective_stop dn toks -> repr b toks -> fine toks -> ~ In (str "[") toks -> length toks < fuel -> objective_loop dn fuel b p = P_abort.
Proof.
  intros (l & rest & -> & Hl & He & Hk) HR H3 Hb Hf. pose proof (items_len dn _ _ Hl) as L. rewrite app_length in Hf.
  replace fuel with (length l + S (fuel - length l - 1)) by lia. destruct (objective_run l (S (fuel - length l - 1)) b p rest Hl HR H3 Hb) as (b' & p' & E & R). rewrite E. cbn [objective_loop].
  rewrite (repr_first _ _ R). change (is_keyword (tk rest 0)) with (keyword (word rest)). rewrite Hk. unfold objective_step. rewrite (repr_first _ _ R), (repr_second _ _ R), (repr_third _ _ R), (no_quadratic _ (no_in_app _ _ _ Hb)).
  rewrite (element_none _ _ _ (fine_tk _ 0 (fine_app dn _ _ H3)) He). reflexivity.
Qed.
(** ** The constraints *)
Lemma celement_stops b vs els toks : repr b toks -> fine toks ->
  (no_element dn (word toks) \/ exists i more, toks = item_tokens i ++ more /\ item_ok dn i (word more) /\ ~ int_ok dn (coefficient dn (item_term i))) ->
  constraint_element dn b vs els = P_abort.
Proof.
  intros HR H3 H. unfold constraint_element. rewrite (repr_first _ _ HR), (repr_second _ _ HR), (repr_third _ _ HR). destruct H as [H|(i & more & -> & Hi & Hz)].
  - rewrite (element_none _ _ _ (fine_tk _ 0 H3) H). cbn [pbind or_error]. destruct (get_or_assign_variable vs []) as [id vs1]. destruct (d_int dn (d_one dn)); reflexivity.
  - rewrite (element_complete dn i _ H3 Hi). cbn [pbind or_error]. destruct (get_or_assign_variable vs _) as [id vs1]. unfold int_ok in Hz. destruct (d_int dn (coefficient dn (item_term i))); [exfalso; apply Hz; discriminate|reflexivity].
Qed.
Lemma elements_run : forall l fuel b vs els rest, items_ok dn l rest -> Forall (fun i => int_ok dn (coefficient dn (item_term i))) l -> repr b (flat_map item_tokens l ++ rest) ->
  fine (flat_map item_tokens l ++ rest) -> exists b' vs' els', elements_loop dn (length l + fuel) b vs els = elements_loop dn fuel b' vs' els' /\ repr b' rest.
Proof.
  induction l as [|i l IH]; intros fuel b vs els rest Hok Hz HR H3; [exists b, vs, els; split; [reflexivity|exact HR]|].
  destruct Hok as [Hi Hok]. cbn [flat_map length Nat.add] in *. rewrite <- app_assoc in *. inversion Hz as [|? ? Z1 Z2]; subst.
  destruct (item_first dn _ _ (fine_left dn _ _ H3) Hi) as (x & y & Ex & Kx). pose proof (item_all dn _ _ (fine_left dn _ _ H3) Hi) as Fx. rewrite Ex in Fx. inversion Fx as [|? ? Sx _]; subst. destruct (sum_token_facts _ Sx) as (_ & X1 & X2 & _).
  cbn [elements_loop]. assert (Ef : first b = x) by (rewrite (repr_first _ _ HR), Ex; reflexivity). rewrite Ef, X2. destruct x as [|c x]; [congruence|].
  destruct (elt_complete dn i b vs els _ HR H3 Hi Z1) as [b1 [E1 R1]]. rewrite E1. cbn [pbind]. exact (IH fuel b1 _ _ rest Hok Z2 R1 (fine_app dn _ _ H3)).
Qed.
Lemma whole_operator_read op sp more : whole_operator op sp more -> read_operator (tk (op_tokens op sp ++ more) 0) (tk (op_tokens op sp ++ more) 1) = Some (op, length (op_tokens op sp)).
Proof.
  intros W. assert (Q : forall op' sp' c, length (op_tokens op sp) = 1 -> op_tokens op' sp' = op_tokens op sp ++ [c] -> c <> [] -> tk more 0 <> c).
  { intros op' sp' c L E Nc Ec. apply (W op' sp'); [rewrite E, app_length, L; cbn; lia|]. rewrite E, firstn_app, L. rewrite (firstn_all2 (op_tokens op sp)) by lia. f_equal.
    destruct more as [|x z]; [exfalso; apply Nc; rewrite <- Ec; reflexivity|]. unfold tk in Ec. cbn [nth] in Ec. subst c. reflexivity. }
  clear W. destruct op, sp; try reflexivity; cbn [op_tokens app length] in *; unfold tk in *; cbn [nth]; unfold read_operator.
  - rewrite (eqb_str (nth 0 more []) "<"), (eqb_str (nth 0 more []) "="), (eqb_str (nth 0 more []) ">"); [reflexivity| | |];
      [exact (Q op_greater Sp3 _ eq_refl eq_refl ltac:(discriminate))|exact (Q op_equal Sp2 _ eq_refl eq_refl ltac:(discriminate))|exact (Q op_less Sp3 _ eq_refl eq_refl ltac:(discriminate))].
  - rewrite (eqb_str (nth 0 more []) "="); [reflexivity|]. exact (Q op_greater Sp2 _ eq_refl eq_refl ltac:(discriminate)).
  - rewrite (eqb_str (nth 0 more []) "="); [reflexivity|]. exact (Q op_less Sp2 _ eq_refl eq_refl ltac:(discriminate)).
Qed.
Lemma label_run b lb rest : repr b (label_tokens lb ++ rest) -> opt (fun l => name_like l = true /\ keyword l = false) lb ->
  (lb = None -> name_like (word (label_tokens lb ++ rest)) = true -> nth 1 (label_tokens lb ++ rest) [] <> str ":") ->
  exists l b1, read_label b = P_ok (l, b1) /\ repr b1 rest.
Proof.
  intros HR Hl Hn. unfold read_label. rewrite (repr_first _ _ HR), (repr_second _ _ HR). destruct lb as [l|]; cbn [label_tokens app opt] in *.
  - unfold tk. cbn [nth]. destruct Hl as [Hl _]. change name_like with starts_with_name in Hl. rewrite Hl, text_eqb_refl. cbn [andb].
    destruct (pop_app [l; str ":"] rest b HR) as [b1 [E1 R1]]; [cbn; lia|]. cbn [length] in E1. rewrite E1. exists l, b1. split; [reflexivity|exact R1].
  - exists [], b. split; [|exact HR]. destruct (starts_with_name (tk rest 0)) eqn:S; [|reflexivity]. rewrite (eqb_str (tk rest 1) ":"); [reflexivity|]. exact (Hn eq_refl S).
Qed.
Lemma row_stops fuel id b (p : raw_problem) toks : row_stop dn toks -> repr b toks -> fine toks -> length toks <= S fuel -> constraint_step dn fuel id b p = P_abort.
Proof.
  intros (_ & lb & is & rest & Hl & Hlb & T & Hok & Hz & H) HR H3 Hf. subst toks. unfold constraint_step. destruct (label_run _ _ _ HR Hl Hlb) as (l & b1 & E1 & R1). rewrite E1. cbn [pbind].
  pose proof (fine_app dn _ _ H3) as F1. rewrite !app_length in Hf. pose proof (items_len dn _ _ Hok) as Li.
  destruct is as [|i is].
  { cbn [flat_map app] in *. rewrite (celement_stops b1 (rw_vars p) [] rest R1 F1); [reflexivity|]. destruct H as [[H _]|[H|(op & sp & more & Hne & _)]]; [left; exact H|right; exact H|congruence]. }
  destruct Hok as [Hi Hok]. inversion Hz as [|? ? Z1 Z2]; subst. cbn [flat_map length] in *. rewrite <- app_assoc in *.
  destruct (elt_complete dn i b1 (rw_vars p) [] _ R1 F1 Hi Z1) as [b2 [E2 R2]]. rewrite E2. cbn [pbind]. pose proof (fine_app dn _ _ F1) as F2.
  pose proof (fine_app dn _ _ F2) as F3. rewrite app_length in *. pose proof (items_len dn _ _ Hok) as Li'.
  destruct H as [[H Hop]|[H|(op & sp & more & _ & -> & W & H)]].
  - destruct (Hop ltac:(discriminate)) as [Hne Ho]. assert (Lr : 1 <= length rest) by (destruct rest; [congruence|cbn; lia]).
    replace fuel with (length is + S (fuel - length is - 1)) by (pose proof (item_len dn _ _ Hi); lia).
    destruct (elements_run is (S (fuel - length is - 1)) b2 (fst (append_term dn (rw_vars p, []) (item_term i))) (snd (append_term dn (rw_vars p, []) (item_term i))) rest Hok Z2 R2 F2) as (b3 & vs3 & els3 & E3 & R3).
    rewrite E3. cbn [elements_loop]. destruct (first b3) as [|c w] eqn:Ef; [exfalso; rewrite (repr_first _ _ R3) in Ef; destruct rest as [|x z]; [congruence|]; pose proof (Forall_inv (rp_toks _ _ R3)); unfold tk in Ef; cbn in Ef; congruence|].
    rewrite <- Ef, (repr_first _ _ R3). change (starts_with_operator (tk rest 0)) with (operator_like (word rest)). rewrite Ho. rewrite (celement_stops b3 vs3 els3 rest R3 F3); [reflexivity|left; exact H].
  - pose proof H as H'. destruct H' as (j & more & -> & Hj & _). pose proof (item_len dn _ _ Hj) as Lj. rewrite app_length in *.
    replace fuel with (length is + S (fuel - length is - 1)) by (pose proof (item_len dn _ _ Hi); lia).
    destruct (elements_run is (S (fuel - length is - 1)) b2 (fst (append_term dn (rw_vars p, []) (item_term i))) (snd (append_term dn (rw_vars p, []) (item_term i))) _ Hok Z2 R2 F2) as (b3 & vs3 & els3 & E3 & R3).
    rewrite E3. cbn [elements_loop]. destruct (item_first dn _ _ (fine_left dn _ _ F3) Hj) as (x & y & Ex & Kx). pose proof (item_all dn _ _ (fine_left dn _ _ F3) Hj) as Fx. rewrite Ex in Fx. inversion Fx as [|? ? Sx _]; subst. destruct (sum_token_facts _ Sx) as (_ & X1 & X2 & _).
    assert (Ef : first b3 = x) by (rewrite (repr_first _ _ R3), Ex; reflexivity). rewrite Ef, X2. destruct x as [|c x]; [congruence|].
    rewrite (celement_stops b3 vs3 els3 _ R3 F3); [reflexivity|right; exact H].
  - destruct (elements_loop_complete dn is fuel b2 (append_term dn (rw_vars p, []) (item_term i)) _ Hok ltac:(rewrite Forall_map; exact Z2) R2 F2) as [b3 [E3 R3]];
      [destruct op, sp; reflexivity|pose proof (item_len dn _ _ Hi); lia|].
    rewrite E3. cbn [pbind]. rewrite (repr_first _ _ R3), (repr_second _ _ R3), (whole_operator_read _ _ _ W). cbn [or_error pbind].
    destruct (pop_app _ _ _ R3 (op_len op sp)) as [b4 [E4 R4]]. rewrite E4. cbn [or_abort pbind]. rewrite (repr_first _ _ R4), (repr_second _ _ R4). pose proof (fine_app dn _ _ F3) as F4.
    destruct H as [H|(s & m & after & -> & Hsm & Hm & Hmn & Hv)].
    + rewrite (real2_none (tk more 0) (tk more 1) (fine_tk _ 0 F4) H). cbn [pbind]. destruct (d_int dn (d_one dn)); reflexivity.
    + rewrite (real2_complete dn s m after F4 Hm Hmn); [|intros -> ->; destruct Hsm; congruence]. cbn [pbind]. unfold int_ok in Hv. destruct (d_int dn (with_sign dn s (number_of dn m))); [exfalso; apply Hv; discriminate|reflexivity].
Qed.
Lemma rows_stops : forall ks fuel id b (p : raw_problem) part, rows_ok dn ks part -> repr b (flat_map row_tokens ks ++ part) -> fine (flat_map row_tokens ks ++ part) ->
  keyword (word part) = false -> row_stop dn part -> length (flat_map row_tokens ks ++ part) <= fuel -> constraints_loop dn fuel id b p = P_abort.
Proof.
  induction ks as [|k ks IH]; intros fuel id b p part Hok HR H3 Hk Hp Hf; cbn [flat_map app] in *.
  { assert (Hne : part <> []) by apply Hp. destruct fuel as [|fuel]; [destruct part; [congruence|cbn in Hf; lia]|]. cbn [constraints_loop].
    destruct (first b) as [|c w] eqn:Ef; [exfalso; rewrite (repr_first _ _ HR) in Ef; destruct part as [|x z]; [congruence|]; pose proof (Forall_inv (rp_toks _ _ HR)); unfold tk in Ef; cbn in Ef; congruence|].
    rewrite <- Ef, (repr_first _ _ HR). change (is_keyword (tk part 0)) with (keyword (word part)). rewrite Hk. rewrite (row_stops fuel id b p part Hp HR H3 Hf). reflexivity. }
  destruct Hok as [Hi Hok]. rewrite <- app_assoc in *. rewrite app_length in Hf.
  destruct (row_first dn k _ (flat_map row_tokens ks ++ part) (fine_left dn _ _ H3) Hi) as (x & y & Ex & Kx & Nx & _).
  assert (L1 : 1 <= length (row_tokens k)). { destruct Hi as (_ & Hne & His & _). unfold row_tokens. rewrite !app_length. pose proof (items_len dn _ _ His). destruct (w_items k); [congruence|cbn [length] in *; lia]. }
  destruct fuel as [|fuel]; [lia|]. cbn [constraints_loop]. assert (Ef : first b = x) by (rewrite (repr_first _ _ HR), Ex; reflexivity). rewrite Ef. destruct x as [|c x]; [congruence|]. rewrite Kx.
  destruct (row_complete dn k fuel id b p _ Hi HR H3) as [b1 [E1 R1]]; [pose proof (row_len dn _ _ Hi); lia|]. rewrite E1. cbn [pbind].
  apply (IH fuel (S id) b1 _ part Hok R1 (fine_app dn _ _ H3) Hk Hp). lia.
Qed.
(** ** The names *)
Lemma names_run (set : text -> variables -> pres variables) (f : variable_value -> variable_value) N :
  (forall nm h, In nm N -> set nm (vars_of N h) = P_ok (vars_of N (fun x => if text_eqb x nm then f (h x) else h x))) -> In [] N ->
  forall fuel b h toks, repr b toks -> Forall (fun nm => In nm N /\ keyword nm = false) toks -> names_loop set fuel b (vars_of N h) = P_running.
Proof.
  intros Hset H0. induction fuel as [|fuel IH]; intros b h toks HR Hok.
  - cbn [names_loop]. rewrite (repr_first _ _ HR). replace (is_keyword (tk toks 0)) with false; [reflexivity|]. symmetry. destruct toks as [|x z]; [reflexivity|]. apply (Forall_inv Hok).
  - cbn [names_loop]. rewrite (repr_first _ _ HR). replace (is_keyword (tk toks 0)) with false by (symmetry; destruct toks as [|x z]; [reflexivity|]; apply (Forall_inv Hok)).
    assert (Hin : In (tk toks 0) N) by (destruct toks as [|x z]; [exact H0|apply (Forall_inv Hok)]). rewrite (Hset _ h Hin). cbn [pbind].
    destruct (pop_front_ok _ _ HR) as [b1 [E1 R1]]. rewrite E1. cbn [or_abort pbind]. apply (IH _ _ (tl toks) R1). destruct toks; [constructor|exact (Forall_inv_tail Hok)].
Qed.
(** ** The bounds *)
Hypothesis Hninf : d_is_ninf dn (d_neg dn (d_inf dn)) = true.
Hypothesis Hpinf : d_is_pinf dn (d_inf dn) = true.
Lemma set_line_stops N h l : In (line_name l) N ->
  (d_is_ninf dn (line_low dn l) = false /\ ~ int_ok dn (line_low dn l)) \/ (d_is_pinf dn (line_high dn l) = false /\ ~ int_ok dn (line_high dn l)) ->
  set_bound_variable dn (line_bound dn l) (vars_of N h) = P_abort.
Proof.
  intros Hin H. unfold set_bound_variable, get_variable, line_bound. cbn [bd_name bd_min bd_max vars_of v_names]. rewrite (name_index_in _ _ Hin). cbn [or_error pbind].
  unfold bound_min, bound_max, int_ok in *. destruct H as [[H1 H2]|[H1 H2]]; rewrite H1.
  - destruct (d_int dn (line_low dn l)); [exfalso; apply H2; discriminate|reflexivity].
  - destruct (d_int dn (line_high dn l)); [exfalso; apply H2; discriminate|]. destruct (d_is_ninf dn (line_low dn l)); [reflexivity|]. destruct (d_int dn (line_low dn l)); reflexivity.
Qed.
Lemma line_at_tk l toks i : line_at l toks -> tk toks i = tk (line_tokens l ++ skipn (length (line_tokens l)) toks) i.
Proof.
  intros H. unfold tk. destruct (Nat.lt_ge_cases i (length (line_tokens l))) as [L|L]; [rewrite app_nth1 by exact L; symmetry; apply H, L|].
  rewrite app_nth2 by exact L. rewrite nth_skipn. f_equal. lia.
Qed.
Lemma left_complete' lo op sp nm r : fine (signed_tokens lo) -> is_num dn (s_num lo) -> stops nm ->
  let toks := signed_tokens lo ++ op_tokens op sp ++ nm :: r in
  read_left_bound dn (tk toks 0) (tk toks 1) (tk toks 2) (tk toks 3) =
    P_ok (Some (line_number dn lo, length (signed_tokens lo ++ op_tokens op sp))).
Proof.
  intros H3 Hlo Hnm toks. pose proof (read_op_gen op sp (nm :: r) Hnm) as Hop. destruct (read_signed dn lo H3 Hlo) as (d & Ed & En).
  pose proof (signed_start_token dn lo [] H3 Hlo) as [Hst _]. unfold line_number. rewrite En.
  unfold read_left_bound. subst toks. destruct lo as [[[]|] n]; unfold signed_tokens in *; cbn [s_sign s_num sign_tokens app] in *.
  - change (tk (str "+" :: n :: op_tokens op sp ++ nm :: r) 0) with (str "+").
    change (tk (str "+" :: n :: op_tokens op sp ++ nm :: r) 1) with n.
    change (tk (str "+" :: n :: op_tokens op sp ++ nm :: r) 2) with (tk (op_tokens op sp ++ nm :: r) 0).
    change (tk (str "+" :: n :: op_tokens op sp ++ nm :: r) 3) with (tk (op_tokens op sp ++ nm :: r) 1).
    change (text_eqb (str "+") (str "+") || text_eqb (str "+") (str "-")) with true. cbv iota.
    rewrite Ed. cbn [pbind bind]. rewrite Hop. cbn [bind with_sign length]. rewrite Nat.add_comm. reflexivity.
  - change (tk (str "-" :: n :: op_tokens op sp ++ nm :: r) 0) with (str "-").
    change (tk (str "-" :: n :: op_tokens op sp ++ nm :: r) 1) with n.
    change (tk (str "-" :: n :: op_tokens op sp ++ nm :: r) 2) with (tk (op_tokens op sp ++ nm :: r) 0).
    change (tk (str "-" :: n :: op_tokens op sp ++ nm :: r) 3) with (tk (op_tokens op sp ++ nm :: r) 1).
    change (text_eqb (str "-") (str "+") || text_eqb (str "-") (str "-")) with true. cbv iota.
    rewrite Ed. cbn [pbind bind]. rewrite Hop. cbn [bind with_sign length]. rewrite Nat.add_comm. reflexivity.
  - change (tk (n :: op_tokens op sp ++ nm :: r) 0) with n.
    change (tk (n :: op_tokens op sp ++ nm :: r) 1) with (tk (op_tokens op sp ++ nm :: r) 0).
    change (tk (n :: op_tokens op sp ++ nm :: r) 2) with (tk (op_tokens op sp ++ nm :: r) 1).
    pose proof (plain_not_sign _ (num_is_plain dn _ (Forall_inv H3) Hlo)) as [Q1 Q2].
    rewrite (eqb_str n "+"), (eqb_str n "-") by assumption. cbn [orb].
    rewrite Ed. cbn [pbind bind]. rewrite Hop. cbn [bind with_sign length]. rewrite Nat.add_comm. reflexivity.
Qed.
Lemma read_line' N l t r : line_form dn N l -> (forall nm, l <> L_free nm) -> stops (line_name l) -> (match l with L_left _ _ _ _ _ => True | _ => good_name (line_name l) end) -> fine (line_tokens l) -> (forall i, i < 10 -> t i = tk (line_tokens l ++ r) i) ->
  read_bound dn t = P_ok (Some (line_bound dn l)).
Proof.
  intros (Hin & Hc & Hl) Hfree Hp Hgood H3 Ht.
  assert (Hrd : read_name (line_name l) = Some (line_name l)) by (unfold read_name; change is_char_name with char_name; rewrite Hc; reflexivity).
  assert (Left : forall lo op sp T, line_tokens l ++ r = signed_tokens lo ++ op_tokens op sp ++ line_name l :: T -> fine (signed_tokens lo) -> is_num dn (s_num lo) -> signed_start lo ->
    let n := length (signed_tokens lo ++ op_tokens op sp) in
    n <= 4 /\ starts_with_number (t 0) = true /\ read_left_bound dn (t 0) (t 1) (t 2) (t 3) = P_ok (Some (line_number dn lo, n)) /\ t n = line_name l /\ forall j, n + S j < 10 -> t (n + S j) = tk T j).
  { intros lo op sp T ET F3 Hlo Hs n. rewrite ET in Ht.
    assert (Hlen : n <= 4) by (unfold n; rewrite app_length; destruct lo as [[[]|] ?], op, sp; cbn; lia). split; [exact Hlen|].
    assert (Htn : forall j, n + j < 10 -> t (n + j) = tk (line_name l :: T) j) by (intros j Hj; rewrite Ht by exact Hj; rewrite app_assoc; apply tk_app_plus).
    split. { rewrite Ht by lia. destruct lo as [[[]|] m]; [reflexivity|reflexivity|]. apply Hs. reflexivity. }
    split. { rewrite !Ht by lia. exact (left_complete' lo op sp (line_name l) T F3 Hlo Hp). }
    split. { rewrite <- (Nat.add_0_r n) at 1. rewrite Htn by lia. reflexivity. }
    intros j Hj. rewrite Htn by exact Hj. reflexivity. }
  unfold line_bound. destruct l as [nm|nm op sp v|v op sp nm w|v1 op1 sp1 nm op2 sp2 v2]; cbn [line_tokens line_name line_low line_high] in *.
  - destruct (Hfree nm eq_refl).
  - destruct Hl as [Hl Hv]. destruct (is_name_plain _ (proj1 Hgood)) as [_ Hnl]. unfold read_bound. rewrite !Ht by lia. cbn [app]. rewrite <- app_assoc. set (T := op_tokens op sp ++ signed_tokens v ++ r).
    change (tk (nm :: T) 0) with nm. change (tk (nm :: T) 1) with (tk T 0). change (tk (nm :: T) 2) with (tk T 1).
    change (tk (nm :: T) 3) with (tk T 2). change (tk (nm :: T) 4) with (tk T 3).
    change number_like with starts_with_number in Hl. change name_like with starts_with_name in Hnl. rewrite Hl, Hnl, Hrd. unfold T at 1. rewrite op_start. unfold T.
    rewrite (right_complete dn v op sp r); [reflexivity| |exact Hv]. exact (fine_app dn _ _ (Forall_inv_tail H3)).
  - destruct Hl as (Hs & Hv & Hw). destruct (Left v op sp (w :: r)) as (L1 & L2 & L3 & L4 & L5); [rewrite <- !app_assoc; reflexivity|exact (fine_left dn _ _ H3)|exact Hv|exact Hs|].
    unfold read_bound. rewrite L2, L3. cbn [pbind]. rewrite L4, Hrd. set (n := length (signed_tokens v ++ op_tokens op sp)) in *.
    replace (S n) with (n + 1) by lia. rewrite L5 by lia. change (tk (w :: r) 0) with w. change operator_like with starts_with_operator in Hw. rewrite Hw. cbn [negb].
    f_equal. f_equal. f_equal. unfold n. repeat (rewrite app_length; cbn [length]). lia.
  - destruct Hl as (Hs & Hv1 & Hv2 & Hgt). set (T := op_tokens op2 sp2 ++ signed_tokens v2 ++ r).
    destruct (Left v1 op1 sp1 T) as (L1 & L2 & L3 & L4 & L5); [unfold T; repeat (rewrite <- app_assoc || cbn [app]); reflexivity|exact (fine_left dn _ _ H3)|exact Hv1|exact Hs|].
    unfold read_bound. rewrite L2, L3. cbn [pbind]. rewrite L4, Hrd. set (n := length (signed_tokens v1 ++ op_tokens op1 sp1)) in *.
    replace (S n) with (n + 1) by lia. replace (n + 1 + 1) with (n + 2) by lia. replace (n + 1 + 2) with (n + 3) by lia. replace (n + 1 + 3) with (n + 4) by lia.
    rewrite !L5 by lia. unfold T at 1. rewrite op_start. cbn [negb]. unfold T.
    rewrite (right_complete dn v2 op2 sp2 r); [|exact (fine_app dn _ _ (Forall_inv_tail (fine_app dn _ _ (fine_app dn _ _ H3))))|exact Hv2]. cbn [pbind]. rewrite Hgt.
    f_equal. f_equal. f_equal. unfold n. repeat (rewrite app_length; cbn [length]). lia.
Qed.

Hypothesis Hscan : d_scan dn [] = None.
Lemma usual_nil : usual_word dn [].
Proof. split; [discriminate|]. congruence. Qed.
Lemma line_fine l toks : line_at l toks -> fine toks -> fine (line_tokens l).
Proof.
  intros H F. rewrite Forall_forall in *. intros x Hx. apply (In_nth _ _ []) in Hx. destruct Hx as (i & Hi & <-). refine (eq_ind_r (usual_word dn) _ (H i Hi)).
  destruct (Nat.lt_ge_cases i (length toks)) as [L|L]; [apply F, nth_In, L|rewrite nth_overflow by exact L; exact usual_nil].
Qed.
Lemma tk_cut toks i : Forall (fun t : text => t <> []) toks -> tk toks i = [] -> tk toks (S i) = [].
Proof.
  intros F H. unfold tk in *. destruct (Nat.lt_ge_cases i (length toks)) as [L|L]; [|apply nth_overflow; lia]. rewrite Forall_forall in F. destruct (F (nth i toks []) (nth_In _ _ L) H).
Qed.
Lemma line_named N l toks : (forall nm, In nm N -> nm <> [] -> good_name nm) -> line_form dn N l -> (forall nm, l <> L_free nm) -> line_at l toks -> toks <> [] -> Forall (fun t => t <> []) toks ->
  stops (line_name l) /\ match l with L_left _ _ _ _ _ => True | _ => good_name (line_name l) end.
Proof.
  intros HG (Hin & _ & Hl) Hfree Hat Hne F. destruct (list_eq_dec ascii_dec (line_name l) []) as [E|E].
  - split; [rewrite E; repeat split; discriminate|]. destruct l as [nm|nm op sp v|v op sp nm w|v1 op1 sp1 nm op2 sp2 v2]; cbn [line_name] in E; subst nm; [destruct (Hfree [] eq_refl)| |exact I|].
    + exfalso. specialize (Hat 0 ltac:(cbn; lia)). cbn in Hat. destruct toks as [|x z]; [congruence|]. inversion F; subst. cbn in Hat. congruence.
    + exfalso. set (n := length (signed_tokens v1 ++ op_tokens op1 sp1)).
      assert (Q : forall j, nth (n + j) (line_tokens (L_both v1 op1 sp1 [] op2 sp2 v2)) [] = nth j ([] :: op_tokens op2 sp2 ++ signed_tokens v2) []).
      { intros j. cbn [line_tokens]. rewrite app_assoc. unfold n. rewrite app_nth2 by lia. f_equal. lia. }
      assert (Ln : n + 1 < length (line_tokens (L_both v1 op1 sp1 [] op2 sp2 v2))).
      { cbn [line_tokens]. rewrite app_assoc, app_length. fold n. cbn [length]. rewrite app_length. pose proof (op_len op2 sp2). lia. }
      pose proof (Hat (n + 0) ltac:(lia)) as H0. pose proof (Hat (n + 1) Ln) as H1. rewrite Q in H0, H1. cbn [nth] in H0. symmetry in H0. pose proof (tk_cut toks (n + 0) F H0) as H2. unfold tk in H2.
      replace (S (n + 0)) with (n + 1) in H2 by lia. rewrite H2 in H1. destruct op2, sp2; discriminate H1.
  - pose proof (HG _ Hin E) as G. split; [apply plain_stops; apply is_name_plain, G|]. destruct l; try exact I; exact G.
Qed.
Lemma line_start N l toks : line_form dn N l -> (match l with L_left _ _ _ _ _ => True | _ => good_name (line_name l) end) -> line_at l toks -> fine (line_tokens l) -> sum_token (tk toks 0).
Proof.
  intros (_ & _ & Hl) Hg Hat F. rewrite (line_at_tk l toks 0 Hat). set (r := skipn _ _). clearbody r.
  destruct l as [nm|nm op sp v|v op sp nm w|v1 op1 sp1 nm op2 sp2 v2]; cbn [line_tokens line_name] in *.
  - left. apply is_name_plain, Hg.
  - left. apply is_name_plain, Hg.
  - rewrite <- app_assoc. apply (signed_start_token dn); [exact (fine_left dn _ _ F)|apply Hl].
  - rewrite <- app_assoc. apply (signed_start_token dn); [exact (fine_left dn _ _ F)|apply Hl].
Qed.
Lemma bounds_stops N l : NoDup N -> (forall nm, In nm N -> nm <> [] -> good_name nm) -> line_form dn N l ->
  (d_is_ninf dn (line_low dn l) = false /\ ~ int_ok dn (line_low dn l)) \/ (d_is_pinf dn (line_high dn l) = false /\ ~ int_ok dn (line_high dn l)) ->
  forall ls fuel b h rest, Forall (line_ok dn N) ls -> rest <> [] -> keyword (word rest) = false -> line_at l rest ->
  repr b (flat_map line_tokens ls ++ rest) -> fine (flat_map line_tokens ls ++ rest) -> length (flat_map line_tokens ls ++ rest) <= fuel -> bounds_loop dn fuel b (vars_of N h) = P_abort.
Proof.
  intros Nd HG Hl Hz ls fuel b h rest Hls Hne Hk Hat HR H3 Hf.
  assert (Hfree : forall nm, l <> L_free nm) by (intros nm ->; cbn [line_low line_high] in Hz; rewrite Hninf, Hpinf in Hz; destruct Hz as [[Hz _]|[Hz _]]; discriminate Hz).
  assert (Fr : fine rest) by exact (fine_app dn _ _ H3). assert (Er : Forall (fun t => t <> []) rest) by (pose proof (rp_toks _ _ HR) as Q; apply Forall_app in Q; apply Q).
  destruct (line_named N l rest HG Hl Hfree Hat Hne Er) as [Hst Hgd]. pose proof (line_fine l rest Hat Fr) as Fl. pose proof (line_start N l rest Hl Hgd Hat Fl) as Sr.
  assert (Hgs : Forall (fun x => good_name (line_name x)) ls).
  { rewrite Forall_forall in Hls |- *. intros x Hx. apply HG; [apply (Hls x Hx)|]. pose proof (rp_toks _ _ HR) as Q. apply Forall_app in Q. destruct Q as [Q _]. rewrite Forall_forall in Q. apply Q. apply in_flat_map. exists x. split; [exact Hx|apply line_name_token]. }
  revert fuel b h HR H3 Hf. induction ls as [|l1 ls IH]; intros fuel b h HR H3 Hf; cbn [flat_map app] in *.
  - destruct fuel as [|fuel]; [destruct rest; [congruence|cbn in Hf; lia]|]. cbn [bounds_loop]. rewrite (repr_first _ _ HR). change (is_keyword (tk rest 0)) with (keyword (word rest)). rewrite Hk.
    rewrite (read_line' N l (token_at b) (skipn (length (line_tokens l)) rest) Hl Hfree Hst Hgd Fl); [|intros i Hi; rewrite <- line_at_tk by exact Hat; apply token_at_ok; assumption]. cbn [pbind or_error].
    rewrite (set_line_stops N h l (proj1 Hl) Hz). reflexivity.
  - inversion Hls as [|? ? O1 O2]; subst. inversion Hgs as [|? ? G1 G2]; subst. rewrite <- app_assoc in *. rewrite app_length in Hf. pose proof (line_len l1) as L1. destruct fuel as [|fuel]; [lia|].
    destruct (line_first dn N l1 (flat_map line_tokens ls ++ rest) O1 G1 (fine_left dn _ _ H3)) as [_ K]. cbn [bounds_loop]. rewrite (repr_first _ _ HR), K.
    assert (No : starts_with_operator (tk (flat_map line_tokens ls ++ rest) 0) = false).
    { destruct ls as [|l2 ls]; [apply (sum_token_facts _ Sr)|]. cbn [flat_map]. rewrite <- app_assoc. inversion O2 as [|? ? O3 _]; subst. inversion G2 as [|? ? G3 _]; subst. cbn [flat_map] in H3. rewrite <- app_assoc in H3.
      destruct (line_first dn N l2 (flat_map line_tokens ls ++ rest) O3 G3 (fine_left dn _ _ (fine_app dn _ _ H3))) as [S2 _]. apply (sum_token_facts _ S2). }
    rewrite (read_line dn N l1 (token_at b) (flat_map line_tokens ls ++ rest) O1 G1 (fine_left dn _ _ H3)); [|intros i Hi; apply token_at_ok; assumption|exact No]. cbn [pbind or_error].
    rewrite (set_line_complete dn N h l1 Nd O1). cbn [pbind]. change (bd_read (line_bound dn l1)) with (length (line_tokens l1)).
    destruct (pop_app _ _ _ HR L1) as [b1 [E1 R1]]. rewrite E1. cbn [or_abort pbind]. apply (IH O2 G2 fuel b1 _ R1 (fine_app dn _ _ H3)). lia.
Qed.

(** ** The file *)
Definition after_general (b : sbuf) (p : raw_problem) : pres raw_problem :=
  match read_end (first b) (second b) with
  | O => P_error bad_end
  | n => let? b := or_abort (pop n b) in match first b with [] => P_ok p | _ => P_error bad_end_of_file end
  end.
Definition after_binary fuel b (p : raw_problem) := let? (b, p) := section_ (read_general (first b) (second b)) (names_loop set_integer_variable fuel) b p in after_general b p.
Definition after_bounds fuel b (p : raw_problem) := let? (b, p) := section_ (read_binary (first b) (second b)) (names_loop set_boolean_variable fuel) b p in after_binary fuel b p.
Definition after_rows fuel b (p : raw_problem) := let? (b, p) := section_ (read_bounds (first b) (second b)) (bounds_loop dn fuel) b p in after_bounds fuel b p.
Definition after_objective fuel b (p : raw_problem) :=
  let? (b, p) := (match read_subject_to (first b) (second b) (third b) with
     | O => P_ok (b, p)
     | n => let? b := or_abort (pop n b) in constraints_loop dn fuel 0 b p
     end) in after_rows fuel b p.
Definition suffix (toks rest : list text) : Prop := exists front, toks = front ++ rest.
Lemma suffix_trans a b c : suffix a b -> suffix b c -> suffix a c.
Proof. intros [x ->] [y ->]. exists (x ++ y). apply app_assoc. Qed.
Lemma suffix_fine a b : suffix a b -> fine a -> fine b.
Proof. intros [x ->] H. exact (fine_app dn _ _ H). Qed.
Lemma suffix_len a b : suffix a b -> length b <= length a.
Proof. intros [x ->]. rewrite app_length. lia. Qed.
Lemma opening_run b toks t1 w ty lb fuel : toks = w :: label_tokens lb ++ t1 -> direction w = Some ty -> opt (fun l => keyword l = false) lb ->
  (lb = None -> keyword (word t1) = true \/ nth 1 t1 [] <> str ":") -> repr b toks ->
  exists b2, repr b2 t1 /\ parse dn fuel b (empty_problem dn) = let? (b, p) := objective_loop dn fuel b2 (set_type ty (empty_problem dn)) in after_objective fuel b p.
Proof.
  intros -> Hty Hlb Hn HR. unfold parse. rewrite (repr_first _ _ HR). change (tk (w :: label_tokens lb ++ t1) 0) with w. change direction with read_objective_type in Hty. rewrite Hty. cbn [or_error pbind].
  destruct (pop_front_ok _ _ HR) as [b1 [E1 R1]]. cbn [tl] in R1. rewrite E1. cbn [or_abort pbind].
  assert (L : exists b2, pop_read (try_read_objective_label (first b1) (second b1)) b1 = P_ok b2 /\ repr b2 t1).
  { rewrite (repr_first _ _ R1), (repr_second _ _ R1). unfold try_read_objective_label. destruct lb as [x|]; cbn [label_tokens app opt] in *; unfold tk in *; cbn [nth].
    - change keyword with is_keyword in Hlb. rewrite Hlb. change (are_equal (str ":") (str ":")) with true. cbv iota.
      destruct (pop_app [x; str ":"] t1 b1 R1) as [b2 [E2 R2]]; [cbn; lia|]. exists b2. split; [|exact R2]. unfold pop_read. cbn [length] in E2. rewrite E2. reflexivity.
    - exists b1. split; [|exact R1]. specialize (Hn eq_refl). change (is_keyword (nth 0 t1 [])) with (keyword (word t1)). destruct (keyword (word t1)); [reflexivity|]. destruct Hn as [Hn|Hn]; [discriminate|].
      destruct (are_equal (nth 1 t1 []) (str ":")) eqn:C; [|reflexivity]. apply colon_text in C. congruence. }
  destruct L as (b2 & E2 & R2). rewrite E2. cbn [pbind]. exists b2. split; [exact R2|]. reflexivity.
Qed.
Lemma not_colon_text t : t <> str ":" -> not_colon t.
Proof. intros H. unfold not_colon. destruct (are_equal t (str ":")) eqn:E; [|reflexivity]. apply colon_text in E. congruence. Qed.
Lemma constraints_run b toks l rest fuel : to_constraints dn toks l rest -> repr b toks -> fine toks -> ~ In (str "[") toks -> length toks < fuel ->
  exists b3 (p3 : raw_problem), repr b3 rest /\ suffix toks rest /\ keyword (word rest) = true /\ items_ok dn l rest /\ rw_vars p3 = seen_vars (map t_var (item_vars l)) /\
    parse dn fuel b (empty_problem dn) = after_objective fuel b3 p3.
Proof.
  intros (t1 & (w & ty & lb & Hty & Hlb & Hn & ->) & -> & Hl & Hk) HR H3 Hb Hf. pose proof (Forall_inv_tail H3) as F1. pose proof (fine_app dn _ _ F1) as F2.
  assert (Hb1 : ~ In (str "[") (flat_map item_tokens l ++ rest)) by (intros K; apply Hb; right; apply in_or_app; right; exact K).
  destruct (opening_run b _ (flat_map item_tokens l ++ rest) w ty lb fuel eq_refl Hty Hlb Hn HR) as (b2 & R2 & E2).
  destruct (objective_loop_complete dn l fuel b2 (set_type ty (empty_problem dn)) rest Hl R2 F2 Hb1 Hk) as [b3 [E3 R3]]; [cbn [length] in Hf; rewrite !app_length in Hf; pose proof (items_len dn _ _ Hl); lia|].
  exists b3, (fold_left (append_item dn) l (set_type ty (empty_problem dn))). split; [exact R3|]. split; [exists (w :: label_tokens lb ++ flat_map item_tokens l); cbn [app]; rewrite <- app_assoc; reflexivity|].
  split; [exact Hk|]. split; [exact Hl|]. split; [|rewrite E2, E3; reflexivity].
  rewrite (objective_closed dn l [] _ (firsts (map t_var (item_vars ([] ++ l)) ++ [])) []); [reflexivity|eapply items_named; exact Hl|reflexivity|reflexivity|reflexivity].
Qed.
Lemma subject_run' h r b : subject_ok h -> (h_colon h = false -> not_colon (tk r 0)) -> repr b (header_tokens h ++ r) ->
  is_keyword (tk (header_tokens h ++ r) 0) = true /\
  exists b', repr b' r /\ read_subject_to (first b) (second b) (third b) = length (header_tokens h) /\
    or_abort (pop (length (header_tokens h)) b) = P_ok b' /\ 1 <= length (header_tokens h).
Proof.
  intros Hok Hr HR. unfold first, second, third. rewrite !(token_at_ok _ _ _ HR) by lia.
  assert (Hlen : 1 <= length (header_tokens h) < 10).
  { unfold header_tokens. destruct Hok as [[w [-> _]]|[w1 [w2 [-> _]]]]; destruct (h_colon h); cbn; lia. }
  destruct (pop_app _ _ _ HR Hlen) as [b1 [E1 R1]]. rewrite E1. cbn [or_abort].
  assert (Hk : is_keyword (tk (header_tokens h ++ r) 0) = true /\
     read_subject_to (nth 0 (header_tokens h ++ r) []) (nth 1 (header_tokens h ++ r) []) (nth 2 (header_tokens h ++ r) []) = length (header_tokens h)).
  2: { destruct Hk as [Hk1 Hk2]. split; [ exact Hk1 |]. exists b1. split; [ exact R1 |]. split; [ exact Hk2 |]. split; [ reflexivity | apply Hlen ]. }
  unfold header_tokens. destruct Hok as [[w [-> Ha]]|[w1 [w2 [-> Ha]]]]; words.
  - split.
    + destruct (h_colon h); cbn [app tk nth]; (eapply any_keyword; [ exact Ha | apply all_kw; reflexivity ]).
    + unfold read_subject_to.
      assert (Ha' : any_of w [str "st"; str "st."; str "s.t"; str "s.t."] = true).
      { unfold any_of in *. cbn [existsb] in *. destruct (are_equal w (str "st")), (are_equal w (str "st.")), (are_equal w (str "s.t")), (are_equal w (str "s.t.")); auto. }
      destruct (h_colon h); [clear Hr|specialize (Hr eq_refl)]; cbn [app tk nth length]; rewrite Ha'; unfold colon; [ reflexivity |].
      cbn [app]. unfold not_colon, tk in Hr. rewrite Hr. reflexivity.
  - assert (Hno : forall kw, (kw = str "subject" \/ kw = str "sush") -> are_equal w1 kw = true -> any_of w1 [str "st"; str "st."; str "s.t"; str "s.t."] = false).
    { intros kw Hkw H. apply kw_not_other with (kws := [kw]); [ unfold any_of; cbn [existsb]; rewrite H; reflexivity |].
      destruct Hkw as [->| ->]; apply disjoint_kw; reflexivity. }
    destruct Ha as [[H1 H2]|[H1 H2]].
    + split; [ destruct (h_colon h); cbn [app tk nth]; (eapply (any_keyword w1 [str "subject"]); [ unfold any_of; cbn [existsb]; rewrite H1; reflexivity | apply all_kw; reflexivity ]) |].
      unfold read_subject_to. destruct (h_colon h); [clear Hr|specialize (Hr eq_refl)]; cbn [app tk nth length]; rewrite (Hno _ (or_introl eq_refl) H1), H1, H2; cbn [andb]; unfold colon; [ reflexivity |].
      cbn [app]. unfold not_colon, tk in Hr. rewrite Hr. reflexivity.
    + assert (Hns : are_equal w1 (str "subject") = false).
      { destruct (are_equal w1 (str "subject")) eqn:E; [ | reflexivity ]. apply are_equal_iff in E, H1. rewrite E in H1. discriminate. }
      split; [ destruct (h_colon h); cbn [app tk nth]; (eapply (any_keyword w1 [str "sush"]); [ unfold any_of; cbn [existsb]; rewrite H1; reflexivity | apply all_kw; reflexivity ]) |].
      unfold read_subject_to. destruct (h_colon h); [clear Hr|specialize (Hr eq_refl)]; cbn [app tk nth length]; rewrite (Hno _ (or_intror eq_refl) H1), Hns, H1, H2; cbn [andb]; unfold colon; [ reflexivity |].
      cbn [app]. unfold not_colon, tk in Hr. rewrite Hr. reflexivity.
Qed.
Lemma rows_run b toks l h more fuel : to_constraints dn toks l (header_tokens h ++ more) -> subject_ok h -> whole_header h more -> repr b toks -> fine toks -> ~ In (str "[") toks -> length toks < fuel ->
  exists b4 (p3 : raw_problem), repr b4 more /\ suffix toks more /\ items_ok dn l (header_tokens h ++ more) /\ rw_vars p3 = seen_vars (map t_var (item_vars l)) /\
    parse dn fuel b (empty_problem dn) = let? (b, p) := constraints_loop dn fuel 0 b4 p3 in after_rows fuel b p.
Proof.
  intros Hc Hh Hw HR H3 Hb Hf. destruct (constraints_run b toks l _ fuel Hc HR H3 Hb Hf) as (b3 & p3 & R3 & S3 & K3 & Hl & V3 & E3).
  destruct (subject_run' h more b3 Hh (fun E => not_colon_text _ (Hw E)) R3) as [_ [b4 [R4 [Er [E4 Hlen]]]]]. exists b4, p3. split; [exact R4|].
  split; [apply (suffix_trans _ _ _ S3); exists (header_tokens h); reflexivity|]. split; [exact Hl|]. split; [exact V3|]. rewrite E3. unfold after_objective. rewrite Er.
  destruct (length (header_tokens h)) as [|ns] eqn:Ens; [lia|]. rewrite E4. reflexivity.
Qed.
Lemma bounds_run b toks N rest fuel : to_bounds dn toks N rest -> repr b toks -> fine toks -> ~ In (str "[") toks -> length toks < fuel ->
  exists b4 (p4 : raw_problem), repr b4 rest /\ suffix toks rest /\ NoDup N /\ (forall nm, In nm N -> nm <> [] -> good_name nm) /\ rw_vars p4 = vars_of N (fun _ => fresh) /\
    parse dn fuel b (empty_problem dn) = after_rows fuel b4 p4.
Proof.
  intros (l & s & t2 & Hc & Hs & ->) HR H3 Hb Hf. assert (Nd : NoDup (names_in l s)) by apply firsts_NoDup.
  destruct s as [[h ks]|].
  - destruct Hs as (Hsub & more & -> & Wh & T' & Hrows & Kr). destruct (rows_run b toks l h more fuel Hc Hsub Wh HR H3 Hb Hf) as (b4 & p3 & R4 & S4 & Hl & V3 & E3).
    pose proof (suffix_fine _ _ S4 H3) as F4. pose proof (suffix_len _ _ S4) as L4. rewrite T' in R4, F4.
    destruct (rows_complete dn ks fuel 0 b4 p3 rest Hrows R4 F4 Kr) as [b5 [E5 R5]]; [rewrite T', app_length in L4; lia|].
    exists b5, (snd (fold_left (append_row dn) ks (0, p3))). split; [exact R5|]. split; [apply (suffix_trans _ _ _ S4); exists (flat_map row_tokens ks); exact T'|].
    split; [exact Nd|]. split; [apply (names_good_in dn l (Some (h, ks)) _ Hl); exists rest; exact Hrows|].
    split; [rewrite (rows_closed dn ks 0 p3 _ (names_in l (Some (h, ks))) [] V3); [reflexivity|]; unfold names_in; rewrite app_nil_r; reflexivity|].
    rewrite E3, E5. reflexivity.
  - destruct Hs as [-> Hs]. destruct (constraints_run b toks l rest fuel Hc HR H3 Hb Hf) as (b3 & p3 & R3 & S3 & K3 & Hl & V3 & E3).
    exists b3, p3. split; [exact R3|]. split; [exact S3|]. split; [exact Nd|]. split; [apply (names_good_in dn l None rest Hl I)|].
    split; [rewrite V3, seen_vars_of; unfold names_in; cbn [section_list flat_map]; rewrite app_nil_r; reflexivity|].
    rewrite E3. unfold after_objective. rewrite (repr_first _ _ R3), (repr_second _ _ R3), (repr_third _ _ R3), (proj2 (no_subject rest K3) Hs). reflexivity.
Qed.
Lemma section_start kws toks more b (p : raw_problem) loop : announced kws toks more -> repr b toks ->
  exists b1, repr b1 more /\ suffix toks more /\ section_ (read_section kws (first b) (second b)) loop b p = let? (b, vs) := loop b1 (rw_vars p) in P_ok (b, with_vars p vs).
Proof.
  intros (h & w & Hw & Ha & -> & Wh) HR.
  assert (E : read_section kws (first b) (second b) = length (header_tokens h)).
  { rewrite (repr_first _ _ HR), (repr_second _ _ HR). unfold header_tokens, read_section, colon, tk. rewrite Hw. change is_one_of with any_of in Ha. unfold whole_header in Wh. destruct (h_colon h); cbn [app nth length]; rewrite Ha; [reflexivity|].
    pose proof (not_colon_text _ (Wh eq_refl)) as Q. unfold not_colon, word in Q. rewrite Q. reflexivity. }
  rewrite E. destruct (pop_app _ _ _ HR (header_len h w Hw)) as [b1 [E1 R1]]. exists b1. split; [exact R1|]. split; [exists (header_tokens h); reflexivity|].
  unfold section_. destruct (length (header_tokens h)) eqn:Q; [pose proof (header_len h w Hw); lia|]. rewrite E1. reflexivity.
Qed.
Lemma section_none kws toks b (p : raw_problem) loop : is_one_of (word toks) kws = false -> repr b toks -> section_ (read_section kws (first b) (second b)) loop b p = P_ok (b, p).
Proof. intros H HR. rewrite (repr_first _ _ HR). unfold read_section. change (any_of (tk toks 0) kws) with (is_one_of (word toks) kws). rewrite H. reflexivity. Qed.
Lemma suffix_word a b : suffix a b -> Forall (fun t : text => t <> []) a -> Forall (fun t : text => t <> []) b.
Proof. intros [x ->] H. apply Forall_app in H. apply H. Qed.
Lemma lines_good N ls rest : (forall nm, In nm N -> nm <> [] -> good_name nm) -> Forall (line_ok dn N) ls -> Forall (fun t : text => t <> []) (flat_map line_tokens ls ++ rest) -> Forall (fun x => good_name (line_name x)) ls.
Proof.
  intros HG Hls Em. apply Forall_app in Em. destruct Em as [Em _]. rewrite Forall_forall in *. intros x Hx. apply HG; [apply (Hls x Hx)|]. apply Em. apply in_flat_map. exists x. split; [exact Hx|apply line_name_token].
Qed.
Lemma binary_run b toks N rest fuel : to_binary dn toks N rest -> repr b toks -> fine toks -> ~ In (str "[") toks -> length toks < fuel ->
  exists b5 (p5 : raw_problem) h, repr b5 rest /\ suffix toks rest /\ NoDup N /\ (forall nm, In nm N -> nm <> [] -> good_name nm) /\ rw_vars p5 = vars_of N h /\
    parse dn fuel b (empty_problem dn) = after_bounds fuel b5 p5.
Proof.
  intros (s & t3 & Hc & Hs) HR H3 Hb Hf. destruct (bounds_run b toks N t3 fuel Hc HR H3 Hb Hf) as (b4 & p4 & R4 & S4 & Nd & HG & V4 & E4). unfold after_rows in E4.
  destruct s as [ls|].
  - destruct Hs as (more & Ha & T & Hls & Kr). destruct (section_start kw_bounds t3 more b4 p4 (bounds_loop dn fuel) Ha R4) as (b5 & R5 & Sm & E5). rewrite V4 in E5.
    pose proof (suffix_trans _ _ _ S4 Sm) as Sa. pose proof (suffix_fine _ _ Sa H3) as Fm. pose proof (suffix_len _ _ Sa) as Lm. pose proof (rp_toks _ _ R5) as Em. rewrite T in Fm, Em, R5, Lm.
    destruct (bounds_complete dn ls fuel b5 (fun _ => fresh) N rest Nd Hls (lines_good N ls rest HG Hls Em) R5 Fm Kr) as [b6 [E6 R6]].
    { rewrite app_length in Lm. pose proof (flat_len line_tokens ls (fun b => proj1 (line_len b))). lia. }
    rewrite E6 in E5. cbn [pbind] in E5. eexists b6, _, _. split; [exact R6|]. split; [apply (suffix_trans _ _ _ Sa); exists (flat_map line_tokens ls); exact T|].
    split; [exact Nd|]. split; [exact HG|]. split; [|rewrite E4; unfold read_bounds; fold kw_bounds; rewrite E5; reflexivity]. reflexivity.
  - destruct Hs as [-> Hs]. eexists b4, p4, _. split; [exact R4|]. split; [exact S4|]. split; [exact Nd|]. split; [exact HG|]. split; [exact V4|]. rewrite E4. unfold read_bounds. fold in_bounds.
    rewrite (section_none _ rest _ _ _ Hs R4). reflexivity.
Qed.
Lemma flat_one (l : list text) : flat_map (fun nm => [nm]) l = l.
Proof. induction l as [|x l IH]; [reflexivity|]. cbn. rewrite IH. reflexivity. Qed.
Lemma names_section kws set f N toks rest s b (p : raw_problem) h fuel : list_section kws (fun nm => [nm]) (fun nm => In nm N) s toks rest ->
  (forall nm h, In nm N -> set nm (vars_of N h) = P_ok (vars_of N (fun x => if text_eqb x nm then f (h x) else h x))) -> (forall nm, In nm N -> nm <> [] -> good_name nm) ->
  repr b toks -> rw_vars p = vars_of N h -> length toks <= fuel ->
  exists b1 (p1 : raw_problem) h1, section_ (read_section kws (first b) (second b)) (names_loop set fuel) b p = P_ok (b1, p1) /\ repr b1 rest /\ suffix toks rest /\ rw_vars p1 = vars_of N h1.
Proof.
  intros Hs Hset HG HR V Hf. destruct s as [l|].
  - destruct Hs as (more & Ha & T & Hl & Kr). destruct (section_start kws toks more b p (names_loop set fuel) Ha HR) as (b1 & R1 & Sm & E1). rewrite V in E1.
    pose proof (rp_toks _ _ R1) as Em. pose proof (suffix_len _ _ Sm) as Lm. rewrite flat_one in T. rewrite T in Em, Lm. apply Forall_app in Em. destruct Em as [Em _].
    assert (Gl : Forall good_name l) by (rewrite Forall_forall in *; intros x Hx; apply HG; [exact (Hl x Hx)|exact (Em x Hx)]). rewrite T, <- (flat_one l) in R1.
    destruct (names_complete set f N Hset l fuel b1 h rest Hl Gl R1 Kr) as [b2 [E2 R2]]; [rewrite app_length in Lm; lia|].
    rewrite E2 in E1. eexists b2, _, _. split; [exact E1|]. split; [exact R2|]. split; [apply (suffix_trans _ _ _ Sm); exists l; exact T|]. reflexivity.
  - destruct Hs as [-> Hs]. exists b, p, h. split; [exact (section_none _ _ _ _ _ Hs HR)|]. split; [exact HR|]. split; [exists []; reflexivity|exact V].
Qed.
Lemma general_run b toks N rest fuel : to_general dn toks N rest -> repr b toks -> fine toks -> ~ In (str "[") toks -> length toks < fuel ->
  exists b6 (p6 : raw_problem) h, repr b6 rest /\ suffix toks rest /\ NoDup N /\ (forall nm, In nm N -> nm <> [] -> good_name nm) /\ rw_vars p6 = vars_of N h /\
    parse dn fuel b (empty_problem dn) = after_binary fuel b6 p6.
Proof.
  intros (s & t4 & Hc & Hs) HR H3 Hb Hf. destruct (binary_run b toks N t4 fuel Hc HR H3 Hb Hf) as (b5 & p5 & h5 & R5 & S5 & Nd & HG & V5 & E5). pose proof (suffix_len _ _ S5) as L5. unfold after_bounds in E5.
  destruct (names_section in_binary set_boolean_variable (fun _ => mk_variable_value 0 1 vt_binary) N t4 rest s b5 p5 h5 fuel Hs (fun nm h0 Hin => set_boolean_complete N nm h0 Nd Hin) HG R5 V5) as (b6 & p6 & h6 & E6 & R6 & S6 & V6); [lia|].
  exists b6, p6, h6. split; [exact R6|]. split; [exact (suffix_trans _ _ _ S5 S6)|]. split; [exact Nd|]. split; [exact HG|]. split; [exact V6|]. rewrite E5. unfold read_binary. fold in_binary. rewrite E6. reflexivity.
Qed.
Lemma end_run b toks N rest fuel : to_end dn toks N rest -> repr b toks -> fine toks -> ~ In (str "[") toks -> length toks < fuel ->
  exists b7 (p7 : raw_problem), repr b7 rest /\ parse dn fuel b (empty_problem dn) = after_general b7 p7.
Proof.
  intros (s & t5 & Hc & Hs) HR H3 Hb Hf. destruct (general_run b toks N t5 fuel Hc HR H3 Hb Hf) as (b6 & p6 & h6 & R6 & S6 & Nd & HG & V6 & E6). pose proof (suffix_len _ _ S6) as L6. unfold after_binary in E6.
  destruct (names_section in_general set_integer_variable (fun v => mk_variable_value (v_min v) (v_max v) vt_general) N t5 rest s b6 p6 h6 fuel Hs (fun nm h0 Hin => set_integer_complete N nm h0 Nd Hin) HG R6 V6) as (b7 & p7 & h7 & E7 & R7 & S7 & V7); [lia|].
  exists b7, p7. split; [exact R7|]. rewrite E6. unfold read_general. fold in_general. rewrite E7. reflexivity.
Qed.
Lemma runs_names kws N toks more b (p : raw_problem) fuel set f h : announced kws toks more -> Forall (fun nm => In nm N /\ keyword nm = false) more -> In [] N ->
  (forall nm h, In nm N -> set nm (vars_of N h) = P_ok (vars_of N (fun x => if text_eqb x nm then f (h x) else h x))) ->
  rw_vars p = vars_of N h -> repr b toks -> section_ (read_section kws (first b) (second b)) (names_loop set fuel) b p = P_running.
Proof.
  intros Ha Hm H0 Hset V HR. destruct (section_start kws toks more b p (names_loop set fuel) Ha HR) as (b1 & R1 & _ & E1). rewrite E1, V, (names_run set f N Hset H0 fuel b1 h more R1 Hm). reflexivity.
Qed.
Theorem parse_stops b toks fuel : program_stops dn toks -> repr b toks -> fine toks -> ~ In (str "[") toks -> length toks < fuel -> parse dn fuel b (empty_problem dn) = P_abort.
Proof.
  intros H HR H3 Hb Hf. destruct H as [w ty lb t1 Hty Hlb Hn St|toks l h ks part Hc Hh Hks Hcol Kp Hp|toks N t3 more Hto An St].
  - destruct (opening_run b _ t1 w ty lb fuel eq_refl Hty Hlb (fun E => or_intror (Hn E)) HR) as (b2 & R2 & E2). rewrite E2.
    rewrite (objective_stops b2 _ t1 fuel St R2); [reflexivity|exact (fine_app dn _ _ (Forall_inv_tail H3))|intros K; apply Hb; right; apply in_or_app; right; exact K|].
    cbn [length] in Hf. rewrite app_length in Hf. lia.
  - destruct (rows_run b toks l h _ fuel Hc Hh Hcol HR H3 Hb Hf) as (b4 & p3 & R4 & S4 & _ & _ & E3). pose proof (suffix_fine _ _ S4 H3) as F4. pose proof (suffix_len _ _ S4) as L4.
    rewrite E3, (rows_stops ks fuel 0 b4 p3 part Hks R4 F4 Kp Hp); [reflexivity|lia].
  - destruct (bounds_run b toks N t3 fuel Hto HR H3 Hb Hf) as (b4 & p4 & R4 & S4 & Nd & HG & V4 & E4). rewrite E4. unfold after_rows.
    destruct St as (ls & rest & l & -> & Hls & Hne & Hk & Hat & Hl & Hz).
    destruct (section_start in_bounds t3 _ b4 p4 (bounds_loop dn fuel) An R4) as (b5 & R5 & Sm & E5). unfold read_bounds. fold in_bounds. rewrite E5, V4.
    pose proof (suffix_trans _ _ _ S4 Sm) as Sa. pose proof (suffix_fine _ _ Sa H3) as Fm. pose proof (suffix_len _ _ Sa) as Lm.
    rewrite (bounds_stops N l Nd HG Hl Hz ls fuel b5 _ rest Hls Hne Hk Hat R5 Fm); [reflexivity|lia].
Qed.
Theorem parse_loops b toks fuel : reads_for_ever dn toks -> repr b toks -> fine toks -> ~ In (str "[") toks -> length toks < fuel -> parse dn fuel b (empty_problem dn) = P_running.
Proof.
  intros H HR H3 Hb Hf. destruct H as [toks N t4 more Hto An Hm H0|toks N t5 more Hto An Hm H0].
  - destruct (binary_run b toks N t4 fuel Hto HR H3 Hb Hf) as (b5 & p5 & h & R5 & S5 & Nd & HG & V5 & E5). rewrite E5. unfold after_bounds, read_binary. fold in_binary.
    rewrite (runs_names in_binary N t4 more b5 p5 fuel set_boolean_variable (fun _ => mk_variable_value 0 1 vt_binary) h An Hm H0 (fun nm h0 Hin => set_boolean_complete N nm h0 Nd Hin) V5 R5). reflexivity.
  - destruct (general_run b toks N t5 fuel Hto HR H3 Hb Hf) as (b6 & p6 & h & R6 & S6 & Nd & HG & V6 & E6). rewrite E6. unfold after_binary, read_general. fold in_general.
    rewrite (runs_names in_general N t5 more b6 p6 fuel set_integer_variable (fun v => mk_variable_value (v_min v) (v_max v) vt_general) h An Hm H0 (fun nm h0 Hin => set_integer_complete N nm h0 Nd Hin) V6 R6). reflexivity.
Qed.
(** At the first fault the answer is its error, or there is none. *)
Definition at_most {A} (e : tag) (r : pres A) : Prop := match r with P_ok _ => False | P_error e' => e' = e | P_abort | P_running => True end.
Lemma at_most_bind {A B} e (r : pres A) (f : A -> pres B) : at_most e r -> at_most e (pbind r f).
Proof. destruct r; cbn; auto; intros []. Qed.
Lemma after_end b (p : raw_problem) fuel : repr b [] -> after_rows fuel b p = P_error bad_end.
Proof.
  intros R. unfold after_rows, after_bounds, after_binary, after_general, read_bounds, read_binary, read_general, read_end. rewrite (section_none in_bounds [] b p _ eq_refl R). cbn [pbind].
  rewrite (section_none in_binary [] b p _ eq_refl R). cbn [pbind]. rewrite (section_none in_general [] b p _ eq_refl R). cbn [pbind]. rewrite (repr_first _ _ R). reflexivity.
Qed.
Lemma names_fault kws set f e N toks more b (p : raw_problem) h fuel : announced kws toks more -> (forall l rest, ~ list_part (fun nm => [nm]) (fun nm => In nm N) l more rest) ->
  (forall nm h vs, set nm (vars_of N h) = P_ok vs -> In nm N /\ vs = vars_of N (fun x => if text_eqb x nm then f (h x) else h x)) -> (forall nm vs e', set nm vs = P_error e' -> e' = e) ->
  rw_vars p = vars_of N h -> repr b toks -> at_most e (section_ (read_section kws (first b) (second b)) (names_loop set fuel) b p).
Proof.
  intros An Hno Hset Ht V HR. destruct (section_start kws toks more b p (names_loop set fuel) An HR) as (b1 & R1 & _ & E1). rewrite E1, V. apply at_most_bind.
  destruct (names_loop set fuel b1 (vars_of N h)) as [[b2 vs2]|e2| |] eqn:E; cbn [at_most]; [|exact (names_tag set e Ht _ _ _ _ E)|exact I|exact I].
  destruct (names_sound set f N Hset _ _ _ _ _ _ E R1) as (l & rest & T & Hl & _ & K & _). apply (Hno l rest). split; [exact T|split; [exact Hl|exact K]].
Qed.
Theorem parse_faults e b toks fuel : first_fault dn e toks -> repr b toks -> fine toks -> ~ In (str "[") toks -> length toks < fuel -> at_most e (parse dn fuel b (empty_problem dn)).
Proof.
  intros H HR H3 Hb Hf. destruct H as [toks Ht|toks t1 Hop Hno|toks l h more Hc Hh Wh Hno Hno2|toks l h ks Hc Hh Wh Hks|toks N t3 more Hto An Hno|toks N t4 more Hto An Hno|toks N t5 more Hto An Hno|toks N t6 Hto He|toks N t6 more Hto An Hne].
  - unfold parse. rewrite (repr_first _ _ HR). change direction with read_objective_type in Ht. unfold word in Ht. unfold tk. rewrite Ht. reflexivity.
  - destruct Hop as (w & ty & lb & Hty & Hlb & Hn & ->). destruct (opening_run b _ t1 w ty lb fuel eq_refl Hty Hlb Hn HR) as (b2 & R2 & E2). rewrite E2. apply at_most_bind.
    assert (Hb1 : ~ In (str "[") t1) by (intros K; apply Hb; right; apply in_or_app; right; exact K).
    destruct (objective_loop dn fuel b2 _) as [[b3 p3]|e3| |] eqn:E; cbn [at_most]; [|exact (objective_tag dn _ _ _ _ _ R2 Hb1 E)|exact I|exact I].
    destruct (objective_loop_sound dn _ _ _ _ _ _ E R2 Hb1) as (l & rest & T & Hl & _ & K & _). apply (Hno l rest). split; [exact T|split; [exact Hl|exact K]].
  - destruct (rows_run b toks l h more fuel Hc Hh Wh HR H3 Hb Hf) as (b4 & p3 & R4 & S4 & _ & _ & E3). rewrite E3. apply at_most_bind.
    destruct (constraints_loop dn fuel 0 b4 p3) as [[b5 p5]|e5| |] eqn:E; cbn [at_most]; [|exact (rows_tag dn _ _ _ _ _ E)|exact I|exact I].
    destruct (rows_sound dn _ _ _ _ _ _ _ E R4) as [R5|(ks & rest & T & Hks & _ & K & _)].
    + destruct (rows_read dn _ _ _ _ _ _ _ Hscan E R4 R5) as (ks & T & Hks). exact (Hno2 ks Hks T).
    + apply (Hno ks rest). split; [exact T|split; [exact Hks|exact K]].
  - destruct (rows_run b toks l h _ fuel Hc Hh Wh HR H3 Hb Hf) as (b4 & p3 & R4 & S4 & _ & _ & E3). pose proof (suffix_fine _ _ S4 H3) as F4. pose proof (suffix_len _ _ S4) as L4. rewrite E3.
    destruct (rows_to_the_end dn ks fuel 0 b4 p3 Hks R4 F4) as (b5 & p5 & E & R5); [lia|]. rewrite E. cbn [pbind]. rewrite (after_end _ _ _ R5). reflexivity.
  - destruct (bounds_run b toks N t3 fuel Hto HR H3 Hb Hf) as (b4 & p4 & R4 & S4 & Nd & HG & V4 & E4). rewrite E4. unfold after_rows, read_bounds. fold in_bounds. apply at_most_bind.
    destruct (section_start in_bounds t3 more b4 p4 (bounds_loop dn fuel) An R4) as (b5 & R5 & _ & E5). rewrite E5, V4. apply at_most_bind.
    destruct (bounds_loop dn fuel b5 (vars_of N (fun _ => fresh))) as [[b6 vs6]|e6| |] eqn:E; cbn [at_most]; [|exact (bounds_tag dn _ _ _ _ E)|exact I|exact I].
    destruct (bounds_sound dn _ _ _ _ _ _ _ Nd E R5) as (ls & rest & T & Hls & _ & K & _). apply (Hno ls rest). split; [exact T|split; [exact Hls|exact K]].
  - destruct (binary_run b toks N t4 fuel Hto HR H3 Hb Hf) as (b5 & p5 & h & R5 & S5 & Nd & HG & V5 & E5). rewrite E5. unfold after_bounds, read_binary. fold in_binary. apply at_most_bind.
    exact (names_fault in_binary set_boolean_variable (fun _ => mk_variable_value 0 1 vt_binary) bad_binary N t4 more b5 p5 h fuel An Hno (fun nm h vs => set_boolean_sound N nm h vs Nd) set_boolean_tag V5 R5).
  - destruct (general_run b toks N t5 fuel Hto HR H3 Hb Hf) as (b6 & p6 & h & R6 & S6 & Nd & HG & V6 & E6). rewrite E6. unfold after_binary, read_general. fold in_general. apply at_most_bind.
    exact (names_fault in_general set_integer_variable (fun v => mk_variable_value (v_min v) (v_max v) vt_general) bad_general N t5 more b6 p6 h fuel An Hno (fun nm h vs => set_integer_sound N nm h vs Nd) set_integer_tag V6 R6).
  - destruct (end_run b toks N t6 fuel Hto HR H3 Hb Hf) as (b7 & p7 & R7 & E7). rewrite E7. unfold after_general, read_end, read_section, any_of. rewrite (repr_first _ _ R7). change same_word with are_equal in He. unfold word in He. unfold tk. cbn [existsb].
    rewrite He. reflexivity.
  - destruct (end_run b toks N t6 fuel Hto HR H3 Hb Hf) as (b7 & p7 & R7 & E7). rewrite E7. unfold after_general, read_end.
    destruct (section_start [str "end"] t6 more b7 p7 (fun b vs => P_ok (b, vs)) An R7) as (b8 & R8 & _ & E8). unfold section_ in E8. destruct (read_section [str "end"] (first b7) (second b7)) as [|n] eqn:En.
    + exfalso. destruct An as (x & w & Hw & Ha & -> & _). rewrite (repr_first _ _ R7) in En. unfold header_tokens, tk in En. rewrite Hw in En. cbn [app nth] in En. unfold read_section, colon in En. change is_one_of with any_of in Ha. rewrite Ha in En. destruct (are_equal _ _) in En; discriminate En.
    + destruct (pop (S n) b7) as [b9|]; cbn [or_abort pbind] in E8 |- *; [|exact I]. injection E8 as ->. rewrite (repr_first _ _ R8). destruct more as [|x z]; [congruence|]. pose proof (Forall_inv (rp_toks _ _ R8)) as Q. unfold tk. cbn [nth]. destruct x; [congruence|]. reflexivity.
Qed.
Theorem make_problem_faults e fuel t : readable t -> ends_plain t -> ~ In (str "[") (file_tokens t) -> fine (file_tokens t) -> length (file_tokens t) < fuel ->
  first_fault dn e (file_tokens t) -> at_most e (make_problem dn fuel t).
Proof.
  intros H1 H2 H3 H4 H5 H. destruct (buffer_tokens t H1 H2) as [b [E R]]. unfold make_problem. rewrite E. cbn [or_abort pbind]. exact (parse_faults e b _ fuel H R H4 H3 H5).
Qed.
Theorem make_problem_stops fuel t : readable t -> ends_plain t -> ~ In (str "[") (file_tokens t) -> fine (file_tokens t) -> length (file_tokens t) < fuel ->
  (program_stops dn (file_tokens t) -> make_problem dn fuel t = P_abort) /\ (reads_for_ever dn (file_tokens t) -> make_problem dn fuel t = P_running).
Proof.
  intros H1 H2 H3 H4 H5. destruct (buffer_tokens t H1 H2) as [b [E R]]. unfold make_problem. rewrite E. cbn [or_abort pbind].
  split; intros H; [exact (parse_stops b _ fuel H R H4 H3 H5)|exact (parse_loops b _ fuel H R H4 H3 H5)].
Qed.
End Stops.
