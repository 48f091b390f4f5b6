(** Where the program stops, or reads for ever, when it is given an LP file without square brackets. *)
From Coq Require Import Ascii String Lia.
From Verif Require Import Base Problem_model ResultIO_model Chars_spec Lexer_model Lexer_spec Lexer_proofs Parser_model Parser_spec
  Parser_proofs Parser_proofs2 Parser_proofs3 Parser_proofs4 Parser_proofs5 Accept_spec Accept_proofs Accept_proofs2 Accept_proofs3 Accept_proofs4 Accept_proofs5 Accept_proofs6
  Refused_spec Refused_proofs Stops_spec.
Open Scope string_scope.
Open Scope list_scope.
Open Scope nat_scope.

(** No answer: the program stops, or is still running. *)
Definition bad {A} (k : bool) : pres A := if k then P_abort else P_running.
Lemma bind_bad {A B} k (r : pres A) (f : A -> pres B) : pbind r f = bad k -> r = bad k \/ exists a, r = P_ok a /\ f a = bad k.
Proof. destruct r, k; cbn; intros H; try discriminate; eauto. Qed.
Lemma or_error_bad {A} k t (o : option A) : or_error t o <> bad k.
Proof. destruct o, k; discriminate. Qed.
Lemma or_abort_bad {A} k (o : option A) : or_abort o = bad k -> k = true /\ o = None.
Proof. destruct o, k; cbn; intros H; try discriminate; auto. Qed.
Lemma ok_bad {A} k (a : A) : P_ok a <> bad k.
Proof. destruct k; discriminate. Qed.
Lemma error_bad {A} k e : @P_error A e <> bad k.
Proof. destruct k; discriminate. Qed.

Section Stops.
Context {D : Type} (dn : dops D).
Hypothesis Hscan : d_scan dn [] = None.
Local Notation raw_problem := (raw_problem (D := D)).
Definition short (toks : list text) : Prop := Forall (fun w => length w <> 320) toks.
Lemma short_tk toks i : short toks -> length (tk toks i) <> 320.
Proof.
  intros H. unfold tk. destruct (Nat.lt_ge_cases i (length toks)) as [L|L]; [|rewrite nth_overflow by exact L; discriminate].
  unfold short in H. rewrite Forall_forall in H. apply H, nth_In, L.
Qed.
Lemma short_app a b : short (a ++ b) -> short b.
Proof. intros H. apply Forall_app in H. apply H. Qed.
Lemma short_skipn n toks : short toks -> short (skipn n toks).
Proof. intros H. rewrite <- (firstn_skipn n toks) in H. exact (short_app _ _ H). Qed.

(** ** The reading of a number *)
Lemma real1_bad k t : length t <> 320 -> read_real1 dn t <> bad k.
Proof.
  intros H. unfold read_real1. destruct (_ && _); [apply ok_bad|]. destruct (Nat.ltb _ _); [apply ok_bad|]. destruct (Nat.eqb_spec (length t) 320); [congruence|apply ok_bad].
Qed.
Lemma real2_bad k t1 t2 : length t1 <> 320 -> length t2 <> 320 -> read_real2 dn t1 t2 <> bad k.
Proof.
  intros H1 H2 H. unfold read_real2 in H. destruct (text_eqb t1 (str "-")); [|destruct (text_eqb t1 (str "+"))];
    (apply bind_bad in H; destruct H as [H|(a & _ & H)]; [revert H; apply real1_bad; assumption|destruct a; exact (ok_bad _ _ H)]).
Qed.
Lemma element_bad k t1 t2 t3 : length t1 <> 320 -> length t2 <> 320 -> read_function_element dn t1 t2 t3 <> bad k.
Proof.
  intros H1 H2 H. unfold read_function_element in H. apply bind_bad in H. destruct H as [H|([v n] & _ & H)]; [exact (real2_bad _ _ _ H1 H2 H)|].
  cbn beta iota in H. destruct (_ && _); [|exact (ok_bad _ _ H)]. destruct (read_name _); exact (ok_bad _ _ H).
Qed.
Lemma nil_number : number dn [] = None.
Proof. unfold number. cbn. exact Hscan. Qed.
Lemma zero_value t1 t2 v : read_real2 dn t1 t2 = P_ok (v, 0) -> no_value dn t1.
Proof.
  unfold read_real2. intros H. destruct (text_eqb_spec t1 (str "-")) as [->|N1]; [|destruct (text_eqb_spec t1 (str "+")) as [->|N2]].
  - destruct (read_real1 dn t2) as [o| | |]; cbn [pbind] in H; try discriminate. destruct o; discriminate.
  - destruct (read_real1 dn t2) as [o| | |]; cbn [pbind] in H; try discriminate. destruct o; discriminate.
  - destruct (read_real1 dn t1) as [o| | |] eqn:E; cbn [pbind] in H; try discriminate. apply read_real1_sound in E. destruct o as [d|]; [discriminate|].
    split; [symmetry; exact E|split; assumption].
Qed.
Lemma zero_element t1 t2 t3 v nm : read_function_element dn t1 t2 t3 = P_ok (Some (v, nm, 0)) -> no_element dn t1.
Proof.
  unfold read_function_element. destruct (read_real2 dn t1 t2) as [[v' r]| | |] eqn:E; cbn [pbind]; try discriminate. intros H.
  destruct (negb (is_keyword (pick r t1 t2 t3)) && starts_with_name (pick r t1 t2 t3)) eqn:K.
  - destruct (read_name _); [injection H; lia|discriminate].
  - injection H as _ _ ->. split; [exact (zero_value _ _ _ E)|]. cbn [pick] in K. apply andb_false_iff in K. destruct K as [K|K]; [left; apply negb_false_iff; exact K|right; exact K].
Qed.
Lemma item_nonempty i next : item_ok dn i next -> Forall (fun w => w <> []) (item_tokens i).
Proof.
  assert (Hn : forall m, opt (is_num dn) m -> Forall (fun w => w <> []) (num_tokens m)).
  { intros [m|] H; [|constructor]. constructor; [|constructor]. intros ->. exact (H nil_number). }
  assert (Hs : forall s, Forall (fun w : text => w <> []) (sign_tokens s)) by (intros [[]|]; cbn; repeat constructor; discriminate).
  intros H. destruct i as [t|s m]; cbn [item_ok item_tokens] in *.
  - destruct H as ((H1 & _) & _ & H2 & _). unfold term_tokens. apply Forall_app. split; [apply Hs|]. apply Forall_app. split; [apply Hn, H2|]. constructor; [exact H1|constructor].
  - destruct H as (_ & H2 & _). apply Forall_app. split; [apply Hs|apply Hn, H2].
Qed.
Lemma element_at toks v nm n : read_function_element dn (tk toks 0) (tk toks 1) (tk toks 2) = P_ok (Some (v, nm, n)) ->
  exists i, nm = t_var (item_term i) /\ v = coefficient dn (item_term i) /\ n = length (item_tokens i) /\ n <= 3 /\ toks = item_tokens i ++ skipn n toks /\
    (n <> 0 -> item_ok dn i (tk (skipn n toks) 0)).
Proof.
  intros H. apply read_element_sound in H. destruct H as (i & H1 & H2 & H3 & H4 & H5 & H6). exists i. split; [exact H1|]. split; [exact H2|]. split; [exact H3|]. split; [exact H4|].
  assert (L : n <= length toks).
  { destruct n as [|n]; [lia|]. specialize (H6 ltac:(lia)). pose proof (item_nonempty _ _ H6) as F. rewrite Forall_forall in F.
    assert (K : tk toks n <> []); [|apply tk_len in K; lia]. apply F. rewrite H5. destruct n as [|[|[|n]]]; cbn; auto. lia. }
  split; [rewrite H3 in *; apply element_tokens; assumption|]. intros N0. rewrite H3 in *. unfold tk. apply item_next; [exact H4|]. apply H6. exact N0.
Qed.

(** ** The objective *)
Lemma objective_bad k : forall fuel b (p : raw_problem) toks, repr b toks -> ~ In (str "[") toks -> short toks -> length toks < fuel ->
  objective_loop dn fuel b p = bad k -> k = true /\ objective_stop dn toks /\ keyword (word toks) = false.
Proof.
  induction fuel as [|fuel IH]; intros b p toks HR Hb Hs Hf H; [lia|]. cbn [objective_loop] in H. destruct (is_keyword (first b)) eqn:K; [destruct (ok_bad _ _ H)|].
  rewrite (repr_first _ _ HR) in K.
  apply bind_bad in H. unfold objective_step in H. rewrite (repr_first _ _ HR), (repr_second _ _ HR), (repr_third _ _ HR), (no_quadratic _ Hb) in H.
  destruct (read_function_element dn (tk toks 0) (tk toks 1) (tk toks 2)) as [[[[v nm] n]|]| | |] eqn:E1; cbn [pbind or_error] in H;
    [|destruct H as [H|(a & H & _)]; [destruct (error_bad _ _ H)|discriminate]|destruct H as [H|(a & H & _)]; [destruct (error_bad _ _ H)|discriminate]| |];
    [|destruct (element_bad true _ _ (tk toks 2) (short_tk _ 0 Hs) (short_tk _ 1 Hs) E1)|destruct (element_bad false _ _ (tk toks 2) (short_tk _ 0 Hs) (short_tk _ 1 Hs) E1)].
  destruct n as [|n].
  { apply zero_element in E1. destruct H as [H|(a & H & _)]; [|discriminate]. apply or_abort_bad in H || (cbn in H). split; [destruct k; [reflexivity|discriminate H]|].
    split; [|exact K]. exists [], toks. split; [reflexivity|]. split; [exact I|]. split; [exact E1|exact K]. }
  apply element_at in E1. destruct E1 as (i & -> & -> & En & L3 & T & Hi). destruct (pop_ok (S n) b toks HR) as [b2 [E2 R2]]; [lia|]. rewrite E2 in H. cbn [or_abort pbind] in H.
  destruct H as [H|([b1 p1] & E & H)]; [destruct (ok_bad _ _ H)|]. injection E as <- <-.
  assert (L : length (skipn (S n) toks) < fuel) by (rewrite skipn_length; assert (length toks >= S n) by (rewrite T, app_length; lia); lia).
  destruct (IH _ _ _ R2 (not_in_skipn _ _ _ Hb) (short_skipn _ _ Hs) L H) as (Ek & (l & rest & T' & Hl & He & Hk) & _).
  split; [exact Ek|]. split; [|exact K]. exists (i :: l), rest. split; [cbn [flat_map]; rewrite <- app_assoc, <- T'; exact T|]. split; [|split; [exact He|exact Hk]].
  cbn [items_ok]. rewrite <- T'. split; [apply Hi; lia|exact Hl].
Qed.

(** ** The constraints *)
Lemma celement_bad k b vs els toks : repr b toks -> short toks -> constraint_element dn b vs els = bad k ->
  k = true /\ (no_element dn (tk toks 0) \/ exists i more, toks = item_tokens i ++ more /\ item_ok dn i (word more) /\ ~ int_ok dn (coefficient dn (item_term i))).
Proof.
  intros HR Hs H. unfold constraint_element in H. rewrite (repr_first _ _ HR), (repr_second _ _ HR), (repr_third _ _ HR) in H.
  apply bind_bad in H. destruct H as [H|(o & E1 & H)]; [destruct (element_bad k _ _ (tk toks 2) (short_tk _ 0 Hs) (short_tk _ 1 Hs) H)|].
  apply bind_bad in H. destruct H as [H|([[f nm] n] & E & H)]; [destruct (or_error_bad _ _ _ H)|]. destruct o as [[[f' nm'] n']|]; [|discriminate]. cbn [or_error] in E. injection E as -> -> ->.
  destruct (get_or_assign_variable vs nm) as [id vs1]. pose proof (element_at _ _ _ _ E1) as (i & -> & -> & En & L3 & T & Hi).
  apply bind_bad in H. destruct H as [H|(z & _ & H)].
  { apply or_abort_bad in H. destruct H as [-> H]. split; [reflexivity|]. destruct n as [|n]; [left; exact (zero_element _ _ _ _ _ E1)|]. right. exists i, (skipn (S n) toks). split; [exact T|]. split; [apply Hi; lia|]. unfold int_ok. congruence. }
  apply bind_bad in H. destruct H as [H|(b1 & _ & H)]; [|destruct (ok_bad _ _ H)]. apply or_abort_bad in H. destruct H as [-> H]. split; [reflexivity|]. left.
  destruct n as [|n]; [exact (zero_element _ _ _ _ _ E1)|]. destruct (pop_ok (S n) b toks HR) as [b2 [E2 _]]; [lia|congruence].
Qed.
Lemma celement_at b vs els b' vs' els' toks : repr b toks -> constraint_element dn b vs els = P_ok (b', vs', els') ->
  exists i rest, toks = item_tokens i ++ rest /\ repr b' rest /\ length rest < length toks /\ item_ok dn i (word rest) /\ int_ok dn (coefficient dn (item_term i)).
Proof.
  intros HR E. unfold constraint_element in E. rewrite (repr_first _ _ HR), (repr_second _ _ HR), (repr_third _ _ HR) in E.
  destruct (read_function_element dn _ _ _) as [[[[v nm] n]|]| | |] eqn:E1; cbn [pbind or_error] in E; try discriminate.
  destruct (get_or_assign_variable vs nm) as [id vs1]. destruct (d_int dn v) as [z|] eqn:Ez; cbn [or_abort pbind] in E; [|discriminate].
  destruct (pop n b) as [b2|] eqn:E2; cbn [or_abort pbind] in E; [|discriminate]. injection E as <- <- <-. destruct (pop_sound _ _ _ _ HR E2) as [Hn R2].
  apply element_at in E1. destruct E1 as (i & _ & Ev & En & L3 & T & Hi). exists i, (skipn n toks). split; [exact T|]. split; [exact R2|]. split; [rewrite T at 2; rewrite app_length; lia|]. split; [apply Hi; lia|]. unfold int_ok. rewrite <- Ev. congruence.
Qed.
Lemma elements_bad k : forall fuel b vs els toks, repr b toks -> short toks -> length toks <= fuel -> elements_loop dn fuel b vs els = bad k ->
  k = true /\ exists is rest, toks = flat_map item_tokens is ++ rest /\ items_ok dn is rest /\ Forall (fun i => int_ok dn (coefficient dn (item_term i))) is /\
    ((no_element dn (word rest) /\ rest <> [] /\ operator_like (word rest) = false) \/
     (exists i more, rest = item_tokens i ++ more /\ item_ok dn i (word more) /\ ~ int_ok dn (coefficient dn (item_term i)))).
Proof.
  induction fuel as [|fuel IH]; intros b vs els toks HR Hs Hf H; cbn [elements_loop] in H; (destruct (first b) as [|c w] eqn:Ef; [destruct (ok_bad _ _ H)|]);
    (destruct (starts_with_operator (c :: w)) eqn:Op; [destruct (ok_bad _ _ H)|]); rewrite <- Ef in Op; rewrite (repr_first _ _ HR) in Op, Ef.
  { destruct toks; [discriminate Ef|cbn in Hf; lia]. }
  apply bind_bad in H. destruct H as [H|([[b1 vs1] els1] & E & H)].
  - destruct (celement_bad _ _ _ _ _ HR Hs H) as [-> [He|He]]; (split; [reflexivity|]); exists [], toks; (split; [reflexivity|]); (split; [exact I|]); (split; [constructor|]); [left|right; exact He].
    split; [exact He|]. split; [intros ->; discriminate Ef|exact Op].
  - destruct (celement_at _ _ _ _ _ _ _ HR E) as (i & rest & T & R1 & L & Hi & Hz). assert (Hs1 : short rest) by (rewrite T in Hs; exact (short_app _ _ Hs)).
    destruct (IH _ _ _ _ R1 Hs1 ltac:(lia) H) as (-> & is & rest' & T' & Hok & Hzs & Hr). split; [reflexivity|]. exists (i :: is), rest'. split; [cbn [flat_map]; rewrite <- app_assoc, <- T'; exact T|]. split; [cbn [items_ok]; rewrite <- T'; split; assumption|]. split; [constructor; assumption|exact Hr].
Qed.
Lemma elements_at : forall fuel b vs els b' vs' els' toks, repr b toks -> elements_loop dn fuel b vs els = P_ok (b', vs', els') ->
  exists is rest, toks = flat_map item_tokens is ++ rest /\ repr b' rest /\ items_ok dn is rest /\ Forall (fun i => int_ok dn (coefficient dn (item_term i))) is.
Proof.
  induction fuel as [|fuel IH]; intros b vs els b' vs' els' toks HR H; cbn [elements_loop] in H;
    (destruct (first b) as [|c w] eqn:Ef; [injection H as <- _ _; exists [], toks; split; [reflexivity|split; [exact HR|split; [exact I|constructor]]]|]);
    (destruct (starts_with_operator (c :: w)) eqn:Op; [injection H as <- _ _; exists [], toks; split; [reflexivity|split; [exact HR|split; [exact I|constructor]]]|]); [discriminate|].
  destruct (constraint_element dn b vs els) as [[[b1 vs1] els1]| | |] eqn:E; cbn [pbind] in H; try discriminate.
  destruct (celement_at _ _ _ _ _ _ _ HR E) as (i & rest & T & R1 & L & Hi & Hz). destruct (IH _ _ _ _ _ _ _ R1 H) as (is & rest' & T' & R' & Hok & Hzs).
  exists (i :: is), rest'. split; [cbn [flat_map]; rewrite <- app_assoc, <- T'; exact T|]. split; [exact R'|]. split; [cbn [items_ok]; rewrite <- T'; split; assumption|constructor; assumption].
Qed.
Lemma label_at b toks : repr b toks -> is_keyword (tk toks 0) = false -> exists lb b1 rest, read_label b = P_ok (match lb with Some l => l | None => [] end, b1) /\
  opt (fun l => name_like l = true /\ keyword l = false) lb /\ toks = label_tokens lb ++ rest /\ repr b1 rest /\ (lb = None -> name_like (word toks) = true -> nth 1 toks [] <> str ":").
Proof.
  intros HR Hk. unfold read_label. rewrite (repr_first _ _ HR), (repr_second _ _ HR). destruct (starts_with_name (tk toks 0)) eqn:Sn.
  2:{ cbn [andb]. exists None, b, toks. split; [reflexivity|]. split; [exact I|]. split; [reflexivity|]. split; [exact HR|]. intros _ K. change starts_with_name with name_like in Sn. unfold tk, word in *. congruence. }
  destruct (text_eqb_spec (tk toks 1) (str ":")) as [Ec|Nc]; cbn [andb]; [|exists None, b, toks; split; [reflexivity|]; split; [exact I|]; split; [reflexivity|]; split; [exact HR|intros _ _; exact Nc]].
  destruct (pop_ok 2 b toks HR) as [b1 [E1 R1]]; [lia|]. rewrite E1. cbn [or_abort pbind]. exists (Some (tk toks 0)), b1, (skipn 2 toks). split; [reflexivity|]. split; [split; assumption|].
  split; [|split; [exact R1|discriminate]]. destruct toks as [|x [|y toks]]; [discriminate Ec|discriminate Ec|]. unfold tk in *. cbn [nth] in *. rewrite Ec. reflexivity.
Qed.
Lemma whole_read toks op sp more : toks = op_tokens op sp ++ more -> read_operator (tk toks 0) (tk toks 1) = Some (op, length (op_tokens op sp)) -> whole_operator op sp more.
Proof.
  intros T H op' sp' L E. rewrite <- T in E. assert (T' : exists z, toks = op_tokens op' sp' ++ z) by (exists (skipn 2 toks); rewrite E; symmetry; apply firstn_skipn).
  clear T E. destruct T' as [z ->]. destruct op', sp'; cbn in H, L; try (destruct op, sp; cbn in L; lia); injection H as <- H; rewrite <- H in L; lia.
Qed.
Lemma row_bad k fuel id b p toks : repr b toks -> short toks -> toks <> [] -> is_keyword (tk toks 0) = false -> length toks <= S fuel ->
  constraint_step dn fuel id b p = bad k -> k = true /\ row_stop dn toks.
Proof.
  intros HR Hs Hne Hk Hf H. destruct (label_at b toks HR Hk) as (lb & b1 & t1 & El & Hl & T1 & R1 & Hlb). unfold constraint_step in H. rewrite El in H. cbn [pbind] in H.
  assert (Hs1 : short t1) by (rewrite T1 in Hs; exact (short_app _ _ Hs)). assert (L1 : length t1 <= length toks) by (rewrite T1, app_length; lia).
  apply bind_bad in H. destruct H as [H|([[b2 vs2] els2] & E2 & H)].
  { destruct (celement_bad _ _ _ _ _ R1 Hs1 H) as [-> He]. split; [reflexivity|]. split; [exact Hne|]. exists lb, [], t1. split; [exact Hl|]. split; [exact Hlb|]. split; [exact T1|]. split; [exact I|]. split; [constructor|].
    destruct He as [He|He]; [left; split; [exact He|congruence]|right; left; exact He]. }
  destruct (celement_at _ _ _ _ _ _ _ R1 E2) as (i & t2 & T2 & R2 & L2 & Hi & Hz). assert (Hs2 : short t2) by (rewrite T2 in Hs1; exact (short_app _ _ Hs1)).
  apply bind_bad in H. destruct H as [H|([[b3 vs3] els3] & E3 & H)].
  { destruct (elements_bad k fuel b2 vs2 els2 t2 R2 Hs2 ltac:(lia) H) as (-> & is & rest & T3 & Hok & Hzs & He). split; [reflexivity|]. split; [exact Hne|]. exists lb, (i :: is), rest. split; [exact Hl|]. split; [exact Hlb|].
    split; [cbn [flat_map]; rewrite <- app_assoc, <- T3, <- T2; exact T1|]. split; [cbn [items_ok]; rewrite <- T3; split; assumption|]. split; [constructor; assumption|]. destruct He as [(He & Ho)|He]; [left; split; [exact He|intros _; exact Ho]|right; left; exact He]. }
  destruct (elements_at _ _ _ _ _ _ _ _ R2 E3) as (is & t3 & T3 & R3 & Hok & Hzs). assert (Hs3 : short t3) by (rewrite T3 in Hs2; exact (short_app _ _ Hs2)).
  apply bind_bad in H. destruct H as [H|([op n4] & E4 & H)]; [destruct (or_error_bad _ _ _ H)|]. destruct (read_operator (first b3) (second b3)) as [[op' n4']|] eqn:Eo; [|discriminate]. injection E4 as -> ->.
  rewrite (repr_first _ _ R3), (repr_second _ _ R3) in Eo. pose proof Eo as Eo'. apply read_operator_sound in Eo. destruct Eo as (sp & En4 & Et4).
  assert (L4 : 1 <= n4 <= 2) by (rewrite En4; destruct op, sp; cbn; lia). destruct (pop_ok n4 b3 t3 R3) as [b4 [E5 R4]]; [lia|]. rewrite E5 in H. cbn [or_abort pbind] in H.
  assert (Q4 : n4 <= length t3).
  { assert (K : tk t3 (n4 - 1) <> []); [|apply tk_len in K; lia]. destruct L4 as [L4 L4']. destruct n4 as [|[|[|n4]]]; [lia| | |lia]; destruct op, sp; cbn in En4, Et4; try discriminate; cbn; congruence. }
  assert (T4 : t3 = op_tokens op sp ++ skipn n4 t3) by (rewrite (three n4 t3 Q4) at 1 by lia; f_equal; rewrite Et4; destruct n4 as [|[|[|n4]]]; try reflexivity; lia).
  set (t4 := skipn n4 t3) in *. assert (Hs4 : short t4) by (apply short_skipn; exact Hs3).
  assert (Stop : (no_value dn (word t4) \/ exists s m after, t4 = sign_tokens s ++ num_tokens m ++ after /\ (s <> None \/ m <> None) /\ opt (is_num dn) m /\ (m = None -> number dn (word after) = None) /\ ~ int_ok dn (with_sign dn s (number_of dn m))) -> row_stop dn toks).
  { intros He. split; [exact Hne|]. exists lb, (i :: is), t3. split; [exact Hl|]. split; [exact Hlb|]. split; [cbn [flat_map]; rewrite <- app_assoc, <- T3, <- T2; exact T1|].
    split; [cbn [items_ok]; rewrite <- T3; split; assumption|]. split; [constructor; assumption|]. right. right. exists op, sp, t4. split; [discriminate|]. split; [exact T4|]. split; [|exact He].
    apply (whole_read t3 op sp t4 T4). rewrite Eo', En4. reflexivity. }
  apply bind_bad in H. rewrite (repr_first _ _ R4), (repr_second _ _ R4) in H. destruct H as [H|([v n5] & E6 & H)]; [destruct (real2_bad _ _ _ (short_tk _ 0 Hs4) (short_tk _ 1 Hs4) H)|].
  pose proof (read_real2_sound dn _ _ _ _ E6) as (s & m & En5 & Et5 & Hm & Hv & Hmn).
  apply bind_bad in H. destruct H as [H|(z & _ & H)].
  { apply or_abort_bad in H. destruct H as [-> H]. split; [reflexivity|]. apply Stop. destruct n5 as [|n5]; [left; exact (zero_value _ _ _ E6)|]. right.
    exists s, m, (skipn (S n5) t4). assert (Sm : s <> None \/ m <> None) by (destruct s; [left; discriminate|]; destruct m; [right; discriminate|discriminate En5]).
    assert (Nx : m = None -> number dn (word (skipn (S n5) t4)) = None).
    { intros ->. specialize (Hmn eq_refl). assert (n5 = 0) by (destruct s as [[]|]; cbn in En5; lia). subst n5. rewrite <- Hmn. destruct t4; reflexivity. }
    enough (Q : t4 = sign_tokens s ++ num_tokens m ++ skipn (S n5) t4) by (split; [exact Q|]; split; [exact Sm|]; split; [exact Hm|]; split; [exact Nx|unfold int_ok; congruence]).
    assert (L5 : S n5 <= 2) by (rewrite En5, app_length; destruct s as [[]|], m; cbn; lia).
    assert (Q5 : S n5 <= length t4).
    { assert (K : tk t4 n5 <> []); [|apply tk_len in K; lia]. intros K0. assert (F : In [] (sign_tokens s ++ num_tokens m)) by (rewrite Et5; destruct n5 as [|[|n5]]; [left; exact K0|right; left; exact K0|lia]).
      apply in_app_iff in F. destruct F as [F|F]; [destruct s as [[]|]; cbn in F; intuition discriminate|]. destruct m as [m|]; [|exact F]. destruct F as [->|[]]. exact (Hm nil_number). }
    rewrite app_assoc, Et5. rewrite (three (S n5) t4 Q5) at 1 by lia. f_equal. destruct n5 as [|[|n5]]; try reflexivity. lia. }
  apply bind_bad in H. destruct H as [H|(b5 & _ & H)]; [|destruct (ok_bad _ _ H)]. apply or_abort_bad in H. destruct H as [-> H]. split; [reflexivity|]. apply Stop. left.
  assert (L5 : n5 <= 2) by (rewrite En5, app_length; destruct s as [[]|], m; cbn; lia). destruct n5 as [|n5]; [exact (zero_value _ _ _ E6)|].
  destruct (pop_ok (S n5) b4 t4 R4) as [b5 [E7 _]]; [lia|congruence].
Qed.
Lemma rows_bad k : forall fuel id b (p : raw_problem) toks, repr b toks -> short toks -> length toks <= fuel -> constraints_loop dn fuel id b p = bad k ->
  k = true /\ exists ks part, toks = flat_map row_tokens ks ++ part /\ rows_ok dn ks part /\ keyword (word part) = false /\ row_stop dn part.
Proof.
  induction fuel as [|fuel IH]; intros id b p toks HR Hs Hf H; cbn [constraints_loop] in H; (destruct (first b) as [|c w] eqn:Ef; [destruct (ok_bad _ _ H)|]);
    rewrite <- Ef in H; (destruct (is_keyword (first b)) eqn:K; [destruct (ok_bad _ _ H)|]); rewrite (repr_first _ _ HR) in K, Ef.
  { destruct toks; [discriminate Ef|cbn in Hf; lia]. }
  apply bind_bad in H. destruct H as [H|([b1 p1] & E & H)].
  - destruct (row_bad _ _ _ _ _ _ HR Hs ltac:(intros ->; discriminate Ef) K Hf H) as [-> Hr]. split; [reflexivity|]. exists [], toks. split; [reflexivity|]. split; [exact I|]. split; [exact K|exact Hr].
  - destruct (row_read dn _ _ _ _ _ _ _ E HR K Hscan) as (r & _ & rest & T & R1 & Hr). assert (Hs1 : short rest) by (rewrite T in Hs; exact (short_app _ _ Hs)).
    assert (L : length rest <= fuel).
    { assert (1 <= length (row_tokens r)); [|rewrite T, app_length in Hf; lia]. destruct Hr as (_ & Hne & His & _). unfold row_tokens. rewrite !app_length. pose proof (items_len dn _ _ His). destruct (w_items r); [congruence|cbn [length] in *; lia]. }
    destruct (IH _ _ _ _ R1 Hs1 L H) as (-> & ks & part & T' & Hks & Hp). split; [reflexivity|]. exists (r :: ks), part.
    split; [cbn [flat_map]; rewrite <- app_assoc, <- T'; exact T|]. split; [cbn [rows_ok]; rewrite <- T'; split; assumption|exact Hp].
Qed.

(** ** The bounds *)
Lemma left_bad k t : (forall i, length (t i) <> 320) -> read_left_bound dn (t 0) (t 1) (t 2) (t 3) <> bad k.
Proof.
  intros Ht H. unfold read_left_bound in H. destruct (_ || _); (apply bind_bad in H; destruct H as [H|(o & _ & H)]; [revert H; apply real1_bad; apply Ht|destruct (ok_bad _ _ H)]).
Qed.
Lemma right_bad k (t1 t2 t3 t4 : text) : length t2 <> 320 -> length t3 <> 320 -> length t4 <> 320 -> read_right_bound dn t1 t2 t3 t4 <> bad k.
Proof.
  intros H2 H3 H4 H. unfold read_right_bound in H. destruct (read_operator t1 t2) as [[op n]|]; [|destruct (ok_bad _ _ H)].
  destruct (Nat.eqb n 1); (destruct (_ || _); (apply bind_bad in H; destruct H as [H|(o & _ & H)]; [revert H; apply real1_bad; assumption|destruct (ok_bad _ _ H)])).
Qed.
Lemma bound_bad k t : (forall i, length (t i) <> 320) -> read_bound dn t <> bad k.
Proof.
  intros Ht H. unfold read_bound in H. destruct (starts_with_number (t 0)).
  - apply bind_bad in H. destruct H as [H|(o & _ & H)]; [exact (left_bad _ _ Ht H)|]. destruct o as [[lv n]|]; [|destruct (ok_bad _ _ H)]. destruct (read_name (t n)) as [nm|]; [|destruct (ok_bad _ _ H)].
    destruct (negb _); [destruct (ok_bad _ _ H)|]. apply bind_bad in H. destruct H as [H|(o & _ & H)]; [revert H; apply right_bad; apply Ht|].
    destruct o as [[rv m]|]; [|destruct (ok_bad _ _ H)]. destruct (d_gt dn lv rv); destruct (ok_bad _ _ H).
  - destruct (starts_with_name (t 0)); [|destruct (ok_bad _ _ H)]. destruct (read_name (t 0)); [|destruct (ok_bad _ _ H)]. destruct (starts_with_operator (t 1)); [|destruct (ok_bad _ _ H)].
    apply bind_bad in H. destruct H as [H|(o & _ & H)]; [revert H; apply right_bad; apply Ht|]. destruct o as [[rv m]|]; destruct (ok_bad _ _ H).
Qed.
Lemma bounds_bad k : forall fuel b N h toks, NoDup N -> repr b toks -> short toks -> length toks < fuel -> bounds_loop dn fuel b (vars_of N h) = bad k ->
  k = true /\ bound_stop dn N toks.
Proof.
  induction fuel as [|fuel IH]; intros b N h toks Nd HR Hs Hf H; [lia|]. cbn [bounds_loop] in H. destruct (is_keyword (first b)) eqn:K; [destruct (ok_bad _ _ H)|].
  assert (Ht : forall i, i < 10 -> token_at b i = tk toks i) by (intros i Hi; apply token_at_ok; assumption).
  assert (Nt : toks <> []).
  { intros ->. assert (G : read_bound dn (token_at b) = P_ok None) by (unfold read_bound; change (token_at b 0) with (first b); rewrite (repr_first _ _ HR); reflexivity).
    rewrite G in H. cbn [pbind or_error] in H. exact (error_bad _ _ H). }
  apply bind_bad in H. destruct H as [H|(o & E1 & H)].
  { exfalso. revert H. apply bound_bad. intros i. destruct (Nat.lt_ge_cases i 10) as [L|L]; [rewrite Ht by exact L; apply short_tk; exact Hs|]. unfold token_at. rewrite nth_overflow by (rewrite (rp_win _ _ HR); exact L). discriminate. }
  apply bind_bad in H. destruct H as [H|(bd & E & H)]; [destruct (or_error_bad _ _ _ H)|]. destruct o as [bd'|]; [|discriminate]. injection E as ->.
  apply read_bound_sound in E1. destruct E1 as (l & Hn & Hmin & Hmax & Hr & Hr10 & Hl & Hsh).
  assert (Hat : line_at l toks).
  { intros i Hi. rewrite <- Hr in Hi. rewrite Hl. rewrite (nth_indep _ [] (token_at b 0)) by (rewrite map_length, seq_length; exact Hi). rewrite map_nth, seq_nth by exact Hi. apply Ht. lia. }
  apply bind_bad in H. destruct H as [H|(vs & E2 & H)].
  - unfold set_bound_variable in H. apply bind_bad in H. destruct H as [H|(id & E2 & H)]; [destruct (or_error_bad _ _ _ H)|].
    unfold get_variable in E2. cbn [vars_of v_names] in E2. destruct (name_index (bd_name bd) N) as [id'|] eqn:Ei; [|discriminate]. injection E2 as ->. apply name_index_some in Ei. destruct Ei as [Hin ->].
    rewrite Hn in *.
    assert (St : forall P : Prop, P -> (P -> (d_is_ninf dn (line_low dn l) = false /\ ~ int_ok dn (line_low dn l)) \/ (d_is_pinf dn (line_high dn l) = false /\ ~ int_ok dn (line_high dn l))) -> bound_stop dn N toks).
    { intros P HP HQ. exists [], toks, l. split; [reflexivity|]. split; [constructor|]. split; [exact Nt|]. split; [rewrite (repr_first _ _ HR) in K; exact K|]. split; [exact Hat|]. split; [split; [exact Hin|exact Hsh]|exact (HQ HP)]. }
    apply bind_bad in H. destruct H as [H|(mn & _ & H)].
    { unfold bound_min in H. rewrite Hmin in H. destruct (d_is_ninf dn (line_low dn l)) eqn:En; [destruct (ok_bad _ _ H)|]. apply or_abort_bad in H. destruct H as [-> H]. split; [reflexivity|].
      apply (St True I). intros _. left. split; [first [exact En|reflexivity]|unfold int_ok; congruence]. }
    apply bind_bad in H. destruct H as [H|(mx & _ & H)].
    { unfold bound_max in H. rewrite Hmax in H. destruct (d_is_pinf dn (line_high dn l)) eqn:En; [destruct (ok_bad _ _ H)|]. apply or_abort_bad in H. destruct H as [-> H]. split; [reflexivity|].
      apply (St True I). intros _. right. split; [first [exact En|reflexivity]|unfold int_ok; congruence]. }
    change (mk_variables N (map h N)) with (vars_of N h) in H. rewrite (set_value_ok N h _ _ Nd Hin) in H. destruct (ok_bad _ _ H).
  - destruct (set_line_sound dn N h bd l vs Nd E2 Hn Hmin Hmax Hsh) as [Hok ->].
    pose proof (line_len l) as L1. destruct (pop_ok (bd_read bd) b toks HR) as [b2 [E3 R2]]; [lia|]. rewrite E3 in H. cbn [or_abort pbind] in H.
    destruct (skipn (bd_read bd) toks) as [|x y] eqn:Q.
    { exfalso. destruct fuel as [|fuel]; [destruct toks; [congruence|cbn in Hf; lia]|].
      cbn [bounds_loop] in H. replace (is_keyword (first b2)) with false in H by (rewrite (repr_first _ _ R2); reflexivity).
        assert (G : read_bound dn (token_at b2) = P_ok None).
        { unfold read_bound. change (token_at b2 0) with (first b2). rewrite (repr_first _ _ R2). reflexivity. }
        rewrite G in H. cbn [pbind or_error] in H. exact (error_bad _ _ H). }
    rewrite <- Q in *. assert (Lr : bd_read bd < length toks) by (apply skipn_more; rewrite Q; discriminate).
    assert (Tl : toks = line_tokens l ++ skipn (bd_read bd) toks).
    { rewrite Hl. rewrite (tk_seq (bd_read bd) toks) at 1 by lia. f_equal. apply map_ext_in. intros i Hi. apply in_seq in Hi. symmetry. apply Ht. lia. }
    assert (Lq : length (skipn (bd_read bd) toks) < fuel) by (rewrite skipn_length; lia).
    destruct (IH _ _ _ _ Nd R2 (short_skipn _ _ Hs) Lq H) as (-> & ls & rest & l' & T' & Hls & Hr').
    split; [reflexivity|]. exists (l :: ls), rest, l'. split; [cbn [flat_map]; rewrite <- app_assoc, <- T'; exact Tl|]. split; [constructor; assumption|exact Hr'].
Qed.

(** ** The names *)
Lemma names_bad k (set : text -> variables -> pres variables) (f : variable_value -> variable_value) t N :
  (forall nm h, In nm N -> set nm (vars_of N h) = P_ok (vars_of N (fun x => if text_eqb x nm then f (h x) else h x))) ->
  (forall nm h, ~ In nm N -> set nm (vars_of N h) = P_error t) ->
  forall fuel b h toks, repr b toks -> length toks < fuel -> names_loop set fuel b (vars_of N h) = bad k ->
  k = false /\ Forall (fun nm => In nm N /\ keyword nm = false) toks /\ In [] N.
Proof.
  intros H1 H2. induction fuel as [|fuel IH]; intros b h toks HR Hf H; [lia|]. cbn [names_loop] in H. destruct (is_keyword (first b)) eqn:K; [destruct (ok_bad _ _ H)|].
  rewrite (repr_first _ _ HR) in *. destruct (in_dec (list_eq_dec ascii_dec) (tk toks 0) N) as [Hin|Hin]; [|rewrite (H2 _ h Hin) in H; destruct (error_bad _ _ H)].
  rewrite (H1 _ h Hin) in H. cbn [pbind] in H. destruct (pop_front_ok _ _ HR) as [b1 [E1 R1]]. rewrite E1 in H. cbn [or_abort pbind] in H.
  destruct toks as [|x toks]; cbn [tl] in R1.
  - split; [|split; [constructor|exact Hin]]. clear IH K Hf HR E1 b. revert H. generalize (fun x : text => if text_eqb x (tk [] 0) then f (h x) else h x). revert b1 R1. induction fuel as [|fuel IH]; intros b R g H.
    + cbn [names_loop] in H. destruct (is_keyword (first b)); [destruct (ok_bad _ _ H)|]. destruct k; [discriminate H|reflexivity].
    + cbn [names_loop] in H. replace (is_keyword (first b)) with false in H by (rewrite (repr_first _ _ R); reflexivity). rewrite (repr_first _ _ R), (H1 _ g Hin) in H. cbn [pbind] in H.
      destruct (pop_front_ok _ _ R) as [b2 [E2 R2]]. rewrite E2 in H. cbn [or_abort pbind tl] in *. exact (IH _ R2 _ H).
  - cbn [length] in Hf. destruct (IH _ _ _ R1 ltac:(lia) H) as (-> & Hn & H0). split; [reflexivity|]. split; [constructor; [split; [exact Hin|exact K]|exact Hn]|exact H0].
Qed.
Lemma set_boolean_unknown nm N h : ~ In nm N -> set_boolean_variable nm (vars_of N h) = P_error bad_binary.
Proof. intros H. unfold set_boolean_variable, get_variable. cbn [vars_of v_names]. rewrite (name_index_notin _ _ H). reflexivity. Qed.
Lemma set_integer_unknown nm N h : ~ In nm N -> set_integer_variable nm (vars_of N h) = P_error bad_general.
Proof. intros H. unfold set_integer_variable, get_variable. cbn [vars_of v_names]. rewrite (name_index_notin _ _ H). reflexivity. Qed.
Lemma section_bad k kws N loop (Q : list text -> Prop) b (p : raw_problem) h toks : any_of [] kws = false -> repr b toks -> rw_vars p = vars_of N h ->
  (forall b1 more, repr b1 more -> (exists front, toks = front ++ more) -> loop b1 (vars_of N h) = bad k -> Q more) ->
  section_ (read_section kws (first b) (second b)) loop b p = bad k -> exists more, announced kws toks more /\ Q more.
Proof.
  intros H0 HR Hv Hl H. rewrite (repr_first _ _ HR), (repr_second _ _ HR) in H. unfold section_ in H. destruct (read_section kws (tk toks 0) (tk toks 1)) as [|n] eqn:E; [destruct (ok_bad _ _ H)|].
  destruct (header_read _ _ _ H0 E) as (hd & w & Hw & Ha & T & Wh). assert (Ln : S n <= 2) by (unfold read_section, colon in E; destruct (any_of (tk toks 0) kws); [|discriminate E]; destruct (are_equal (tk toks 1) (str ":")); lia).
  destruct (pop_ok (S n) b toks HR) as [b1 [E1 R1]]; [lia|]. rewrite E1 in H. cbn [or_abort pbind] in H.
  apply bind_bad in H. destruct H as [H|([b2 vs] & _ & H)]; [|destruct (ok_bad _ _ H)]. rewrite Hv in H.
  exists (skipn (S n) toks). split; [exists hd, w; auto|]. apply (Hl b1); [exact R1|exists (header_tokens hd); exact T|exact H].
Qed.

Theorem parse_bad k fuel b toks : repr b toks -> ~ In (str "[") toks -> short toks -> length toks < fuel ->
  parse dn fuel b (empty_problem dn) = bad k -> if k then program_stops dn toks else reads_for_ever dn toks.
Proof.
  intros HR Hb Hs Hfuel H. unfold parse in H. rewrite (repr_first _ _ HR) in H.
  destruct (read_objective_type (tk toks 0)) as [ty|] eqn:Ety; cbn [or_error pbind] in H; [|destruct (error_bad _ _ H)].
  destruct toks as [|w toks]; [discriminate Ety|]. change (tk (w :: toks) 0) with w in Ety.
  destruct (pop_front_ok _ _ HR) as [b1 [E1 R1]]. rewrite E1 in H. cbn [or_abort pbind tl] in *.
  assert (Hb1 : ~ In (str "[") toks) by (intros K; apply Hb; right; exact K). pose proof (Forall_inv_tail Hs) as Hf1.
  destruct (label_read toks) as (lb & Hlb & Ln & T1 & Nl). rewrite (repr_first _ _ R1), (repr_second _ _ R1), <- Ln in H.
  assert (HL : exists b2 t1, pop_read (length (label_tokens lb)) b1 = P_ok b2 /\ repr b2 t1 /\ toks = label_tokens lb ++ t1).
  { destruct lb as [x|]; cbn [label_tokens length pop_read] in *.
    - destruct (pop_ok 2 b1 toks R1) as [b2 [E2 R2]]; [lia|]. rewrite E2. exists b2, (skipn 2 toks). split; [reflexivity|]. split; [exact R2|exact T1].
    - exists b1, toks. split; [reflexivity|]. split; [exact R1|reflexivity]. }
  destruct HL as (b2 & t1 & E2 & R2 & T2); rewrite E2 in H; cbn [pbind] in H.
  assert (Hop : opening (w :: toks) t1) by (exists w, ty, lb; split; [exact Ety|]; split; [exact Hlb|]; split; [intros E; rewrite T2 in Nl; rewrite E in Nl; exact (Nl eq_refl)|rewrite T2; reflexivity]).
  assert (Nlb : keyword (word t1) = false -> lb = None -> nth 1 t1 [] <> str ":").
  { intros Hk ->. cbn [label_tokens length app] in *. rewrite <- T2. unfold try_read_objective_label in Ln. rewrite T2 in Ln. unfold tk in Ln. change (is_keyword (nth 0 t1 [])) with (keyword (word t1)) in Ln. rewrite Hk in Ln.
    rewrite T2. intros E. rewrite E in Ln. discriminate Ln. }
  assert (Hb2 : ~ In (str "[") t1) by (rewrite T2 in Hb1; exact (no_in_app _ _ _ Hb1)).
  assert (Hf2 : short t1) by (rewrite T2 in Hf1; exact (short_app _ _ Hf1)).
  assert (L1 : length t1 < fuel) by (rewrite T2 in Hfuel; cbn [length] in Hfuel; rewrite app_length in Hfuel; lia).
  apply bind_bad in H. destruct H as [H|([b3 p3] & E3 & H)].
  { destruct (objective_bad _ _ _ _ _ R2 Hb2 Hf2 L1 H) as (-> & St & Kt). rewrite T2. exact (Stop_objective dn w ty lb t1 Ety Hlb (Nlb Kt) St). }
  destruct (objective_loop_sound dn _ _ _ _ _ _ E3 R2 Hb2) as (obj & t2 & T3 & Hobj & R3 & K3 & P3).
  assert (Hf3 : short t2) by (rewrite T3 in Hf2; exact (short_app _ _ Hf2)).
  assert (L2 : length t2 < fuel) by (rewrite T3, app_length in L1; lia).
  assert (Hto : to_constraints dn (w :: toks) obj t2) by (exists t1; split; [exact Hop|]; split; [exact T3|]; split; [exact Hobj|exact K3]).
  set (names0 := map t_var (item_vars obj)) in *.
  assert (V3 : rw_vars p3 = seen_vars names0).
  { rewrite P3. rewrite (objective_closed dn obj [] _ (firsts (map t_var (item_vars ([] ++ obj)) ++ [])) []); [reflexivity|eapply items_named; exact Hobj|reflexivity|reflexivity|reflexivity]. }
  match type of H with pbind ?a _ = _ => replace a with (match read_subject_to (tk t2 0) (tk t2 1) (tk t2 2) with O => P_ok (b3, p3) | S n0 => let? b := or_abort (pop (S n0) b3) in constraints_loop dn fuel 0 b p3 end) in H
    by (rewrite (repr_first _ _ R3), (repr_second _ _ R3), (repr_third _ _ R3); destruct (read_subject_to (tk t2 0) (tk t2 1) (tk t2 2)); reflexivity) end.
  (* the constraints *)
  assert (S4 : (k = true /\ program_stops dn (w :: toks)) \/ exists rows t3 b4 (p4 : raw_problem), repr b4 t3 /\ keyword (word t3) = true /\ constraints_section dn rows t2 t3 /\
     opt (fun s => exists a, rows_ok dn (snd s) a) rows /\ rw_vars p4 = vars_of (names_in obj rows) (fun _ => fresh) /\ (exists front, t2 = front ++ t3) /\
     (let? (b, p) := section_ (read_bounds (first b4) (second b4)) (bounds_loop dn fuel) b4 p4 in
      let? (b, p) := section_ (read_binary (first b) (second b)) (names_loop set_boolean_variable fuel) b p in
      let? (b, p) := section_ (read_general (first b) (second b)) (names_loop set_integer_variable fuel) b p in
      match read_end (first b) (second b) with
      | O => P_error bad_end
      | n => let? b := or_abort (pop n b) in match first b with [] => P_ok p | _ => P_error bad_end_of_file end
      end) = bad k).
  { destruct (read_subject_to (tk t2 0) (tk t2 1) (tk t2 2)) as [|n] eqn:En; cbn [pbind] in H.
    - right. exists None, t2, b3, p3. split; [exact R3|]. split; [exact K3|]. split; [split; [reflexivity|exact (proj1 (no_subject t2 K3) En)]|]. split; [exact I|].
      split; [rewrite V3, seen_vars_of; unfold names_in; cbn [section_list flat_map]; rewrite app_nil_r; reflexivity|]. split; [exists []; reflexivity|exact H].
    - destruct (subject_read' t2 n K3 En) as (h & Hh & T4 & Hcol).
      assert (Ln3 : S n <= 3) by (unfold read_subject_to, colon in En; repeat match type of En with context[if ?c then _ else _] => destruct c end; lia).
      destruct (pop_ok (S n) b3 t2 R3) as [b3' [Ep R3']]; [lia|]. rewrite Ep in H. cbn [or_abort pbind] in H.
      set (more := skipn (S n) t2) in *.
      assert (Hfm : short more) by (rewrite T4 in Hf3; exact (short_app _ _ Hf3)). assert (Lm : length more <= fuel) by (rewrite T4, app_length in L2; lia).
      assert (Hto' : to_constraints dn (w :: toks) obj (header_tokens h ++ more)) by (rewrite <- T4; exact Hto).
      apply bind_bad in H. destruct H as [H|([b4 p4] & E4 & H)].
      + destruct (rows_bad _ _ _ _ _ _ R3' Hfm Lm H) as (-> & ks & part & T5 & Hks & Kp & Hp). left. split; [reflexivity|]. rewrite T5 in Hto'. refine (Stop_constraint dn _ obj h ks part Hto' Hh Hks _ Kp Hp). rewrite <- T5. exact Hcol.
      + destruct (rows_sound dn _ _ _ _ _ _ _ E4 R3') as [R4|(ks & t3 & T5 & Hks & R4 & K5 & P4)].
        * exfalso. unfold read_bounds, read_binary, read_general, read_end in H. rewrite (repr_first _ _ R4), (repr_second _ _ R4) in H. cbn in H.
          rewrite (repr_first _ _ R4), (repr_second _ _ R4) in H. cbn in H. rewrite (repr_first _ _ R4), (repr_second _ _ R4) in H. cbn in H.
          rewrite (repr_first _ _ R4), (repr_second _ _ R4) in H. cbn in H. exact (error_bad _ _ H).
        * right. exists (Some (h, ks)), t3, b4, p4. split; [exact R4|]. split; [exact K5|]. split; [split; [exact Hh|exists more; split; [exact T4|split; [exact Hcol|split; [exact T5|split; [exact Hks|exact K5]]]]]|].
          split; [exists t3; exact Hks|]. split; [|split; [exists (header_tokens h ++ flat_map row_tokens ks); rewrite <- app_assoc, <- T5; exact T4|exact H]].
          rewrite P4, (rows_closed dn ks 0 p3 names0 (names_in obj (Some (h, ks))) [] V3); [reflexivity|]. unfold names_in. rewrite app_nil_r. reflexivity. }
  destruct S4 as [[-> S4]|(rows & t3 & b4 & p4 & R4 & K4 & Hrows & Hrk & V4 & [fr4 T4] & H4)]; [exact S4|]. clear H. rename H4 into H.
  assert (Hf4 : short t3) by (rewrite T4 in Hf3; exact (short_app _ _ Hf3)).
  assert (L4 : length t3 < fuel) by (rewrite T4, app_length in L2; lia).
  set (N := names_in obj rows) in *. assert (Nd : NoDup N) by apply firsts_NoDup.
  assert (Hto3 : to_bounds dn (w :: toks) N t3) by (exists obj, rows, t2; split; [exact Hto|]; split; [exact Hrows|reflexivity]).
  (* the bounds *)
  apply bind_bad in H. destruct H as [H|([b5 p5] & E5 & H)].
  { destruct (section_bad k in_bounds N (bounds_loop dn fuel) (fun more => k = true /\ bound_stop dn N more) b4 p4 _ t3 eq_refl R4 V4) with (2 := H) as (more & An & -> & St); [|exact (Stop_bound dn _ N t3 more Hto3 An St)].
    intros bb more Rm [fr T] El. refine (bounds_bad _ _ _ _ _ _ Nd Rm _ _ El); [rewrite T in Hf4; exact (short_app _ _ Hf4)|rewrite T, app_length in L4; lia]. }
  destruct (section_read in_bounds line_tokens (line_ok dn N) (line_step dn) N (bounds_loop dn fuel) eq_refl
    (fun b h b' vs' toks E R => bounds_sound dn fuel b N h b' vs' toks Nd E R) _ _ _ _ _ _ V4 E5 R4 K4) as (s5 & t4 & [fr5 T5] & Hs5 & R5 & K5 & [h5 V5]).
  assert (Hto4 : to_binary dn (w :: toks) N t4) by (exists s5, t3; split; [exact Hto3|exact Hs5]).
  assert (L5 : length t4 < fuel) by (rewrite T5, app_length in L4; lia).
  (* the binary variables *)
  apply bind_bad in H. destruct H as [H|([b6 p6] & E6 & H)].
  { destruct (section_bad k in_binary N (names_loop set_boolean_variable fuel) (fun more => k = false /\ Forall (fun nm => In nm N /\ keyword nm = false) more /\ In [] N) b5 p5 _ t4 eq_refl R5 V5) with (2 := H) as (more & An & -> & Hm & H0);
      [|exact (Runs_binary dn _ N t4 more Hto4 An Hm H0)].
    intros bb more Rm [fr T] El. refine (names_bad k _ (fun _ => mk_variable_value 0 1 vt_binary) bad_binary N _ _ fuel _ _ _ Rm _ El);
      [intros nm h; apply set_boolean_complete; exact Nd|intros nm h; apply set_boolean_unknown|rewrite T, app_length in L5; lia]. }
  destruct (section_read in_binary (fun nm => [nm]) (fun nm => In nm N) _ N (names_loop set_boolean_variable fuel) eq_refl
    (names_sound set_boolean_variable (fun _ => mk_variable_value 0 1 vt_binary) N (fun nm h vs => set_boolean_sound N nm h vs Nd) fuel) _ _ _ _ _ _ V5 E6 R5 K5) as (s6 & t5 & [fr6 T6] & Hs6 & R6 & K6 & [h6 V6]).
  assert (Hto5 : to_general dn (w :: toks) N t5) by (exists s6, t4; split; [exact Hto4|exact Hs6]).
  assert (L6 : length t5 < fuel) by (rewrite T6, app_length in L5; lia).
  (* the general variables *)
  apply bind_bad in H. destruct H as [H|([b7 p7] & E7 & H)].
  { destruct (section_bad k in_general N (names_loop set_integer_variable fuel) (fun more => k = false /\ Forall (fun nm => In nm N /\ keyword nm = false) more /\ In [] N) b6 p6 _ t5 eq_refl R6 V6) with (2 := H) as (more & An & -> & Hm & H0);
      [|exact (Runs_general dn _ N t5 more Hto5 An Hm H0)].
    intros bb more Rm [fr T] El. refine (names_bad k _ (fun v => mk_variable_value (v_min v) (v_max v) vt_general) bad_general N _ _ fuel _ _ _ Rm _ El);
      [intros nm h; apply set_integer_complete; exact Nd|intros nm h; apply set_integer_unknown|rewrite T, app_length in L6; lia]. }
  (* the end *)
  exfalso. destruct (read_end (first b7) (second b7)) as [|n] eqn:E8; [exact (error_bad _ _ H)|].
  destruct (section_sound (D := D) _ (fun nm => [nm]) (fun nm => In nm N) _ N (names_loop set_integer_variable fuel)
    (names_sound set_integer_variable (fun v => mk_variable_value (v_min v) (v_max v) vt_general) N (fun nm h vs => set_integer_sound N nm h vs Nd) fuel) _ _ _ _ _ _ V6 E7 R6) as (gen & t6 & T7 & Hgen & R7 & K7 & P7).
  assert (Ln8 : S n <= 2) by (unfold read_end, read_section, colon in E8; destruct (any_of (first b7) [str "end"]); [|discriminate E8]; destruct (are_equal (second b7) (str ":")); lia).
  destruct (pop_ok (S n) b7 t6 R7) as [b8 [E9 _]]; [lia|]. rewrite E9 in H. cbn [or_abort pbind] in H. destruct (first b8); [exact (ok_bad _ _ H)|exact (error_bad _ _ H)].
Qed.
Theorem make_problem_bad k fuel t : readable t -> ends_plain t -> ~ In (str "[") (file_tokens t) -> short (file_tokens t) -> length (file_tokens t) < fuel ->
  make_problem dn fuel t = bad k -> if k then program_stops dn (file_tokens t) else reads_for_ever dn (file_tokens t).
Proof.
  intros H1 H2 H3 H4 H5 H. destruct (buffer_tokens t H1 H2) as [b [E R]]. unfold make_problem in H. rewrite E in H. cbn [or_abort pbind] in H.
  exact (parse_bad k fuel b _ R H3 H4 H5 H).
Qed.
End Stops.
