(** A file that has a reading is accepted: the bounds, the lists of names, the whole file. *)
From Coq Require Import Ascii String Lia.
From Verif Require Import Base Problem_model ResultIO_model Chars_spec Lexer_model Lexer_spec Lexer_proofs Parser_model Parser_spec
  Parser_proofs Parser_proofs2 Parser_proofs3 Parser_proofs4 Parser_proofs5 Accept_spec Accept_proofs Accept_proofs2 Accept_proofs3 Accept_proofs4.
Open Scope string_scope.
Open Scope list_scope.
Open Scope nat_scope.

Section Complete.
Context {D : Type} (dn : dops D).
Local Notation raw_problem := (raw_problem (D := D)).
Local Notation number := (number dn).
Local Notation fine := (Forall (usual_word dn)).

(** ** Bounds *)
Lemma signed_start_token v r : fine (signed_tokens v) -> is_num dn (s_num v) -> sum_token (tk (signed_tokens v ++ r) 0) /\ is_keyword (tk (signed_tokens v ++ r) 0) = false.
Proof.
  intros H3 Hn. destruct v as [[[]|] n]; unfold signed_tokens, tk in *; cbn [s_sign s_num sign_tokens app nth] in *.
  - split; [right; left; reflexivity|reflexivity].
  - split; [right; right; reflexivity|reflexivity].
  - split; [left; exact (num_is_plain dn _ (Forall_inv H3) Hn)|]. apply (num_facts dn _ (Forall_inv H3) Hn).
Qed.
Lemma read_signed v : fine (signed_tokens v) -> is_num dn (s_num v) -> exists d, read_real1 dn (s_num v) = P_ok (Some d) /\ number_of dn (Some (s_num v)) = d.
Proof.
  intros H3 Hn. assert (Hu : usual_word dn (s_num v)) by (destruct v as [[[]|] n]; unfold signed_tokens in H3; cbn [s_sign s_num sign_tokens app] in *; [exact (Forall_inv (Forall_inv_tail H3))|exact (Forall_inv (Forall_inv_tail H3))|exact (Forall_inv H3)]).
  rewrite (real1_complete dn _ (proj1 Hu)). unfold is_num in Hn. unfold number_of. destruct (number (s_num v)) as [d|]; [|congruence]. exists d. split; reflexivity.
Qed.
Lemma left_complete lo op sp nm r : fine (signed_tokens lo) -> is_num dn (s_num lo) -> plain nm ->
  let toks := signed_tokens lo ++ op_tokens op sp ++ nm :: r in
  read_left_bound dn (tk toks 0) (tk toks 1) (tk toks 2) (tk toks 3) =
    P_ok (Some (line_number dn lo, length (signed_tokens lo ++ op_tokens op sp))).
Proof.
  intros H3 Hlo Hnm toks. pose proof (read_op_gen op sp (nm :: r) (plain_stops _ Hnm)) as Hop. destruct (read_signed lo H3 Hlo) as (d & Ed & En).
  pose proof (signed_start_token lo [] H3 Hlo) as [Hst _]. unfold line_number. rewrite En.
  unfold read_left_bound. subst toks. destruct lo as [[[]|] n]; unfold signed_tokens in *; cbn [s_sign s_num sign_tokens app] in *.
  - change (tk (str "+" :: n :: op_tokens op sp ++ nm :: r) 0) with (str "+").
    change (tk (str "+" :: n :: op_tokens op sp ++ nm :: r) 1) with n.
    change (tk (str "+" :: n :: op_tokens op sp ++ nm :: r) 2) with (tk (op_tokens op sp ++ nm :: r) 0).
    change (tk (str "+" :: n :: op_tokens op sp ++ nm :: r) 3) with (tk (op_tokens op sp ++ nm :: r) 1).
    change (text_eqb (str "+") (str "+") || text_eqb (str "+") (str "-")) with true. cbv iota.
    rewrite Ed. cbn [pbind bind]. rewrite Hop. cbn [bind with_sign length]. rewrite Nat.add_comm. reflexivity.
  - change (tk (str "-" :: n :: op_tokens op sp ++ nm :: r) 0) with (str "-").
    change (tk (str "-" :: n :: op_tokens op sp ++ nm :: r) 1) with n.
    change (tk (str "-" :: n :: op_tokens op sp ++ nm :: r) 2) with (tk (op_tokens op sp ++ nm :: r) 0).
    change (tk (str "-" :: n :: op_tokens op sp ++ nm :: r) 3) with (tk (op_tokens op sp ++ nm :: r) 1).
    change (text_eqb (str "-") (str "+") || text_eqb (str "-") (str "-")) with true. cbv iota.
    rewrite Ed. cbn [pbind bind]. rewrite Hop. cbn [bind with_sign length]. rewrite Nat.add_comm. reflexivity.
  - change (tk (n :: op_tokens op sp ++ nm :: r) 0) with n.
    change (tk (n :: op_tokens op sp ++ nm :: r) 1) with (tk (op_tokens op sp ++ nm :: r) 0).
    change (tk (n :: op_tokens op sp ++ nm :: r) 2) with (tk (op_tokens op sp ++ nm :: r) 1).
    pose proof (plain_not_sign _ (num_is_plain dn _ (Forall_inv H3) Hlo)) as [Q1 Q2].
    rewrite (eqb_str n "+"), (eqb_str n "-") by assumption. cbn [orb].
    rewrite Ed. cbn [pbind bind]. rewrite Hop. cbn [bind with_sign length]. rewrite Nat.add_comm. reflexivity.
Qed.
Lemma right_complete v op sp r : fine (signed_tokens v) -> is_num dn (s_num v) ->
  let toks := op_tokens op sp ++ signed_tokens v ++ r in
  read_right_bound dn (tk toks 0) (tk toks 1) (tk toks 2) (tk toks 3) =
    P_ok (Some (line_number dn v, length (op_tokens op sp ++ signed_tokens v))).
Proof.
  intros H3 Hv toks. pose proof (signed_start_token v r H3 Hv) as [Hst _]. destruct (sum_token_facts _ Hst) as (_ & _ & _ & _ & Hsp).
  pose proof (read_op_gen op sp (signed_tokens v ++ r) Hsp) as Hop. destruct (read_signed v H3 Hv) as (d & Ed & En).
  unfold read_right_bound, line_number. subst toks. rewrite Hop, En.
  assert (Hab : (if Nat.eqb (length (op_tokens op sp)) 1
                 then (tk (op_tokens op sp ++ signed_tokens v ++ r) 1, tk (op_tokens op sp ++ signed_tokens v ++ r) 2)
                 else (tk (op_tokens op sp ++ signed_tokens v ++ r) 2, tk (op_tokens op sp ++ signed_tokens v ++ r) 3))
                = (tk (signed_tokens v ++ r) 0, tk (signed_tokens v ++ r) 1)) by (destruct op, sp; reflexivity).
  rewrite Hab, app_length. destruct v as [[[]|] n]; unfold signed_tokens, tk in *; cbn [s_sign s_num sign_tokens app nth length with_sign] in *.
  - change (text_eqb (str "+") (str "+") || text_eqb (str "+") (str "-")) with true. cbv iota. rewrite Ed. reflexivity.
  - change (text_eqb (str "-") (str "+") || text_eqb (str "-") (str "-")) with true. cbv iota. rewrite Ed. reflexivity.
  - pose proof (plain_not_sign _ (num_is_plain dn _ (Forall_inv H3) Hv)) as [Q1 Q2]. rewrite (eqb_str n "+"), (eqb_str n "-") by assumption. cbn [orb]. rewrite Ed. reflexivity.
Qed.
Definition good_name (nm : text) : Prop := is_name nm /\ keyword nm = false.
Definition line_bound (l : bound_line) : bound := mk_bound (line_low dn l) (line_high dn l) (line_name l) (length (line_tokens l)).
Lemma op_start op sp r : starts_with_operator (tk (op_tokens op sp ++ r) 0) = true.
Proof. destruct op, sp; reflexivity. Qed.
Lemma line_len l : 1 <= length (line_tokens l) < 10.
Proof.
  destruct l as [nm|nm op sp v|v op sp nm w|v1 op1 sp1 nm op2 sp2 v2]; cbn [line_tokens length]; repeat (rewrite app_length; cbn [length]).
  - lia.
  - destruct op, sp, v as [[[]|] ?]; cbn; lia.
  - destruct op, sp, v as [[[]|] ?]; cbn; lia.
  - destruct op1, sp1, v1 as [[[]|] ?]; cbn; destruct op2, sp2, v2 as [[[]|] ?]; cbn; lia.
Qed.
Lemma read_line N l t r : line_ok dn N l -> good_name (line_name l) -> fine (line_tokens l) -> (forall i, i < 10 -> t i = tk (line_tokens l ++ r) i) ->
  starts_with_operator (tk r 0) = false -> read_bound dn t = P_ok (Some (line_bound l)).
Proof.
  intros (Hin & Hc & Hlow & Hhigh & Hl) [Hnm Hnk] H3 Ht Hr. destruct (is_name_plain _ Hnm) as [Hp Hnl].
  assert (Hrd : read_name (line_name l) = Some (line_name l)) by (unfold read_name; change is_char_name with char_name; rewrite Hc; reflexivity).
  assert (Left : forall lo op sp T, line_tokens l ++ r = signed_tokens lo ++ op_tokens op sp ++ line_name l :: T -> fine (signed_tokens lo) -> is_num dn (s_num lo) -> signed_start lo ->
    let n := length (signed_tokens lo ++ op_tokens op sp) in
    n <= 4 /\ starts_with_number (t 0) = true /\ read_left_bound dn (t 0) (t 1) (t 2) (t 3) = P_ok (Some (line_number dn lo, n)) /\ t n = line_name l /\ forall j, n + S j < 10 -> t (n + S j) = tk T j).
  { intros lo op sp T ET F3 Hlo Hs n. rewrite ET in Ht.
    assert (Hlen : n <= 4) by (unfold n; rewrite app_length; destruct lo as [[[]|] ?], op, sp; cbn; lia). split; [exact Hlen|].
    assert (Htn : forall j, n + j < 10 -> t (n + j) = tk (line_name l :: T) j) by (intros j Hj; rewrite Ht by exact Hj; rewrite app_assoc; apply tk_app_plus).
    split. { rewrite Ht by lia. destruct lo as [[[]|] m]; [reflexivity|reflexivity|]. apply Hs. reflexivity. }
    split. { rewrite !Ht by lia. exact (left_complete lo op sp (line_name l) T F3 Hlo Hp). }
    split. { rewrite <- (Nat.add_0_r n) at 1. rewrite Htn by lia. reflexivity. }
    intros j Hj. rewrite Htn by exact Hj. reflexivity. }
  unfold line_bound. destruct l as [nm|nm op sp v|v op sp nm w|v1 op1 sp1 nm op2 sp2 v2]; cbn [line_tokens line_name line_low line_high] in *.
  - unfold read_bound. rewrite !Ht by lia. unfold tk in *. cbn [app nth]. change number_like with starts_with_number in Hl. change name_like with starts_with_name in Hnl. rewrite Hl, Hnl, Hrd, Hr. reflexivity.
  - destruct Hl as [Hl Hv]. unfold read_bound. rewrite !Ht by lia. cbn [app]. rewrite <- app_assoc. set (T := op_tokens op sp ++ signed_tokens v ++ r).
    change (tk (nm :: T) 0) with nm. change (tk (nm :: T) 1) with (tk T 0). change (tk (nm :: T) 2) with (tk T 1).
    change (tk (nm :: T) 3) with (tk T 2). change (tk (nm :: T) 4) with (tk T 3).
    change number_like with starts_with_number in Hl. change name_like with starts_with_name in Hnl. rewrite Hl, Hnl, Hrd. unfold T at 1. rewrite op_start. unfold T.
    rewrite (right_complete v op sp r); [reflexivity| |exact Hv]. exact (fine_app dn _ _ (Forall_inv_tail H3)).
  - destruct Hl as (Hs & Hv & Hw). destruct (Left v op sp (w :: r)) as (L1 & L2 & L3 & L4 & L5); [rewrite <- !app_assoc; reflexivity|exact (fine_left dn _ _ H3)|exact Hv|exact Hs|].
    unfold read_bound. rewrite L2, L3. cbn [pbind]. rewrite L4, Hrd. set (n := length (signed_tokens v ++ op_tokens op sp)) in *.
    replace (S n) with (n + 1) by lia. rewrite L5 by lia. change (tk (w :: r) 0) with w. change operator_like with starts_with_operator in Hw. rewrite Hw. cbn [negb].
    f_equal. f_equal. f_equal. unfold n. repeat (rewrite app_length; cbn [length]). lia.
  - destruct Hl as (Hs & Hv1 & Hv2 & Hgt). set (T := op_tokens op2 sp2 ++ signed_tokens v2 ++ r).
    destruct (Left v1 op1 sp1 T) as (L1 & L2 & L3 & L4 & L5); [unfold T; repeat (rewrite <- app_assoc || cbn [app]); reflexivity|exact (fine_left dn _ _ H3)|exact Hv1|exact Hs|].
    unfold read_bound. rewrite L2, L3. cbn [pbind]. rewrite L4, Hrd. set (n := length (signed_tokens v1 ++ op_tokens op1 sp1)) in *.
    replace (S n) with (n + 1) by lia. replace (n + 1 + 1) with (n + 2) by lia. replace (n + 1 + 2) with (n + 3) by lia. replace (n + 1 + 3) with (n + 4) by lia.
    rewrite !L5 by lia. unfold T at 1. rewrite op_start. cbn [negb]. unfold T.
    rewrite (right_complete v2 op2 sp2 r); [|exact (fine_app dn _ _ (Forall_inv_tail (fine_app dn _ _ (fine_app dn _ _ H3))))|exact Hv2]. cbn [pbind]. rewrite Hgt.
    f_equal. f_equal. f_equal. unfold n. repeat (rewrite app_length; cbn [length]). lia.
Qed.
Lemma set_line_complete N h l : NoDup N -> line_ok dn N l -> set_bound_variable dn (line_bound l) (vars_of N h) = P_ok (vars_of N (line_step dn h l)).
Proof.
  intros Hd (Hin & _ & Hlow & Hhigh & _). unfold set_bound_variable, get_variable, line_bound. cbn [bd_name bd_min bd_max vars_of v_names]. rewrite (name_index_in _ _ Hin). cbn [or_error pbind].
  assert (E1 : bound_min dn (line_low dn l) = P_ok (low_of dn (line_low dn l))).
  { unfold bound_min, low_of, int_ok, int_of in *. destruct (d_is_ninf dn (line_low dn l)); [reflexivity|]. destruct Hlow as [Hlow|Hlow]; [discriminate|]. destruct (d_int dn (line_low dn l)); [reflexivity|congruence]. }
  assert (E2 : bound_max dn (line_high dn l) = P_ok (high_of dn (line_high dn l))).
  { unfold bound_max, high_of, int_ok, int_of in *. destruct (d_is_pinf dn (line_high dn l)); [reflexivity|]. destruct Hhigh as [Hhigh|Hhigh]; [discriminate|]. destruct (d_int dn (line_high dn l)); [reflexivity|congruence]. }
  rewrite E1. cbn [pbind]. rewrite E2. cbn [pbind]. change (mk_variables N (map h N)) with (vars_of N h). rewrite (set_value_ok N h _ _ Hd Hin). reflexivity.
Qed.
Lemma line_first N l r : line_ok dn N l -> good_name (line_name l) -> fine (line_tokens l) -> sum_token (tk (line_tokens l ++ r) 0) /\ is_keyword (tk (line_tokens l ++ r) 0) = false.
Proof.
  intros (_ & _ & _ & _ & Hl) [Hnm Hnk] H3. destruct (is_name_plain _ Hnm) as [Hp _].
  destruct l as [nm|nm op sp v|v op sp nm w|v1 op1 sp1 nm op2 sp2 v2]; cbn [line_tokens line_name] in *.
  - split; [left; exact Hp|exact Hnk].
  - split; [left; exact Hp|exact Hnk].
  - rewrite <- app_assoc. apply signed_start_token; [exact (fine_left dn _ _ H3)|apply Hl].
  - rewrite <- app_assoc. apply signed_start_token; [exact (fine_left dn _ _ H3)|apply Hl].
Qed.
Lemma keyword_operator t : is_keyword t = true -> starts_with_operator t = false.
Proof.
  intros K. unfold is_keyword in K. apply existsb_exists in K. destruct K as [k [K1 K2]]. apply are_equal_iff in K2. destruct t as [|c t]; [reflexivity|].
  destruct (starts_with_operator (c :: t)) eqn:E; [|reflexivity]. exfalso.
  assert (Hc : forall c, (if starts_with_operator [c] then Ascii.eqb (tolower c) c else true) = true) by (apply all_chars; vm_compute; reflexivity).
  specialize (Hc c). change (starts_with_operator [c]) with (starts_with_operator (c :: t)) in Hc. rewrite E in Hc. apply Ascii.eqb_eq in Hc. cbn [map] in K2. rewrite Hc in K2.
  destruct k as [|k0 k]; [discriminate K2|]. cbn [map] in K2. assert (Ek : c = tolower k0) by congruence. clear K2 Hc. subst c.
  cbn in K1. repeat (destruct K1 as [K1|K1]; [injection K1 as <- _; discriminate E|]). destruct K1.
Qed.
Lemma bounds_complete : forall ls fuel b h N r, NoDup N -> Forall (line_ok dn N) ls -> Forall (fun l => good_name (line_name l)) ls ->
  repr b (flat_map line_tokens ls ++ r) -> fine (flat_map line_tokens ls ++ r) -> is_keyword (tk r 0) = true -> length ls <= fuel ->
  exists b', bounds_loop dn fuel b (vars_of N h) = P_ok (b', vars_of N (fold_left (line_step dn) ls h)) /\ repr b' r.
Proof.
  induction ls as [|l ls IH]; intros fuel b h N r Hd Hok Hgd HR H3 Hk Hf.
  { exists b. split; [|exact HR]. cbn [flat_map app] in HR. pose proof (repr_first _ _ HR) as E. destruct fuel; cbn [bounds_loop]; rewrite E, Hk; reflexivity. }
  inversion Hok as [|? ? O1 O2]; subst. inversion Hgd as [|? ? G1 G2]; subst. destruct fuel as [|fuel]; [cbn in Hf; lia|]. cbn [length flat_map] in *. rewrite <- app_assoc in *.
  destruct (line_first N l (flat_map line_tokens ls ++ r) O1 G1 (fine_left dn _ _ H3)) as [_ K]. cbn [bounds_loop]. rewrite (repr_first _ _ HR), K.
  assert (No : starts_with_operator (tk (flat_map line_tokens ls ++ r) 0) = false).
  { destruct ls as [|l2 ls]; [exact (keyword_operator _ Hk)|]. cbn [flat_map]. rewrite <- app_assoc. inversion O2 as [|? ? O3 _]; subst. inversion G2 as [|? ? G3 _]; subst. cbn [flat_map] in H3. rewrite <- app_assoc in H3.
    destruct (line_first N l2 (flat_map line_tokens ls ++ r) O3 G3 (fine_left dn _ _ (fine_app dn _ _ H3))) as [S2 _]. apply (sum_token_facts _ S2). }
  rewrite (read_line N l (token_at b) (flat_map line_tokens ls ++ r) O1 G1 (fine_left dn _ _ H3)); [|intros i Hi; apply token_at_ok; assumption|exact No]. cbn [pbind or_error].
  rewrite (set_line_complete N h l Hd O1). cbn [pbind]. change (bd_read (line_bound l)) with (length (line_tokens l)).
  destruct (pop_app _ _ _ HR (line_len l)) as [b1 [E1 R1]]. rewrite E1. cbn [or_abort pbind].
  destruct (IH fuel b1 (line_step dn h l) N r Hd O2 G2 R1 (fine_app dn _ _ H3) Hk ltac:(lia)) as [b2 [E2 R2]]. exists b2. split; [exact E2|exact R2].
Qed.
(** ** Lists of names *)
Lemma names_complete (set : text -> variables -> pres variables) (f : variable_value -> variable_value) N :
  (forall nm h, In nm N -> set nm (vars_of N h) = P_ok (vars_of N (fun x => if text_eqb x nm then f (h x) else h x))) ->
  forall l fuel b h r, Forall (fun nm => In nm N) l -> Forall good_name l -> repr b (flat_map (fun nm => [nm]) l ++ r) -> is_keyword (tk r 0) = true -> length l <= fuel ->
  exists b', names_loop set fuel b (vars_of N h) = P_ok (b', vars_of N (fold_left (fun h nm x => if text_eqb x nm then f (h x) else h x) l h)) /\ repr b' r.
Proof.
  intros Hset. induction l as [|nm l IH]; intros fuel b h r Hok Hgd HR Hk Hf.
  { exists b. split; [|exact HR]. cbn [flat_map app] in HR. pose proof (repr_first _ _ HR) as E. destruct fuel; cbn [names_loop]; rewrite E, Hk; reflexivity. }
  inversion Hok as [|? ? O1 O2]; subst. inversion Hgd as [|? ? G1 G2]; subst. destruct fuel as [|fuel]; [cbn in Hf; lia|]. cbn [length flat_map app] in *.
  cbn [names_loop]. rewrite (repr_first _ _ HR). change (tk (nm :: flat_map (fun nm => [nm]) l ++ r) 0) with nm. change is_keyword with keyword. rewrite (proj2 G1), (Hset nm h O1). cbn [pbind].
  destruct (pop_front_ok _ _ HR) as [b1 [E1 R1]]. rewrite E1. cbn [or_abort pbind tl] in *.
  destruct (IH fuel b1 (fun x => if text_eqb x nm then f (h x) else h x) r O2 G2 R1 Hk ltac:(lia)) as [b2 [E2 R2]]. exists b2. split; [exact E2|exact R2].
Qed.
Lemma set_boolean_complete N nm h : NoDup N -> In nm N -> set_boolean_variable nm (vars_of N h) = P_ok (vars_of N (fun x => if text_eqb x nm then mk_variable_value 0 1 vt_binary else h x)).
Proof.
  intros Hd Hin. unfold set_boolean_variable, get_variable. cbn [vars_of v_names]. rewrite (name_index_in _ _ Hin). cbn [or_error pbind].
  change (mk_variables N (map h N)) with (vars_of N h). rewrite (set_value_ok N h _ _ Hd Hin). reflexivity.
Qed.
Lemma set_integer_complete N nm h : NoDup N -> In nm N ->
  set_integer_variable nm (vars_of N h) = P_ok (vars_of N (fun x => if text_eqb x nm then mk_variable_value (v_min (h x)) (v_max (h x)) vt_general else h x)).
Proof.
  intros Hd Hin. unfold set_integer_variable, get_variable. cbn [vars_of v_names]. rewrite (name_index_in _ _ Hin). cbn [or_error pbind].
  change (mk_variables N (map h N)) with (vars_of N h). rewrite (set_value_ok N h _ _ Hd Hin). reflexivity.
Qed.
End Complete.
