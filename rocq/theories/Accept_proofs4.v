(** A file that has a reading is accepted. *)
From Coq Require Import Ascii String Lia.
From Verif Require Import Base Problem_model ResultIO_model Chars_spec Lexer_model Lexer_spec Lexer_proofs Parser_model Parser_spec
  Parser_proofs Parser_proofs2 Parser_proofs3 Parser_proofs4 Parser_proofs5 Accept_spec Accept_proofs Accept_proofs2 Accept_proofs3.
Open Scope string_scope.
Open Scope list_scope.
Open Scope nat_scope.

Lemma name_like_plain t : name_like t = true -> plain t.
Proof. intros H. destruct t as [|c r]; [discriminate|]. exists c, r. split; [reflexivity|]. unfold sum_char. cbn in H. change char_name with is_char_name in H. rewrite H. reflexivity. Qed.

Section Complete.
Context {D : Type} (dn : dops D).
Local Notation raw_problem := (raw_problem (D := D)).
Local Notation number := (number dn).
Local Notation coefficient := (coefficient dn).
Local Notation fine := (Forall (usual_word dn)).
Lemma fine_tk toks i : fine toks -> length (tk toks i) <> 320.
Proof.
  intros H. unfold tk. destruct (nth_in_or_default i toks []) as [K|K]; [|rewrite K; discriminate]. rewrite Forall_forall in H. exact (proj1 (H _ K)).
Qed.
Lemma fine_app a b : fine (a ++ b) -> fine b.
Proof. rewrite Forall_app. tauto. Qed.
Lemma fine_left a b : fine (a ++ b) -> fine a.
Proof. rewrite Forall_app. tauto. Qed.

Lemma num_facts t : usual_word dn t -> is_num dn t -> name_like t = true /\ keyword t = false.
Proof.
  intros [_ Hscan]. unfold is_num, number. destruct (same_word t (str "inf")) eqn:E.
  - intros _. change same_word with are_equal in E. apply are_equal_iff in E. destruct t as [|c1 [|c2 [|c3 [|c4 t]]]]; try discriminate E. split.
    + cbn in E. injection E as E _ _.
      assert (Hc : forall c, (if Ascii.eqb (tolower c) "i"%char then char_name c else true) = true) by (apply all_chars; vm_compute; reflexivity).
      specialize (Hc c1). change (tolower "i"%char) with "i"%char in E. rewrite E in Hc. exact Hc.
    + change keyword with is_keyword. unfold is_keyword. destruct (existsb _ keywords) eqn:K; [|reflexivity]. apply existsb_exists in K. destruct K as [k [K1 K2]].
      apply are_equal_iff in K2. rewrite E in K2. cbn in K1. repeat (destruct K1 as [<-|K1]; [discriminate K2|]). destruct K1.
  - destruct (Nat.ltb (length t) 320); [exact Hscan|congruence].
Qed.
Lemma num_is_plain t : usual_word dn t -> is_num dn t -> plain t.
Proof. intros H0 H. apply name_like_plain. apply (num_facts t H0 H). Qed.
Lemma is_name_plain t : is_name t -> plain t /\ name_like t = true.
Proof. intros [H1 H2]. assert (K : name_like t = true) by (destruct t as [|c r]; [congruence|]; cbn in H2 |- *; apply andb_true_iff in H2; apply H2). split; [apply name_like_plain, K|exact K]. Qed.
Lemma real1_complete t : length t <> 320 -> read_real1 dn t = P_ok (number t).
Proof.
  intros H. unfold read_real1, number. change same_word with are_equal. destruct (are_equal t (str "inf")) eqn:E.
  - apply are_equal_iff in E. assert (L : length t = 3) by (apply (f_equal (@length _)) in E; rewrite !map_length in E; exact E). rewrite L. reflexivity.
  - rewrite andb_false_r. destruct (Nat.ltb_spec 320 (length t)); destruct (Nat.ltb_spec (length t) 320); try lia; [reflexivity|]. destruct (Nat.eqb_spec (length t) 320); [lia|reflexivity].
Qed.
Definition not_sign (t : text) : Prop := t <> str "-" /\ t <> str "+".
Lemma plain_not_sign t : plain t -> not_sign t.
Proof. intros H. pose proof (plain_facts _ H) as F. split; apply F. Qed.
Lemma real2_complete s m r : fine (sign_tokens s ++ num_tokens m ++ r) -> opt (is_num dn) m -> (m = None -> number (tk r 0) = None) -> (s = None -> m = None -> not_sign (tk r 0)) ->
  read_real2 dn (tk (sign_tokens s ++ num_tokens m ++ r) 0) (tk (sign_tokens s ++ num_tokens m ++ r) 1) = P_ok (with_sign dn s (number_of dn m), length (sign_tokens s ++ num_tokens m)).
Proof.
  intros H3 Hm Hn Hs. pose proof (fine_tk _ 0 H3) as L0. pose proof (fine_tk _ 1 H3) as L1. unfold read_real2.
  destruct s as [[]|], m as [n|]; cbn [sign_tokens num_tokens app opt] in *; unfold tk in L0, L1 |- *; cbn [nth] in L0, L1 |- *;
    try (change (text_eqb (str "+") (str "-")) with false); try (change (text_eqb (str "+") (str "+")) with true); try (change (text_eqb (str "-") (str "-")) with true); cbv iota.
  - rewrite (real1_complete n) by exact L1. unfold is_num in Hm. cbn [pbind number_of length]. destruct (number n); [reflexivity|congruence].
  - rewrite (real1_complete (nth 0 r [])) by exact L1. unfold tk in Hn. rewrite (Hn eq_refl). reflexivity.
  - rewrite (real1_complete n) by exact L1. unfold is_num in Hm. cbn [pbind number_of length]. destruct (number n); [reflexivity|congruence].
  - rewrite (real1_complete (nth 0 r [])) by exact L1. unfold tk in Hn. rewrite (Hn eq_refl). reflexivity.
  - destruct (plain_not_sign _ (num_is_plain _ (Forall_inv H3) Hm)) as [Q1 Q2]. rewrite (eqb_str n "-"), (eqb_str n "+") by assumption.
    rewrite (real1_complete n) by exact L0. unfold is_num in Hm. cbn [pbind number_of length]. destruct (number n); [reflexivity|congruence].
  - destruct (Hs eq_refl eq_refl) as [Q1 Q2]. unfold tk in *. rewrite (eqb_str (nth 0 r []) "-"), (eqb_str (nth 0 r []) "+") by assumption.
    rewrite (real1_complete (nth 0 r [])) by exact L0. rewrite (Hn eq_refl). reflexivity.
Qed.
Lemma element_complete i r : fine (item_tokens i ++ r) -> item_ok dn i (tk r 0) ->
  read_function_element dn (tk (item_tokens i ++ r) 0) (tk (item_tokens i ++ r) 1) (tk (item_tokens i ++ r) 2) =
    P_ok (Some (coefficient (item_term i), t_var (item_term i), length (item_tokens i))).
Proof.
  intros H3 Hi. unfold read_function_element. destruct i as [t|s m]; cbn [item_tokens item_term item_ok] in *.
  - destruct t as [s m nm]. unfold term_tokens, coefficient in *. cbn [t_sign t_num t_var] in *. destruct Hi as (H1 & H2 & H4 & H5). destruct (is_name_plain _ H1) as [P1 P2].
    replace ((sign_tokens s ++ num_tokens m ++ [nm]) ++ r) with (sign_tokens s ++ num_tokens m ++ nm :: r) in * by (rewrite <- !app_assoc; reflexivity).
    rewrite (real2_complete s m (nm :: r) H3 H4 H5 (fun _ _ => plain_not_sign _ P1)). cbn [pbind].
    replace (pick (length (sign_tokens s ++ num_tokens m)) _ _ _) with nm by (destruct s as [[]|], m; reflexivity).
    change keyword with is_keyword in H2. change name_like with starts_with_name in P2. rewrite H2, P2. cbn [negb andb]. unfold read_name.
    destruct H1 as [_ H1]. change char_name with is_char_name in H1. rewrite H1. replace (length (sign_tokens s ++ num_tokens m ++ [nm])) with (length (sign_tokens s ++ num_tokens m) + 1) by (rewrite !app_length; cbn [length]; lia). reflexivity.
  - destruct Hi as (H1 & H2 & H4 & H5). rewrite <- app_assoc in *.
    rewrite (real2_complete s m r H3 H2 H4); [|intros -> ->; destruct H1; congruence]. cbn [pbind].
    replace (pick (length (sign_tokens s ++ num_tokens m)) _ _ _) with (tk r 0) by (destruct s as [[]|], m; reflexivity).
    change keyword with is_keyword in H5. change name_like with starts_with_name in H5.
    replace (negb (is_keyword (tk r 0)) && starts_with_name (tk r 0)) with false by (destruct H5 as [-> | ->]; [reflexivity|rewrite andb_false_r; reflexivity]). reflexivity.
Qed.
(** The first word of an element, and all its words *)
Definition sum_token (x : text) : Prop := (plain x \/ x = str "+" \/ x = str "-").
Lemma sum_token_facts x : sum_token x -> x <> str ":" /\ x <> [] /\ starts_with_operator x = false /\ are_equal x (str ":") = false /\ stops x.
Proof.
  intros [H|[-> | ->]]; [|repeat split; discriminate|repeat split; discriminate]. pose proof (plain_facts _ H) as F. repeat split; apply F.
Qed.
Lemma item_all i next : fine (item_tokens i) -> item_ok dn i next -> Forall sum_token (item_tokens i).
Proof.
  intros H3 Hi. assert (Hs : forall s, Forall sum_token (sign_tokens s)) by (intros [[]|]; cbn; repeat constructor; unfold sum_token; auto).
  assert (Hm : forall m, fine (num_tokens m) -> opt (is_num dn) m -> Forall sum_token (num_tokens m)) by (intros [n|] Q0 Q; [constructor; [left; apply (num_is_plain _ (Forall_inv Q0) Q)|constructor]|constructor]).
  destruct i as [t|s m]; cbn [item_tokens item_ok] in *.
  - unfold term_tokens in *. destruct Hi as (H1 & H2 & H4 & H5). rewrite !Forall_app in *. split; [apply Hs|]. split; [apply Hm; [apply H3|exact H4]|]. constructor; [left; apply is_name_plain, H1|constructor].
  - rewrite Forall_app in *. split; [apply Hs|apply Hm; [apply H3|apply Hi]].
Qed.
Lemma item_first i next : fine (item_tokens i) -> item_ok dn i next -> exists x y, item_tokens i = x :: y /\ is_keyword x = false.
Proof.
  intros H3 Hi. destruct i as [[s m nm]|s m]; unfold item_ok in Hi; cbn [item_tokens t_var t_num] in *; unfold term_tokens in *; cbn [t_sign t_num t_var] in *.
  - destruct s as [[]|]; [eexists _, _; split; [reflexivity|reflexivity]|eexists _, _; split; [reflexivity|reflexivity]|]. cbn [sign_tokens app] in *.
    destruct m as [n|]; cbn [num_tokens app] in *; eexists _, _; (split; [reflexivity|]); [apply (num_facts n (Forall_inv H3)), Hi|apply Hi].
  - destruct s as [[]|]; [eexists _, _; split; [reflexivity|reflexivity]|eexists _, _; split; [reflexivity|reflexivity]|]. cbn [sign_tokens app] in *.
    destruct m as [n|]; [|destruct Hi as [[]]; congruence]. cbn [num_tokens] in *. eexists _, _. split; [reflexivity|]. apply (num_facts n (Forall_inv H3)), Hi.
Qed.
Lemma item_len i next : item_ok dn i next -> 1 <= length (item_tokens i) < 10.
Proof. intros H. destruct i as [[[[]|] [|] ?]|[[]|] [|]]; cbn; try lia. destruct H as [[] _]; congruence. Qed.
Lemma no_in_app {A} (x : A) a b : ~ In x (a ++ b) -> ~ In x b.
Proof. intros H K. apply H, in_or_app. right. exact K. Qed.
Lemma objective_loop_complete : forall l fuel b p rest, items_ok dn l rest -> repr b (flat_map item_tokens l ++ rest) -> fine (flat_map item_tokens l ++ rest) ->
  ~ In (str "[") (flat_map item_tokens l ++ rest) -> is_keyword (tk rest 0) = true -> length l <= fuel ->
  exists b', objective_loop dn fuel b p = P_ok (b', fold_left (append_item dn) l p) /\ repr b' rest.
Proof.
  induction l as [|i l IH]; intros fuel b p rest Hok HR H3 Hb Hk Hf.
  { exists b. split; [|exact HR]. cbn [flat_map app] in HR. pose proof (repr_first _ _ HR) as E. destruct fuel; cbn [objective_loop]; rewrite E, Hk; reflexivity. }
  destruct fuel as [|fuel]; [cbn in Hf; lia|]. cbn [length] in Hf. destruct Hok as [Hi Hok]. cbn [flat_map] in *. rewrite <- app_assoc in *.
  destruct (item_first _ _ (fine_left _ _ H3) Hi) as (x & y & Ex & Kx). cbn [objective_loop]. rewrite (repr_first _ _ HR).
  replace (tk (item_tokens i ++ flat_map item_tokens l ++ rest) 0) with x by (rewrite Ex; reflexivity). rewrite Kx.
  unfold objective_step. rewrite (repr_first _ _ HR), (repr_second _ _ HR), (repr_third _ _ HR), (no_quadratic _ Hb).
  rewrite (element_complete i _ H3 Hi). cbn [pbind or_error]. destruct (pop_app _ _ _ HR (item_len _ _ Hi)) as [b1 [E1 R1]]. rewrite E1. cbn [or_abort pbind].
  destruct (IH fuel b1 (append_to_objective dn (coefficient (item_term i)) (t_var (item_term i)) p) rest Hok R1 (fine_app _ _ H3) (no_in_app _ _ _ Hb) Hk ltac:(lia)) as [b2 [E2 R2]].
  exists b2. split; [exact E2|exact R2].
Qed.
Lemma elt_complete i b vs els r : repr b (item_tokens i ++ r) -> fine (item_tokens i ++ r) -> item_ok dn i (tk r 0) -> int_ok dn (coefficient (item_term i)) ->
  exists b', constraint_element dn b vs els = P_ok (b', fst (append_term dn (vs, els) (item_term i)), snd (append_term dn (vs, els) (item_term i))) /\ repr b' r.
Proof.
  intros HR H3 Hi Hz. unfold constraint_element. rewrite (repr_first _ _ HR), (repr_second _ _ HR), (repr_third _ _ HR). rewrite (element_complete i _ H3 Hi). cbn [pbind or_error].
  destruct (pop_app _ _ _ HR (item_len _ _ Hi)) as [b1 [E1 R1]]. exists b1. split; [|exact R1]. unfold append_term. cbn [fst snd].
  destruct (get_or_assign_variable vs (t_var (item_term i))) as [id vs1]. unfold int_of. unfold int_ok in Hz. destruct (d_int dn (coefficient (item_term i))) as [z|]; [|congruence].
  cbn [or_abort pbind fst snd]. rewrite E1. reflexivity.
Qed.
Lemma elements_loop_complete : forall l fuel b acc rest, items_ok dn l rest -> Forall (fun t => int_ok dn (coefficient t)) (map item_term l) -> repr b (flat_map item_tokens l ++ rest) ->
  fine (flat_map item_tokens l ++ rest) -> starts_with_operator (tk rest 0) = true -> length l <= fuel ->
  exists b', elements_loop dn fuel b (fst acc) (snd acc) = P_ok (b', fst (fold_left (append_term dn) (map item_term l) acc), snd (fold_left (append_term dn) (map item_term l) acc)) /\ repr b' rest.
Proof.
  induction l as [|i l IH]; intros fuel b acc rest Hok Hz HR H3 Hop Hf.
  { exists b. split; [|exact HR]. cbn [flat_map app] in HR. pose proof (repr_first _ _ HR) as E. assert (Ho : starts_with_operator (first b) = true) by (rewrite E; exact Hop).
    destruct fuel; cbn [elements_loop]; destruct (first b) eqn:Ef; try reflexivity; rewrite Ho; reflexivity. }
  destruct fuel as [|fuel]; [cbn in Hf; lia|]. cbn [length] in Hf. destruct Hok as [Hi Hok]. cbn [flat_map map] in *. rewrite <- app_assoc in *. inversion Hz as [|? ? Z1 Z2]; subst.
  destruct (item_first _ _ (fine_left _ _ H3) Hi) as (x & y & Ex & Kx). pose proof (item_all _ _ (fine_left _ _ H3) Hi) as Fx. rewrite Ex in Fx. inversion Fx as [|? ? Sx _]; subst. destruct (sum_token_facts _ Sx) as (_ & X1 & X2 & _).
  cbn [elements_loop]. assert (Ef : first b = x) by (rewrite (repr_first _ _ HR), Ex; reflexivity). rewrite Ef, X2. destruct x as [|c x]; [congruence|].
  destruct (elt_complete i b (fst acc) (snd acc) _ HR H3 Hi Z1) as [b1 [E1 R1]]. rewrite E1. cbn [pbind].
  destruct (IH fuel b1 (append_term dn (fst acc, snd acc) (item_term i)) rest Hok Z2 R1 (fine_app _ _ H3) Hop ltac:(lia)) as [b2 [E2 R2]].
  exists b2. split; [|exact R2]. rewrite E2. cbn [fold_left]. destruct acc; reflexivity.
Qed.
Lemma items_len l : forall after, items_ok dn l after -> length l <= length (flat_map item_tokens l).
Proof. induction l as [|i l IH]; intros after H; [cbn; lia|]. destruct H as [H1 H2]. specialize (IH _ H2). cbn [flat_map]. rewrite app_length. pose proof (item_len _ _ H1). cbn [length]. lia. Qed.
Lemma items_all l : forall after, fine (flat_map item_tokens l) -> items_ok dn l after -> Forall sum_token (flat_map item_tokens l).
Proof. induction l as [|i l IH]; intros after H3 H; [constructor|]. destruct H as [H1 H2]. cbn [flat_map] in *. apply Forall_app. split; [eapply item_all; [exact (fine_left _ _ H3)|exact H1]|eapply IH; [exact (fine_app _ _ H3)|exact H2]]. Qed.
Lemma op_colon op sp : Forall (fun x => x <> str ":") (op_tokens op sp).
Proof. destruct op, sp; repeat constructor; discriminate. Qed.
Lemma row_complete k fuel id b p r : row_ok dn k (tk r 0) -> repr b (row_tokens k ++ r) -> fine (row_tokens k ++ r) -> length (w_items k) <= S fuel ->
  exists b', constraint_step dn fuel id b p = P_ok (b', snd (append_row dn (id, p) k)) /\ repr b' r.
Proof.
  intros Hk HR H3 Hf. destruct k as [lb is op sp s m]. destruct Hk as (Hlb & Hne & His & Hz & Hsm & Hm & Hmn & Hv). unfold row_number, row_terms, row_tokens in *. cbn [w_label w_items w_op w_spell w_sign w_num] in *.
  destruct is as [|i is]; [congruence|]. unfold constraint_step.
  set (value := sign_tokens s ++ num_tokens m) in *. set (T := flat_map item_tokens (i :: is) ++ op_tokens op sp ++ value ++ r) in *.
  assert (ET : (label_tokens lb ++ flat_map item_tokens (i :: is) ++ op_tokens op sp ++ value) ++ r = label_tokens lb ++ T) by (unfold T; rewrite <- !app_assoc; reflexivity).
  rewrite ET in *. assert (H3T : fine T) by (eapply fine_app; exact H3).
  assert (L : exists b1, read_label b = P_ok (match lb with Some l => l | None => [] end, b1) /\ repr b1 T).
  { unfold read_label. rewrite (repr_first _ _ HR), (repr_second _ _ HR). destruct lb as [l|]; cbn [label_tokens app opt] in *.
    - unfold tk. cbn [nth]. destruct Hlb as [Hl _]. change name_like with starts_with_name in Hl. rewrite Hl, text_eqb_refl. cbn [andb].
      destruct (pop_app [l; str ":"] T b HR) as [b1 [E1 R1]]; [cbn; lia|]. cbn [length] in E1. rewrite E1. exists b1. split; [reflexivity|exact R1].
    - exists b. split; [|exact HR]. replace (text_eqb (tk T 1) (str ":")) with false; [rewrite andb_false_r; reflexivity|]. symmetry. apply text_eqb_neq.
      assert (F : Forall (fun x => x <> str ":") (flat_map item_tokens (i :: is) ++ op_tokens op sp)).
      { apply Forall_app. split; [|apply op_colon]. eapply Forall_impl; [|eapply items_all; [exact (fine_left _ _ H3T)|exact His]]. intros x Hx. apply (sum_token_facts _ Hx). }
      unfold T, tk. rewrite app_assoc, app_nth1; [rewrite Forall_forall in F; apply F, nth_In|]; rewrite app_length; pose proof (items_len _ _ His); pose proof (op_len op sp); cbn [length] in *; lia. }
  destruct L as (b1 & E1 & R1). rewrite E1. cbn [pbind]. unfold T in R1, H3T. cbn [flat_map] in R1, H3T. rewrite <- app_assoc in R1, H3T.
  destruct His as [Hi His]. cbn [map] in Hz. inversion Hz as [|? ? Z1 Z2]; subst.
  assert (Nop : forall x, nth 0 (op_tokens op sp ++ x) [] = nth 0 (op_tokens op sp) []) by (intros x; destruct op, sp; reflexivity).
  assert (His' : items_ok dn (i :: is) (op_tokens op sp ++ value ++ r)).
  { apply (items_ok_after dn (i :: is) (op_tokens op sp)); [symmetry; apply Nop|split; assumption]. }
  destruct His' as [Hi' His'].
  destruct (elt_complete i b1 (rw_vars p) [] _ R1 H3T Hi' Z1) as [b2 [E2 R2]]. rewrite E2. cbn [pbind].
  destruct (elements_loop_complete is fuel b2 (append_term dn (rw_vars p, []) (item_term i)) _ His' Z2 R2 (fine_app _ _ H3T)) as [b3 [E3 R3]];
    [unfold tk; rewrite Nop; destruct op, sp; reflexivity|cbn [length] in Hf; lia|].
  rewrite E3. cbn [pbind]. rewrite (repr_first _ _ R3), (repr_second _ _ R3).
  assert (H3v : fine (value ++ r)) by (apply (fine_app (op_tokens op sp)), (fine_app (flat_map item_tokens is)), (fine_app (item_tokens i)); exact H3T).
  assert (St : stops (tk (value ++ r) 0)).
  { unfold value. destruct s as [[]|]; [repeat split; discriminate|repeat split; discriminate|]. destruct m as [n|]; [|destruct Hsm; congruence]. apply plain_stops. apply (num_is_plain _ (Forall_inv H3v) Hm). }
  rewrite (read_op_gen op sp (value ++ r) St). cbn [or_error pbind].
  destruct (pop_app _ _ _ R3 (op_len op sp)) as [b4 [E4 R4]]. rewrite E4. cbn [or_abort pbind]. rewrite (repr_first _ _ R4), (repr_second _ _ R4).
  unfold value in *. rewrite <- app_assoc in *.
  rewrite (real2_complete s m r H3v Hm Hmn); [|intros -> ->; destruct Hsm; congruence]. cbn [pbind]. unfold int_ok in Hv. unfold append_row. cbn [fst snd row_terms w_items map fold_left rw_vars w_op w_label].
  change (row_terms (mk_row lb (i :: is) op sp s m)) with (item_term i :: map item_term is). cbn [fold_left].
  destruct (fold_left (append_term dn) (map item_term is) (append_term dn (rw_vars p, []) (item_term i))) as [vs els]. cbn [fst snd].
  unfold int_of, row_number. cbn [w_sign w_num]. destruct (d_int dn (with_sign dn s (number_of dn m))) as [z|]; [|congruence]. cbn [or_abort pbind].
  assert (Lv : 1 <= length (sign_tokens s ++ num_tokens m) < 10) by (destruct s as [[]|], m; cbn; try lia; destruct Hsm; congruence).
  rewrite app_assoc in R4. destruct (pop_app _ _ _ R4 Lv) as [b5 [E5 R5]]. rewrite E5. cbn [or_abort pbind]. exists b5. split; [reflexivity|exact R5].
Qed.
Lemma row_first k next r : fine (row_tokens k) -> row_ok dn k next -> exists x y, row_tokens k ++ r = x :: y /\ is_keyword x = false /\ x <> [] /\ are_equal x (str ":") = false.
Proof.
  intros H3 (Hlb & Hne & His & _). unfold row_tokens in *. destruct (w_label k) as [l|]; cbn [label_tokens app opt] in *.
  - eexists _, _. split; [reflexivity|]. split; [apply Hlb|]. destruct Hlb as [Hlb _]. pose proof (plain_facts _ (name_like_plain _ Hlb)) as F. split; apply F.
  - destruct (w_items k) as [|i is]; [congruence|]. destruct His as [Hi His]. cbn [flat_map] in *. rewrite <- app_assoc in H3. destruct (item_first _ _ (fine_left _ _ H3) Hi) as (x & y & E & K). rewrite E. cbn [app].
    eexists _, _. split; [reflexivity|]. split; [exact K|]. pose proof (item_all _ _ (fine_left _ _ H3) Hi) as F. rewrite E in F. inversion F as [|? ? Sx _]; subst. destruct (sum_token_facts _ Sx) as (_ & X1 & _ & X2 & _). auto.
Qed.
Lemma row_len k next : row_ok dn k next -> length (w_items k) <= length (row_tokens k).
Proof. intros (Hlb & Hne & His & _). unfold row_tokens. rewrite !app_length. pose proof (items_len _ _ His). lia. Qed.
Lemma rows_complete : forall ks fuel id b p rest, rows_ok dn ks rest -> repr b (flat_map row_tokens ks ++ rest) -> fine (flat_map row_tokens ks ++ rest) ->
  is_keyword (tk rest 0) = true -> length (flat_map row_tokens ks) <= fuel ->
  exists b', constraints_loop dn fuel id b p = P_ok (b', snd (fold_left (append_row dn) ks (id, p))) /\ repr b' rest.
Proof.
  induction ks as [|k ks IH]; intros fuel id b p rest Hok HR H3 Hk Hf.
  { exists b. split; [|exact HR]. cbn [flat_map app] in HR. pose proof (repr_first _ _ HR) as E. assert (Ho : is_keyword (first b) = true) by (rewrite E; exact Hk).
    destruct fuel; cbn [constraints_loop]; destruct (first b) eqn:Ef; try reflexivity; rewrite Ho; reflexivity. }
  destruct Hok as [Hi Hok]. cbn [flat_map] in *. rewrite <- app_assoc in *. rewrite app_length in Hf.
  destruct (row_first k _ (flat_map row_tokens ks ++ rest) (fine_left _ _ H3) Hi) as (x & y & Ex & Kx & Nx & _).
  assert (L1 : 1 <= length (row_tokens k)). { destruct Hi as (_ & Hne & His & _). unfold row_tokens. rewrite !app_length. pose proof (items_len _ _ His). destruct (w_items k); [congruence|cbn [length] in *; lia]. }
  destruct fuel as [|fuel]; [lia|]. cbn [constraints_loop]. assert (Ef : first b = x) by (rewrite (repr_first _ _ HR), Ex; reflexivity). rewrite Ef. destruct x as [|c x]; [congruence|]. rewrite Kx.
  destruct (row_complete k fuel id b p _ Hi HR H3) as [b1 [E1 R1]]; [pose proof (row_len _ _ Hi); lia|]. rewrite E1. cbn [pbind].
  destruct (IH fuel (S id) b1 (snd (append_row dn (id, p) k)) rest Hok R1 (fine_app _ _ H3) Hk ltac:(lia)) as [b2 [E2 R2]]. exists b2. split; [|exact R2]. rewrite E2. cbn [fold_left].
  unfold append_row at 4. unfold append_row at 2. cbn [fst snd]. destruct (fold_left (append_term dn) (row_terms k) (rw_vars p, [])). reflexivity.
Qed.
End Complete.
