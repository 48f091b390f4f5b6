(** Reading back what was written. *)
From Coq Require Import Ascii String Permutation Lia.
From Verif Require Import Base Problem_model ResultIO_model Chars_spec Lexer_model Lexer_spec Lexer_proofs Parser_model Parser_spec Parser_proofs Parser_proofs2 Parser_proofs3 Parser_proofs4 Parser_proofs5 Writer_model Writer_spec.
Open Scope string_scope.
Open Scope list_scope.
Open Scope nat_scope.

(** ** Words and tokens *)
Lemma words_from_app : forall a cur c b, isspace c = true -> words_from cur (a ++ c :: b) = words_from cur a ++ words b.
Proof.
  induction a as [ |d a IH ]; intros cur c b Hc; cbn [app words_from]; chars; [ rewrite Hc; reflexivity |].
  destruct (isspace d); [ rewrite IH by exact Hc; rewrite app_assoc; reflexivity | apply IH; exact Hc ].
Qed.
Lemma words_from_word : forall w cur, forallb (fun c => negb (isspace c)) w = true -> words_from cur w = flush (cur ++ w).
Proof.
  induction w as [ |c w IH ]; intros cur H; cbn [words_from]; chars; [ rewrite app_nil_r; reflexivity |]. cbn [forallb] in H. apply andb_prop in H. destruct H as [H1 H2].
  destruct (isspace c); [ discriminate |]. rewrite IH by exact H2. rewrite <- app_assoc. reflexivity.
Qed.
Definition good_word (w : text) : Prop := comment_word w = false /\ length w < slot_size.
Definition lexes (t : text) (toks : list text) : Prop :=
  exists ws, (forall r, words (t ++ r) = ws ++ words r) /\ flat_map (split []) ws = toks /\ Forall good_word ws /\ Forall (fun c => is_nul c = false) t.
Lemma lexes_nil : lexes [] [].
Proof. exists []. repeat split; constructor. Qed.
Lemma lexes_app a x b y : lexes a x -> lexes b y -> lexes (a ++ b) (x ++ y).
Proof.
  intros [ws [H1 [H2 [H3 H4]]]] [ws' [G1 [G2 [G3 G4]]]]. exists (ws ++ ws'). split; [ | split; [ | split ] ].
  - intros r. rewrite <- app_assoc, H1, G1, app_assoc. reflexivity.
  - rewrite flat_map_app, H2, G2. reflexivity.
  - apply Forall_app. auto.
  - apply Forall_app. auto.
Qed.
Lemma lexes_space c : isspace c = true -> lexes [c] [].
Proof.
  intros H. exists []. split; [ intros r; apply words_space; exact H |]. split; [ reflexivity |]. split; [ constructor |]. constructor; [ | constructor ].
  assert (Hc : forall c, (if isspace c then negb (is_nul c) else true) = true) by (apply all_chars; vm_compute; reflexivity).
  specialize (Hc c). rewrite H in Hc. destruct (is_nul c); [ discriminate | reflexivity ].
Qed.
Definition word_char (c : ascii) : bool := negb (isspace c) && negb (is_nul c).
Lemma lexes_word w c : w <> [] -> forallb word_char w = true -> comment_word w = false -> length w < slot_size -> isspace c = true -> lexes (w ++ [c]) (split [] w).
Proof.
  intros Hne Hw Hcom Hlen Hc. exists [w].
  assert (Hs : forallb (fun c => negb (isspace c)) w = true) by (rewrite forallb_forall in *; intros x Hx; specialize (Hw x Hx); apply andb_prop in Hw; apply Hw).
  split; [ | split; [ | split ] ].
  - intros r. rewrite <- app_assoc. cbn [app]. unfold words at 1. rewrite words_from_app by exact Hc. rewrite words_from_word by exact Hs. destruct w; [ congruence | reflexivity ].
  - cbn [flat_map]. apply app_nil_r.
  - constructor; [ split; assumption | constructor ].
  - apply Forall_app. split.
    + apply Forall_forall. intros x Hx. rewrite forallb_forall in Hw. specialize (Hw x Hx). apply andb_prop in Hw. destruct Hw as [_ Hw]. destruct (is_nul x); [ discriminate | reflexivity ].
    + destruct (lexes_space c Hc) as [ws' [_ [_ [_ H]]]]. exact H.
Qed.
Definition num_char (c : ascii) : bool := is_digit c || isc c (str ".eE").
Lemma char_facts c :
  (if is_char_name c then word_char c && negb (is_separator c) && negb (Ascii.eqb c backslash) else true) = true /\
  (if num_char c then word_char c && negb (is_separator c) && negb (Ascii.eqb c backslash) && is_number c else true) = true.
Proof. split; revert c; apply all_chars; vm_compute; reflexivity. Qed.
Lemma name_char_facts c : is_char_name c = true -> word_char c = true /\ is_separator c = false /\ Ascii.eqb c backslash = false.
Proof.
  intros H. pose proof (proj1 (char_facts c)) as F. rewrite H in F. apply andb_prop in F. destruct F as [F F3]. apply andb_prop in F. destruct F as [F1 F2].
  destruct (is_separator c); [ discriminate |]. destruct (Ascii.eqb c backslash); [ discriminate |]. auto.
Qed.
Lemma num_char_facts c : num_char c = true -> word_char c = true /\ is_separator c = false /\ Ascii.eqb c backslash = false /\ is_number c = true.
Proof.
  intros H. pose proof (proj2 (char_facts c)) as F. rewrite H in F. apply andb_prop in F. destruct F as [F F4]. apply andb_prop in F. destruct F as [F F3]. apply andb_prop in F. destruct F as [F1 F2].
  destruct (is_separator c); [ discriminate |]. destruct (Ascii.eqb c backslash); [ discriminate |]. auto.
Qed.
Lemma split_run : forall w cur, forallb (fun c => negb (is_separator c)) w = true ->
  match cur ++ w with c :: _ => starts_with_a_number c = false \/ forallb is_number w = true | [] => True end ->
  split cur w = flush (cur ++ w).
Proof.
  induction w as [ |c w IH ]; intros cur Hs Hc; cbn [split]; chars; [ rewrite app_nil_r; reflexivity |]. cbn [forallb] in Hs. apply andb_prop in Hs. destruct Hs as [Hs1 Hs2].
  destruct (is_separator c); [ discriminate |].
  assert (He : extends cur c = true).
  { destruct cur as [ |d cur ]; [ reflexivity |]. cbn [app] in Hc. cbn [extends]; chars. destruct Hc as [Hc|Hc]; [ rewrite Hc; reflexivity |].
    cbn [forallb] in Hc. apply andb_prop in Hc. destruct (starts_with_a_number d); [ apply Hc | reflexivity ]. }
  rewrite He, IH; [ rewrite <- app_assoc; reflexivity | exact Hs2 |]. rewrite <- app_assoc. cbn [app].
  destruct (cur ++ c :: w) eqn:E; [ exact I |]. destruct Hc as [Hc|Hc]; [ auto |]. right. cbn [forallb] in Hc. apply andb_prop in Hc. apply Hc.
Qed.
Lemma split_sep_end : forall w cur c, forallb (fun c => negb (is_separator c)) w = true -> is_separator c = true ->
  match cur ++ w with d :: _ => starts_with_a_number d = false | [] => True end ->
  split cur (w ++ [c]) = flush (cur ++ w) ++ [[c]].
Proof.
  induction w as [ |d w IH ]; intros cur c Hs Hc Hd; cbn [app split]; chars; [ rewrite Hc, app_nil_r; reflexivity |]. cbn [forallb] in Hs. apply andb_prop in Hs. destruct Hs as [Hs1 Hs2].
  destruct (is_separator d); [ discriminate |].
  assert (He : extends cur d = true). { destruct cur as [ |x cur ]; [ reflexivity |]. cbn [app] in Hd. cbn [extends]; chars. rewrite Hd. reflexivity. }
  rewrite He, IH; [ rewrite <- app_assoc; reflexivity | exact Hs2 | exact Hc |]. rewrite <- app_assoc. exact Hd.
Qed.
Lemma forallb_imp {A} (f g : A -> bool) l : (forall a, f a = true -> g a = true) -> forallb f l = true -> forallb g l = true.
Proof. intros H. rewrite !forallb_forall. auto. Qed.
Lemma uncut_facts w : uncut w -> w <> [] /\ forallb word_char w = true /\ forallb (fun c => negb (is_separator c)) w = true /\ comment_word w = false /\ length w < slot_size /\
  match w with c :: _ => starts_with_a_number c = false | [] => True end.
Proof.
  intros [H1 [H2 H3]]; chars. split; [ destruct w; [ destruct H3 | discriminate ] |]. split; [ eapply forallb_imp; [ | exact H1 ]; intros a Ha; apply (name_char_facts a Ha) |].
  split; [ eapply forallb_imp; [ | exact H1 ]; intros a Ha; destruct (name_char_facts a Ha) as [_ [-> _]]; reflexivity |].
  split; [ | split; [ unfold slot_size; lia | destruct w; [ exact I | exact H3 ] ] ]. destruct w as [ |c w ]; [ reflexivity |]. cbn [forallb] in H1. apply andb_prop in H1. apply (name_char_facts c), H1.
Qed.
Lemma lexes_uncut w c : uncut w -> isspace c = true -> lexes (w ++ [c]) [w].
Proof.
  intros H Hc. destruct (uncut_facts w H) as [H1 [H2 [H3 [H4 [H5 H6]]]]]. replace [w] with (split [] w); [ apply lexes_word; assumption |].
  rewrite split_run; [ destruct w; [ congruence | reflexivity ] | exact H3 |]. cbn [app]. destruct w; auto.
Qed.
Lemma lexes_label w c : uncut w -> isspace c = true -> lexes ((w ++ [":"%char]) ++ [c]) [w; str ":"].
Proof.
  intros H Hc. destruct (uncut_facts w H) as [H1 [H2 [H3 [H4 [H5 H6]]]]].
  replace [w; str ":"] with (split [] (w ++ [":"%char])).
  - apply lexes_word; [ destruct w; discriminate | rewrite forallb_app, H2; reflexivity | destruct w; [ congruence | exact H4 ] | | exact Hc ].
    destruct H as [_ [H _]]. rewrite app_length. cbn [length]. unfold slot_size. lia.
  - rewrite split_sep_end; [ destruct w; [ congruence | reflexivity ] | exact H3 | reflexivity |]. cbn [app]. destruct w; auto.
Qed.

Section Round_trip.
Context {D : Type} (dn : dops D).
Local Notation raw_problem := (raw_problem (D := D)).

Lemma number_facts s : number_text dn s -> s <> [] /\ forallb word_char s = true /\ forallb (fun c => negb (is_separator c)) s = true /\ comment_word s = false /\ length s < 320 /\
  forallb is_number s = true.
Proof.
  intros [[[c [r [-> Hc]]] [H2 _]] H3]. split; [ discriminate |].
  assert (H3' : forallb num_char (c :: r) = true) by exact H3.
  split; [ eapply forallb_imp; [ | exact H3' ]; intros a Ha; apply (num_char_facts a Ha) |].
  split; [ eapply forallb_imp; [ | exact H3' ]; intros a Ha; destruct (num_char_facts a Ha) as [_ [-> _]]; reflexivity |].
  split; [ cbn [forallb] in H3'; apply andb_prop in H3'; apply (num_char_facts c), H3' |]. split; [ exact H2 |].
  eapply forallb_imp; [ | exact H3' ]; intros a Ha; apply (num_char_facts a Ha).
Qed.
Lemma lexes_number s c : number_text dn s -> isspace c = true -> lexes (s ++ [c]) [s].
Proof.
  intros H Hc. destruct (number_facts s H) as [H1 [H2 [H3 [H4 [H5 H6]]]]]. replace [s] with (split [] s); [ apply lexes_word; auto; unfold slot_size; lia |].
  rewrite split_run; [ destruct s; [ congruence | reflexivity ] | exact H3 |]. cbn [app]. destruct s; auto.
Qed.
Lemma lexes_minus s c : number_text dn s -> isspace c = true -> lexes (("-"%char :: s) ++ [c]) [str "-"; s].
Proof.
  intros H Hc. destruct (number_facts s H) as [H1 [H2 [H3 [H4 [H5 H6]]]]].
  replace [str "-"; s] with (split [] ("-"%char :: s)).
  - apply lexes_word; [ discriminate | cbn [forallb]; rewrite H2; reflexivity | reflexivity | cbn [length]; unfold slot_size; lia | exact Hc ].
  - cbn [split]. change (is_separator "-") with true. cbv iota. cbn [flush app]. rewrite split_run; [ destruct s; [ congruence | reflexivity ] | exact H3 |]. cbn [app]. destruct s; auto.
Qed.

(** ** Integers *)
Lemma digit_char_facts z : (0 <= z < 10)%Z -> is_digit (digit_char z) = true.
Proof.
  intros H. assert (Hz : z = 0%Z \/ z = 1%Z \/ z = 2%Z \/ z = 3%Z \/ z = 4%Z \/ z = 5%Z \/ z = 6%Z \/ z = 7%Z \/ z = 8%Z \/ z = 9%Z) by lia.
  repeat (destruct Hz as [->|Hz]; [ reflexivity |]). subst z. reflexivity.
Qed.
Lemma show_digits_facts : forall fuel z, (0 <= z)%Z -> forallb is_digit (show_digits fuel z) = true /\ length (show_digits fuel z) <= fuel /\ (1 <= fuel -> show_digits fuel z <> []).
Proof.
  induction fuel as [ |fuel IH ]; intros z Hz; cbn [show_digits]; [ repeat split; auto; lia |].
  destruct (Z.ltb_spec z 10).
  - cbn. rewrite digit_char_facts by lia. repeat split; [ lia | discriminate ].
  - destruct (IH (z / 10)%Z) as [H1 [H2 H3]]; [ apply Z.div_pos; lia |]. pose proof (Z.mod_pos_bound z 10 ltac:(lia)) as Hm.
    rewrite forallb_app, H1, app_length. cbn [forallb length]. rewrite digit_char_facts by lia. repeat split; [ lia |]. intros _. destruct (show_digits fuel (z / 10)); discriminate.
Qed.
Lemma int_number z : int_printed dn z -> number_text dn (show_digits 20 (Z.abs z)).
Proof.
  intros [H1 _]. destruct (show_digits_facts 20 (Z.abs z) ltac:(lia)) as [F1 [F2 F3]]. split.
  - split; [ | split; [ lia | exact H1 ] ]. destruct (show_digits 20 (Z.abs z)) as [ |c r ]; [ exfalso; apply F3; [ lia | reflexivity ] |].
    exists c, r. split; [ reflexivity |]. chars. cbn [forallb] in F1. apply andb_prop in F1. destruct F1 as [-> _]. reflexivity.
  - eapply forallb_imp; [ | exact F1 ]. intros a Ha. chars. rewrite Ha. reflexivity.
Qed.
Lemma show_int_eq z : show_int z = (if (z <? 0)%Z then "-"%char :: show_digits 20 (Z.abs z) else show_digits 20 (Z.abs z)).
Proof. unfold show_int. destruct (Z.ltb_spec z 0); [ rewrite Z.abs_neq by lia | rewrite Z.abs_eq by lia ]; reflexivity. Qed.
Lemma lexes_int z c : int_printed dn z -> isspace c = true -> lexes (show_int z ++ [c]) (signed_tokens (signed_int z)).
Proof.
  intros H Hc. rewrite show_int_eq. unfold signed_tokens, signed_int. cbn [s_sign s_num]. destruct (z <? 0)%Z; cbn [sign_tokens app].
  - apply lexes_minus; [ apply int_number; exact H | exact Hc ].
  - apply lexes_number; [ apply int_number; exact H | exact Hc ].
Qed.

(** ** The document of a problem *)
Definition dterm (names : list text) (e : D * nat) : term :=
  if d_gt dn (d_zero dn) (fst e) then mk_term (Some Minus) (Some (tl (d_show dn (fst e)))) (nth (snd e) names [])
  else mk_term (Some Plus) (Some (d_show dn (fst e))) (nth (snd e) names []).
Definition zterm (names : list text) (e : felem) : term :=
  mk_term (Some (if (f_factor e <? 0)%Z then Minus else Plus)) (Some (show_digits 20 (Z.abs (f_factor e)))) (nth (f_var e) names []).
Definition constant (v : D) : list oterm :=
  if d_gt dn (d_zero dn) v then [O_const (mk_signed (Some Minus) (tl (d_show dn v)))]
  else if d_gt dn v (d_zero dn) then [O_const (mk_signed (Some Plus) (d_show dn v))] else [].
Definition cst_of (names : list text) (op : operator_type) (c : constraint) : cst :=
  mk_cst (match c_label c with [] => None | l => Some l end)
    (zterm names (hd (mk_felem 0 0) (c_elements c))) (map (zterm names) (tl (c_elements c))) op
    (match op with op_equal => Sp1 | _ => Sp2 end) (signed_int (c_value c)).
Definition blines (vs : list (text * variable_value)) : list bline :=
  flat_map (fun x => if (v_max (snd x) =? int_max)%Z then [] else [B_upper (fst x) Sp2 (signed_int (v_max (snd x)))]) vs.
Definition typed (ty : variable_type) (vs : list (text * variable_value)) : list text :=
  flat_map (fun x => if type_eqb (v_type (snd x)) ty then [fst x] else []) vs.
Definition doc_of (p : raw_problem) : document :=
  let names := v_names (rw_vars p) in
  let vs := combine names (v_values (rw_vars p)) in
  mk_document (match rw_type p with maximize => str "maximize" | minimize => str "minimize" end) None
    (map O_var (map (dterm names) (rw_objective p)) ++ constant (rw_value p))
    (mk_header [str "subject"; str "to"] false)
    (map (cst_of names op_equal) (rw_equal p) ++ map (cst_of names op_greater) (rw_greater p) ++ map (cst_of names op_less) (rw_less p))
    (Some (mk_header [str "bounds"] false, blines vs))
    (if have vt_binary vs then Some (mk_header [str "binary"] false, typed vt_binary vs) else None)
    (if have vt_general vs then Some (mk_header [str "general"] false, typed vt_general vs) else None)
    (mk_header [str "end"] false).

(** ** The text lexes as the document *)
Lemma nth_error_nth_eq {A} (l : list A) i d x : nth_error l i = Some x -> nth i l d = x.
Proof. apply nth_error_nth. Qed.
Lemma nth_error_some {A} (l : list A) i d : i < length l -> nth_error l i = Some (nth i l d).
Proof. apply nth_error_nth'. Qed.
Lemma lexes_element (neg : bool) shown nm num : lp_name dn nm -> number_text dn num -> shown = (if neg then "-"%char :: num else num) ->
  lexes (write_element neg (negb neg) shown nm) (term_tokens (mk_term (Some (if neg then Minus else Plus)) (Some num) nm)).
Proof.
  intros Hn Hs ->. unfold write_element, term_tokens. destruct neg; cbn [negb t_sign t_num t_var sign_tokens num_tokens].
  - match goal with |- lexes ?t _ => replace t with ([sp] ++ (("-"%char :: num) ++ [sp]) ++ nm ++ [sp]) by (cbn [app]; rewrite <- !app_assoc; reflexivity) end.
    change ([str "-"] ++ [num] ++ [nm]) with ([] ++ [str "-"; num] ++ [nm]). apply lexes_app; [ apply lexes_space; reflexivity |].
    apply lexes_app; [ apply lexes_minus; [ exact Hs | reflexivity ] | apply lexes_uncut; [ apply Hn | reflexivity ] ].
  - match goal with |- lexes ?t _ => replace t with ((str "+" ++ [sp]) ++ (num ++ [sp]) ++ nm ++ [sp]) by (cbn [app str list_ascii_of_string]; rewrite <- !app_assoc; reflexivity) end.
    apply lexes_app; [ apply lexes_word; [ discriminate | reflexivity | reflexivity | cbn; unfold slot_size; lia | reflexivity ] |].
    apply lexes_app; [ apply lexes_number; [ exact Hs | reflexivity ] | apply lexes_uncut; [ apply Hn | reflexivity ] ].
Qed.
Lemma lexes_delements names : forall l, Forall (lp_name dn) names -> Forall (fun e => printed dn (fst e) /\ snd e < length names) l ->
  exists t, write_delements dn names l = Some t /\ lexes t (flat_map term_tokens (map (dterm names) l)).
Proof.
  induction l as [ |[f i] l IH ]; intros HN Hl; cbn [write_delements map flat_map]; [ exists []; split; [ reflexivity | apply lexes_nil ] |].
  inversion Hl; subst. destruct H1 as [Hp Hi]. cbn [fst snd] in *. destruct (IH HN H2) as [t [-> Ht]].
  assert (Hnm : lp_name dn (nth i names [])) by (rewrite Forall_forall in HN; apply HN, nth_In; exact Hi).
  unfold printed in Hp. unfold dterm at 1. cbn [fst snd]. unfold element_name. destruct (d_gt dn (d_zero dn) f); cbn [orb].
  - destruct Hp as [s [Es [Hs _]]]. rewrite (@nth_error_some text _ _ [] Hi). cbn [bind]. eexists. split; [ reflexivity |]. apply lexes_app; [ | exact Ht ]. rewrite Es. cbn [tl].
    apply (lexes_element true ("-"%char :: s) (nth i names []) s Hnm Hs eq_refl).
  - destruct Hp as [Hpos [Hs _]]. rewrite Hpos. cbn [orb]. rewrite (@nth_error_some text _ _ [] Hi). cbn [bind]. eexists. split; [ reflexivity |]. apply lexes_app; [ | exact Ht ].
    apply (lexes_element false (d_show dn f) (nth i names []) (d_show dn f) Hnm Hs eq_refl).
Qed.
Lemma lexes_elements names : forall l, Forall (lp_name dn) names -> Forall (fun e => f_factor e <> 0%Z /\ int_printed dn (f_factor e) /\ f_var e < length names) l ->
  exists t, write_elements names l = Some t /\ lexes t (flat_map term_tokens (map (zterm names) l)).
Proof.
  induction l as [ |e l IH ]; intros HN Hl; cbn [write_elements map flat_map]; [ exists []; split; [ reflexivity | apply lexes_nil ] |].
  inversion Hl; subst. destruct H1 as [Hz [Hp Hi]]. destruct (IH HN H2) as [t [-> Ht]].
  assert (Hnm : lp_name dn (nth (f_var e) names [])) by (rewrite Forall_forall in HN; apply HN, nth_In; exact Hi).
  unfold element_name. assert (Hsign : (0 <? f_factor e)%Z = negb (f_factor e <? 0)%Z) by (destruct (Z.ltb_spec (f_factor e) 0), (Z.ltb_spec 0 (f_factor e)); try reflexivity; lia).
  rewrite Hsign. replace ((f_factor e <? 0)%Z || negb (f_factor e <? 0)%Z) with true by (destruct (f_factor e <? 0)%Z; reflexivity).
  rewrite (@nth_error_some text _ _ [] Hi). cbn [bind]. eexists. split; [ reflexivity |]. apply lexes_app; [ | exact Ht ].
  unfold zterm at 1. apply (lexes_element (f_factor e <? 0)%Z (show_int (f_factor e)) (nth (f_var e) names []) (show_digits 20 (Z.abs (f_factor e))) Hnm (int_number _ Hp) (show_int_eq _)).
Qed.
Definition sep_of (op : operator_type) : string := match op with op_equal => " = " | op_greater => " >= " | op_less => " <= " end.
Definition cst_writable (n : nat) (c : constraint) : Prop :=
  lp_label (c_label c) /\ int_printed dn (c_value c) /\ c_elements c <> [] /\
  Forall (fun e => f_factor e <> 0%Z /\ int_printed dn (f_factor e) /\ f_var e < n) (c_elements c).
Lemma lexes_sep op : lexes (str (sep_of op)) (op_tokens op (match op with op_equal => Sp1 | _ => Sp2 end)).
Proof.
  assert (H : forall w, w <> [] -> forallb word_char w = true -> comment_word w = false -> length w < 5 -> lexes ([sp] ++ w ++ [sp]) (split [] w)).
  { intros w H1 H2 H3 H4. change (split [] w) with ([] ++ split [] w). apply lexes_app; [ apply lexes_space; reflexivity |]. apply lexes_word; auto. unfold slot_size. lia. }
  destruct op; [ apply (H (str "=")) | apply (H (str ">=")) | apply (H (str "<=")) ]; try discriminate; try reflexivity; cbn; lia.
Qed.
Lemma lexes_constraint names op c : Forall (lp_name dn) names -> cst_writable (length names) c ->
  exists t, write_constraint names (sep_of op) c = Some t /\ lexes t (cst_tokens (cst_of names op c)).
Proof.
  intros HN [Hl [Hv [Hne He]]]. unfold write_constraint. destruct (lexes_elements names (c_elements c) HN He) as [t [-> Ht]]. cbn [bind]. eexists. split; [ reflexivity |].
  unfold cst_tokens, cst_of. cbn [k_label k_first k_terms k_op k_spell k_value].
  apply lexes_app.
  - destruct (c_label c) as [ |x l ] eqn:E; cbn [label_tokens]; [ apply lexes_nil |]. destruct Hl as [Hl|[Hl _]]; [ discriminate |].
    replace ((x :: l) ++ str ": ") with (((x :: l) ++ [":"%char]) ++ [sp]) by (rewrite <- app_assoc; reflexivity). apply lexes_label; [ exact Hl | reflexivity ].
  - destruct (c_elements c) as [ |e r ]; [ congruence |]. cbn [hd tl]. cbn [map flat_map] in Ht.
    rewrite (app_assoc (term_tokens (zterm names e))). apply lexes_app; [ exact Ht |]. apply lexes_app; [ apply lexes_sep | apply lexes_int; [ exact Hv | reflexivity ] ].
Qed.
Lemma lexes_all {A B} (f : A -> option text) (g : B -> list text) (h : A -> B) l : Forall (fun a => exists t, f a = Some t /\ lexes t (g (h a))) l ->
  exists t, write_all f l = Some t /\ lexes t (flat_map g (map h l)).
Proof.
  induction 1 as [ |a l [t [E Ht]] _ [u [E2 Hu]] ]; cbn [write_all map flat_map]; [ exists []; split; [ reflexivity | apply lexes_nil ] |].
  rewrite E. cbn [bind]. rewrite E2. cbn [bind]. eexists. split; [ reflexivity |]. apply lexes_app; assumption.
Qed.
Definition var_writable (x : text * variable_value) : Prop :=
  lp_name dn (fst x) /\ v_min (snd x) = 0%Z /\ (v_max (snd x) = int_max \/ (starts_with_number (fst x) = false /\ bound_printed dn (v_max (snd x)))) /\
  (v_type (snd x) = vt_binary -> v_max (snd x) = 1%Z).
Lemma lexes_bounds : forall vs, Forall var_writable vs -> lexes (flat_map write_bound vs) (flat_map bline_tokens (blines vs)).
Proof.
  induction 1 as [ |[nm v] vs [Hn [Hmin [Hmax _]]] _ IH ]; cbn [flat_map]; [ apply lexes_nil |]. unfold blines in *. cbn [flat_map]. rewrite flat_map_app. apply lexes_app; [ | exact IH ].
  cbn [fst snd] in *. unfold write_bound. rewrite Hmin. change (0 =? 0)%Z with true. cbv iota. cbn [app]. destruct (Z.eqb_spec (v_max v) int_max) as [E|E]; cbn [flat_map]; [ apply lexes_nil |].
  destruct Hmax as [Hmax|[_ [Hmax _]]]; [ congruence |]. rewrite app_nil_r. cbn [bline_tokens].
  replace (nm ++ str " <= " ++ show_int (v_max v) ++ [nl]) with ((nm ++ [sp]) ++ (str "<=" ++ [sp]) ++ show_int (v_max v) ++ [nl]) by (rewrite <- !app_assoc; reflexivity).
  change (nm :: op_tokens op_less Sp2 ++ signed_tokens (signed_int (v_max v))) with ([nm] ++ split [] (str "<=") ++ signed_tokens (signed_int (v_max v))).
  apply lexes_app; [ apply lexes_uncut; [ apply Hn | reflexivity ] |]. apply lexes_app; [ apply lexes_word; [ discriminate | reflexivity | reflexivity | cbn; unfold slot_size; lia | reflexivity ] |].
  apply lexes_int; [ exact Hmax | reflexivity ].
Qed.
Lemma lexes_names ty : forall vs, Forall var_writable vs -> lexes (write_names ty vs) (flat_map (fun nm => [nm]) (typed ty vs)).
Proof.
  induction 1 as [ |[nm v] vs [Hn _] _ IH ]; unfold write_names, typed in *; cbn [flat_map fst snd]; [ apply lexes_nil |]. rewrite flat_map_app. apply lexes_app; [ | exact IH ].
  cbn [fst snd] in *. destruct (type_eqb (v_type v) ty); cbn [flat_map app]; [ | apply lexes_nil ]. change (sp :: nm ++ [nl]) with ([sp] ++ nm ++ [nl]).
  change [nm] with ([] ++ [nm]). apply lexes_app; [ apply lexes_space; reflexivity | apply lexes_uncut; [ apply Hn | reflexivity ] ].
Qed.
Lemma lexes_keyword s : (exists w, str s = w /\ uncut w) -> lexes (line s) [str s].
Proof. intros [w [E H]]. unfold line. rewrite E. apply lexes_uncut; [ exact H | reflexivity ]. Qed.
Lemma combine_Forall {A B} (P : A * B -> Prop) : forall (a : list A) (b : list B), length b = length a ->
  (forall i x y, nth_error a i = Some x -> nth_error b i = Some y -> P (x, y)) -> Forall P (combine a b).
Proof.
  induction a as [ |x a IH ]; intros [ |y b ] Hl H; cbn [combine]; try constructor; try discriminate.
  - apply (H 0); reflexivity.
  - apply IH; [ cbn in Hl; lia |]. intros i u v Hu Hv. apply (H (S i)); assumption.
Qed.
Lemma writable_vars p : writable dn p -> Forall var_writable (combine (v_names (rw_vars p)) (v_values (rw_vars p))).
Proof.
  intros H. apply combine_Forall; [ apply (wf_values _ (wr_wf _ _ H)) |]. intros i x y Hx Hy. destruct (wr_bounds _ _ H i x y Hx Hy) as [H1 [H2 H3]].
  destruct (wr_names _ _ H) as [_ HN]. rewrite Forall_forall in HN. split; [ apply HN; eapply nth_error_In; exact Hx |]. split; [ exact H1 |]. split; [ exact H2 | exact H3 ].
Qed.
Lemma writable_csts p c : writable dn p -> In c (rw_equal p ++ rw_greater p ++ rw_less p) -> cst_writable (length (v_names (rw_vars p))) c.
Proof.
  intros H Hc. destruct (wr_constraints _ _ H c Hc) as [H1 [H2 H3]]. destruct (wf_constraints _ (wr_wf _ _ H) c Hc) as [H4 [_ H5]]. split; [ exact H1 |]. split; [ exact H2 |]. split; [ exact H4 |].
  rewrite Forall_forall in *. intros e He. destruct (H3 e He). split; [ assumption |]. split; [ assumption |]. apply H5, in_map, He.
Qed.
Lemma lexes_value v : (v = d_zero dn /\ d_gt dn (d_zero dn) (d_zero dn) = false) \/ printed dn v ->
  lexes ((if d_gt dn (d_zero dn) v then d_show dn v else if d_gt dn v (d_zero dn) then str " + " ++ d_show dn v else []) ++ [nl]) (flat_map oterm_tokens (constant v)).
Proof.
  intros Hv. unfold constant. destruct (d_gt dn (d_zero dn) v) eqn:E1.
  - destruct Hv as [[-> Hz]|Hv]; [ congruence |]. unfold printed in Hv. rewrite E1 in Hv. destruct Hv as [s [-> [Hs _]]]. cbn [tl flat_map oterm_tokens].
    rewrite app_nil_r. unfold signed_tokens. cbn [s_sign s_num sign_tokens]. apply lexes_minus; [ exact Hs | reflexivity ].
  - destruct (d_gt dn v (d_zero dn)) eqn:E2; [ | apply lexes_space; reflexivity ]. destruct Hv as [[-> Hz]|Hv]; [ congruence |]. unfold printed in Hv. rewrite E1 in Hv. destruct Hv as [_ [Hs _]].
    cbn [flat_map oterm_tokens]. rewrite app_nil_r. unfold signed_tokens. cbn [s_sign s_num sign_tokens].
    replace ((str " + " ++ d_show dn v) ++ [nl]) with ([sp] ++ (str "+" ++ [sp]) ++ d_show dn v ++ [nl]) by (rewrite <- app_assoc; reflexivity).
    change ([str "+"] ++ [d_show dn v]) with ([] ++ [str "+"] ++ [d_show dn v]). apply lexes_app; [ apply lexes_space; reflexivity |].
    apply lexes_app; [ apply lexes_word; [ discriminate | reflexivity | reflexivity | cbn; unfold slot_size; lia | reflexivity ] | apply lexes_number; [ exact Hs | reflexivity ] ].
Qed.
Lemma uncut_concrete w : (forallb is_char_name w && Nat.ltb (length w) 320 && match w with c :: _ => negb (starts_with_a_number c) | [] => false end)%bool = true -> uncut w.
Proof.
  intros H. apply andb_prop in H. destruct H as [H H3]. apply andb_prop in H. destruct H as [H1 H2]. split; [ exact H1 |]. split; [ apply Nat.ltb_lt; exact H2 |].
  destruct w; [ discriminate |]. chars. destruct (starts_with_a_number a); [ discriminate | reflexivity ].
Qed.
Lemma flat_map_o l : flat_map oterm_tokens (map O_var l) = flat_map term_tokens l.
Proof. induction l as [ |a l IH ]; cbn; [ reflexivity | rewrite IH; reflexivity ]. Qed.
Lemma write_problem_eq p : v_names (rw_vars p) <> [] -> write_problem dn p =
    let names := v_names (rw_vars p) in
    let vs := combine names (v_values (rw_vars p)) in
    do o <- write_delements dn names (rw_objective p);
    do q <- write_quadratic dn names (rw_quadratic p);
    do c <- write_constraints p;
    Some (line (match rw_type p with maximize => "maximize" | minimize => "minimize" end) ++ [nl] ++
          o ++ q ++
          (if d_gt dn (d_zero dn) (rw_value p) then d_show dn (rw_value p)
           else if d_gt dn (rw_value p) (d_zero dn) then str " + " ++ d_show dn (rw_value p) else []) ++
          [nl] ++ line "subject to" ++ c ++ line "bounds" ++ flat_map write_bound vs ++
          (if have vt_binary vs then line "binary" ++ write_names vt_binary vs else []) ++
          (if have vt_general vs then line "general" ++ write_names vt_general vs else []) ++
          line "end").
Proof. intros H. unfold write_problem. destruct (v_names (rw_vars p)); [ congruence | reflexivity ]. Qed.
Lemma lexes_section kw ty vs : uncut (str kw) -> Forall var_writable vs ->
  lexes (if have ty vs then line kw ++ write_names ty vs else [])
        (section_tokens (fun nm => [nm]) (if have ty vs then Some (mk_header [str kw] false, typed ty vs) else None)).
Proof.
  intros Hk HV. destruct (have ty vs); cbn [section_tokens]; [ | apply lexes_nil ]. unfold header_tokens. cbn [h_words h_colon]. rewrite app_nil_r.
  apply lexes_app; [ unfold line; apply lexes_uncut; [ exact Hk | reflexivity ] | apply lexes_names; exact HV ].
Qed.
Theorem write_lexes p : writable dn p -> exists t, write_problem dn p = Some t /\ lexes t (document_tokens (doc_of p)).
Proof.
  intros H. pose proof (wr_names _ _ H) as [Hne HN]. pose proof (writable_vars p H) as HV. rewrite (write_problem_eq p Hne). cbv zeta.
  destruct (lexes_delements (v_names (rw_vars p)) (rw_objective p) HN) as [o [Eo Lo]].
  { pose proof (wr_objective _ _ H) as Ho. destruct (wf_objective _ (wr_wf _ _ H)) as [_ Hi]. rewrite Forall_forall in *. intros e He. split; [ apply Ho, He |].
    apply Hi, in_map, He. }
  rewrite Eo. cbn [bind]. rewrite (wr_quadratic _ _ H). cbn [write_quadratic bind].
  assert (Hall : forall op l, (forall c, In c l -> In c (rw_equal p ++ rw_greater p ++ rw_less p)) ->
     exists t, write_all (write_constraint (v_names (rw_vars p)) (sep_of op)) l = Some t /\ lexes t (flat_map cst_tokens (map (cst_of (v_names (rw_vars p)) op) l))).
  { intros op l Hl. apply lexes_all. apply Forall_forall. intros c Hc. apply lexes_constraint; [ exact HN | apply writable_csts; auto ]. }
  unfold write_constraints. cbv zeta.
  destruct (Hall op_equal (rw_equal p)) as [te [Ee Le]]; [ intros c Hc; apply in_or_app; auto |].
  destruct (Hall op_greater (rw_greater p)) as [tg [Eg Lg]]; [ intros c Hc; apply in_or_app; right; apply in_or_app; auto |].
  destruct (Hall op_less (rw_less p)) as [tl_ [El Ll]]; [ intros c Hc; apply in_or_app; right; apply in_or_app; auto |].
  cbn [sep_of] in Ee, Eg, El. rewrite Ee. cbn [bind]. rewrite Eg. cbn [bind]. rewrite El. cbn [bind].
  eexists. split; [ reflexivity |]. unfold doc_of, document_tokens.
  cbn [dc_type dc_label dc_objective dc_subject dc_constraints dc_bounds dc_binary dc_general dc_end label_tokens app].
  set (vs := combine (v_names (rw_vars p)) (v_values (rw_vars p))) in *.
  match goal with |- lexes ((?a ++ nl :: ?s) ) (?ty :: ?r) => change (lexes (a ++ ([nl] ++ s)) ([ty] ++ [] ++ r)) end.
  apply lexes_app; [ destruct (rw_type p); unfold line; (apply lexes_uncut; [ apply uncut_concrete; reflexivity | reflexivity ]) |].
  apply lexes_app; [ apply lexes_space; reflexivity |]. rewrite flat_map_app, flat_map_o, <- !app_assoc.
  apply lexes_app; [ exact Lo |].
  match goal with |- lexes (?v ++ nl :: ?r) ?w => change (lexes (v ++ ([nl] ++ r)) w); rewrite (app_assoc v [nl] r) end.
  apply lexes_app; [ apply lexes_value; destruct (wr_value _ _ H) as [Hv|[Hv _]]; auto |].
  apply lexes_app.
  { change (line "subject to") with ((str "subject" ++ [sp]) ++ (str "to" ++ [nl])). unfold header_tokens. cbn [h_words h_colon app].
    change [str "subject"; str "to"] with ([str "subject"] ++ [str "to"]). apply lexes_app; apply lexes_uncut; try reflexivity; apply uncut_concrete; reflexivity. }
  rewrite !flat_map_app, <- !app_assoc. apply lexes_app; [ exact Le |]. apply lexes_app; [ exact Lg |]. apply lexes_app; [ exact Ll |].
  cbn [section_tokens]. unfold header_tokens at 1. cbn [h_words h_colon]. rewrite app_nil_r. rewrite <- app_assoc.
  apply lexes_app; [ unfold line; apply lexes_uncut; [ apply uncut_concrete; reflexivity | reflexivity ] |].
  apply lexes_app; [ apply lexes_bounds; exact HV |].
  apply lexes_app; [ apply lexes_section; [ apply uncut_concrete; reflexivity | exact HV ] |].
  apply lexes_app; [ apply lexes_section; [ apply uncut_concrete; reflexivity | exact HV ] |].
  unfold header_tokens. cbn [h_words h_colon]. rewrite app_nil_r. unfold line. apply lexes_uncut; [ apply uncut_concrete; reflexivity | reflexivity ].
Qed.

(** ** Whole files *)
Lemma lines_nonempty t : lines t <> [].
Proof. induction t as [ |c t IH ]; cbn [lines]; chars; [ discriminate |]. destruct (Ascii.eqb c nl); [ discriminate |]. destruct (lines t); [ congruence | discriminate ]. Qed.
Lemma words_lines : forall t cur h r, lines t = h :: r -> words_from cur h ++ flat_map words r = words_from cur t.
Proof.
  induction t as [ |c t IH ]; intros cur h r; cbn [lines]; chars; [ intros [= <- <-]; cbn; apply app_nil_r |].
  destruct (Ascii.eqb_spec c nl) as [->|Hc].
  - intros [= <- <-]. cbn [words_from flat_map]; chars. change (isspace nl) with true. cbv iota. f_equal.
    destruct (lines t) as [ |h' r' ] eqn:E; [ destruct (lines_nonempty t E) |]. cbn [flat_map]. apply (IH [] h' r' eq_refl).
  - destruct (lines t) as [ |h' r' ] eqn:E; [ destruct (lines_nonempty t E) |]. intros [= <- <-]. cbn [words_from]; chars. destruct (isspace c).
    + rewrite <- app_assoc. f_equal. apply IH. reflexivity.
    + apply IH. reflexivity.
Qed.
Lemma words_all_lines t : flat_map words (lines t) = words t.
Proof. destruct (lines t) as [ |h r ] eqn:E; [ destruct (lines_nonempty t E) |]. cbn [flat_map]. apply (words_lines t [] h r E). Qed.
Lemma uncomment_id ws : Forall (fun w => comment_word w = false) ws -> uncomment ws = ws.
Proof. induction 1 as [ |w ws H _ IH ]; cbn; [ reflexivity |]. rewrite H, IH. reflexivity. Qed.
Lemma lexes_file t toks : lexes t toks -> readable t /\ ends_plain t /\ file_tokens t = toks.
Proof.
  intros [ws [H1 [H2 [H3 H4]]]]. specialize (H1 []). rewrite app_nil_r in H1. change (words []) with (@nil text) in H1. rewrite app_nil_r in H1.
  pose proof (words_all_lines t) as Hw. rewrite H1 in Hw.
  assert (Hc : Forall (fun l => Forall (fun w => comment_word w = false) (words l)) (lines t)).
  { apply Forall_forall. intros l Hl. apply Forall_forall. intros w Hwl. rewrite Forall_forall in H3. apply H3. rewrite <- Hw. apply in_flat_map. eauto. }
  split; [ | split ].
  - split; [ exact H4 |]. rewrite Hw. eapply Forall_impl; [ | exact H3 ]. intros w [_ H]. exact H.
  - unfold ends_plain. set (L := filter _ _). destruct (existsb comment_word (last L [])) eqn:E; [ | reflexivity ]. exfalso.
    apply existsb_exists in E. destruct E as [w [Hw1 Hw2]]. assert (HL : L <> []) by (intros E; rewrite E in Hw1; destruct Hw1).
    assert (Hin : In (last L []) L). { destruct (exists_last HL) as [l' [a Ea]]. rewrite Ea. rewrite last_last. apply in_or_app. right. left. reflexivity. }
    unfold L in Hin at 2. apply filter_In in Hin. destruct Hin as [Hin _]. apply in_map_iff in Hin. destruct Hin as [l [El Hl]]. rewrite Forall_forall in Hc. specialize (Hc l Hl). rewrite El in Hc.
    rewrite Forall_forall in Hc. rewrite (Hc w Hw1) in Hw2. discriminate.
  - unfold file_tokens, file_words. rewrite <- H2. f_equal. rewrite <- Hw. clear - Hc. induction Hc as [ |l ls H _ IH ]; cbn [flat_map]; [ reflexivity |]. rewrite (uncomment_id _ H), IH. reflexivity.
Qed.
End Round_trip.
