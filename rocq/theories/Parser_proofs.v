(** The parser reads a document as the problem it describes. *)
From Coq Require Import Ascii String Lia.
From Verif Require Import Base Problem_model ResultIO_model Chars_spec Lexer_model Lexer_spec Lexer_proofs Parser_model Parser_spec.
Open Scope string_scope.
Open Scope list_scope.
Open Scope nat_scope.

(** ** Characters and tokens *)
Ltac words := chars; change is_one_of with any_of in *; change direction with read_objective_type in *.
Lemma text_eqb_spec a b : reflect (a = b) (text_eqb a b).
Proof. unfold text_eqb. destruct (list_eq_dec ascii_dec a b); constructor; auto. Qed.
Lemma text_eqb_refl a : text_eqb a a = true.
Proof. destruct (text_eqb_spec a a); congruence. Qed.
Lemma text_eqb_neq a b : a <> b -> text_eqb a b = false.
Proof. destruct (text_eqb_spec a b); congruence. Qed.
Lemma text_eqb_sym a b : text_eqb a b = text_eqb b a.
Proof. destruct (text_eqb_spec a b), (text_eqb_spec b a); congruence. Qed.
Lemma are_equal_sym a b : are_equal a b = are_equal b a.
Proof.
  revert b. induction a as [ |c a IH ]; intros [ |d b ]; cbn; auto. rewrite IH. f_equal.
  apply Ascii.eqb_sym.
Qed.
Lemma are_equal_iff a b : are_equal a b = true <-> map tolower a = map tolower b.
Proof.
  revert b. induction a as [ |c a IH ]; intros [ |d b ]; cbn; split; intros H; try discriminate; auto.
  - apply andb_true_iff in H. destruct H as [H1 H2]. apply Ascii.eqb_eq in H1. apply IH in H2. congruence.
  - injection H as H1 H2. apply andb_true_iff. split; [ apply Ascii.eqb_eq; exact H1 | apply IH; exact H2 ].
Qed.
Definition num_start (c : ascii) : bool := is_digit c || Ascii.eqb c "."%char.
(** A fact about every character, by computation. *)
Lemma all_chars (f : ascii -> bool) : forallb (fun n => f (ascii_of_nat n)) (seq 0 256) = true -> forall c, f c = true.
Proof.
  intros H c. rewrite forallb_forall in H. specialize (H (nat_of_ascii c)). rewrite ascii_nat_embedding in H. apply H.
  apply in_seq. split; [ lia |]. apply nat_ascii_bounded.
Qed.
Definition sum_char (c : ascii) : bool := is_char_name c || num_start c.
Definition none_of (c : ascii) (l : text) : bool := negb (isc c l).
Lemma none_of_neq c l d : none_of c l = true -> In d l -> c <> d.
Proof.
  unfold none_of, isc. intros H Hd ->. apply negb_true_iff in H.
  assert (existsb (Ascii.eqb d) l = true) by (apply existsb_exists; exists d; split; [ assumption | apply Ascii.eqb_refl ]). congruence.
Qed.
Definition special : text := str "-+[:=<>*]^".
Lemma sum_char_facts c : sum_char c = true ->
  is_char_operator c = false /\ none_of c special = true /\ Ascii.eqb (tolower c) ":"%char = false /\
  is_separator c = false /\ isspace c = false /\ is_nul c = false.
Proof.
  intros H. pose proof (all_chars (fun c => implb (sum_char c) (negb (is_char_operator c) && none_of c special &&
     negb (Ascii.eqb (tolower c) ":"%char) && negb (is_separator c) && negb (isspace c) && negb (is_nul c))) ltac:(vm_compute; reflexivity) c) as A.
  cbv beta in A. rewrite H in A. cbn [implb] in A. repeat (apply andb_true_iff in A; destruct A as [A ?]).
  rewrite negb_true_iff in *. auto 6.
Qed.
Lemma num_start_facts c : num_start c = true ->
  Ascii.eqb (tolower c) "i"%char = false /\ is_number c = true /\
  existsb (fun k => match k with d :: _ => Ascii.eqb (tolower d) (tolower c) | [] => false end) keywords = false.
Proof.
  intros H. pose proof (all_chars (fun c => implb (num_start c) (negb (Ascii.eqb (tolower c) "i"%char) && is_number c &&
     negb (existsb (fun k => match k with d :: _ => Ascii.eqb (tolower d) (tolower c) | [] => false end) keywords))) ltac:(vm_compute; reflexivity) c) as A.
  cbv beta in A. rewrite H in A. cbn [implb] in A. repeat (apply andb_true_iff in A; destruct A as [A ?]).
  rewrite negb_true_iff in *. auto.
Qed.

(** Tokens that start an element of a sum. *)
Definition plain (t : text) : Prop := exists c r, t = c :: r /\ sum_char c = true.
Lemma plain_facts t : plain t ->
  starts_with_operator t = false /\ t <> [] /\ t <> str "-" /\ t <> str "+" /\ t <> str "[" /\ t <> str ":" /\ t <> str "=" /\
  t <> str "<" /\ t <> str ">" /\ are_equal t (str ":") = false.
Proof.
  intros [c [r [-> H]]]. destruct (sum_char_facts _ H) as [F1 [F2 [F3 _]]].
  assert (G : forall d, In d special -> c :: r <> [d]).
  { intros d Hd E. injection E as E _. exact (none_of_neq _ _ _ F2 Hd E). }
  split; [ exact F1 |]. split; [ discriminate |].
  repeat (split; [ apply G; cbn; tauto |]).
  cbn [str String.list_ascii_of_string are_equal]. change (tolower ":"%char) with ":"%char. rewrite F3. reflexivity.
Qed.

Section Read.
Context {D : Type} (dn : dops D).

Lemma num_plain n : num_ok dn n -> plain n.
Proof.
  intros [[c [r [-> H]]] _]. chars. exists c, r. split; [ reflexivity |]. unfold sum_char, num_start. rewrite H. apply orb_true_r.
Qed.
Lemma name_plain n : name_ok dn n -> plain n.
Proof.
  intros [H1 [H2 _]]. chars. destruct n as [ |c r ]; [ congruence |]. cbn in H2. apply andb_true_iff in H2. exists c, r. split; [ reflexivity |].
  unfold sum_char. destruct H2 as [-> _]. reflexivity.
Qed.
Lemma num_not_keyword n : num_ok dn n -> is_keyword n = false.
Proof.
  intros [[c [r [-> H]]] _]. chars. pose proof (num_start_facts _ H) as F. destruct F as [_ [_ F]].
  unfold is_keyword. clear H. revert F. induction keywords as [ |k l IH ]; cbn [existsb]; intros F; [ reflexivity |].
  apply orb_false_iff in F. destruct F as [F1 F2]. rewrite IH by exact F2.
  destruct k as [ |d k ]; [ reflexivity |]. cbn [are_equal]. rewrite F1. reflexivity.
Qed.
Lemma read_num n : num_ok dn n -> read_real1 dn n = P_ok (Some (value_of dn n)).
Proof.
  intros [[c [r [-> H]]] [Hl Hs]]. chars. pose proof (num_start_facts _ H) as F. unfold read_real1.
  replace (are_equal (c :: r) (str "inf")) with false.
  2:{ symmetry. cbn [str String.list_ascii_of_string are_equal]. change (tolower "i"%char) with "i"%char.
      destruct F as [F _]. rewrite F. reflexivity. }
  rewrite andb_false_r. destruct (Nat.ltb_spec 320 (length (c :: r))); [ lia |].
  destruct (Nat.eqb_spec (length (c :: r)) 320); [ lia |]. unfold value_of. destruct (d_scan dn (c :: r)); [ reflexivity | congruence ].
Qed.
Lemma read_nam n : name_ok dn n -> read_real1 dn n = P_ok None.
Proof.
  intros [H1 [H2 [H3 [H4 [H5 H6]]]]]. chars. unfold read_real1. rewrite H5, andb_false_r.
  destruct (Nat.ltb_spec 320 (length n)); [ lia |]. destruct (Nat.eqb_spec (length n) 320); [ lia |]. rewrite H6. reflexivity.
Qed.
Lemma name_read_name n : name_ok dn n -> read_name n = Some n.
Proof. intros [H1 [H2 _]]. chars. unfold read_name. rewrite H2. reflexivity. Qed.
Lemma name_starts n : name_ok dn n -> starts_with_name n = true.
Proof. intros [H1 [H2 _]]. chars. destruct n; [ congruence |]. cbn in H2 |- *. apply andb_true_iff in H2. apply H2. Qed.
Lemma name_not_keyword n : name_ok dn n -> is_keyword n = false.
Proof. intros H. change (keyword n = false). apply H. Qed.

Definition tk (toks : list text) (i : nat) : text := nth i toks [].
Lemma eqb_str t s : t <> str s -> text_eqb t (str s) = false. Proof. apply text_eqb_neq. Qed.

(** read_real on a signed number, and on a sign before a name *)
Lemma read_signed s r : signed_ok dn s ->
  read_real2 dn (tk (signed_tokens s ++ r) 0) (tk (signed_tokens s ++ r) 1) = P_ok (signed_value dn s, length (signed_tokens s)).
Proof.
  intros H. destruct s as [[[]|] n]; unfold signed_ok in H; cbn [s_num s_sign] in *;
    unfold signed_tokens, signed_value, tk; cbn [sign_tokens s_sign s_num app nth length with_sign]; unfold read_real2.
  - cbn [text_eqb]. change (text_eqb (str "+") (str "-")) with false. change (text_eqb (str "+") (str "+")) with true.
    cbv iota. rewrite (read_num n H). reflexivity.
  - change (text_eqb (str "-") (str "-")) with true. cbv iota. rewrite (read_num n H). reflexivity.
  - pose proof (plain_facts _ (num_plain _ H)) as F.
    rewrite !eqb_str by apply F. rewrite (read_num n H). reflexivity.
Qed.
Lemma read_term t r : term_ok dn t ->
  read_function_element dn (tk (term_tokens t ++ r) 0) (tk (term_tokens t ++ r) 1) (tk (term_tokens t ++ r) 2) =
    P_ok (Some (term_value dn t, t_var t, length (term_tokens t))).
Proof.
  intros [Hn Hm]. destruct t as [s m nm]; cbn [t_sign t_num t_var] in *.
  pose proof (plain_facts _ (name_plain _ Hn)) as Fn.
  unfold term_tokens, term_value, tk, read_function_element, read_real2; cbn [t_sign t_num t_var].
  assert (Hk : negb (is_keyword nm) && starts_with_name nm = true) by (rewrite (name_not_keyword _ Hn), (name_starts _ Hn); reflexivity).
  destruct s as [[]|], m as [n|]; cbn [sign_tokens num_tokens app nth length];
    try (change (text_eqb (str "+") (str "-")) with false); try (change (text_eqb (str "+") (str "+")) with true);
    try (change (text_eqb (str "-") (str "-")) with true); cbv iota.
  - rewrite (read_num n Hm). cbn [pbind pick]. rewrite Hk, (name_read_name _ Hn). reflexivity.
  - rewrite (read_nam nm Hn). cbn [pbind pick]. rewrite Hk, (name_read_name _ Hn). reflexivity.
  - rewrite (read_num n Hm). cbn [pbind pick]. rewrite Hk, (name_read_name _ Hn). reflexivity.
  - rewrite (read_nam nm Hn). cbn [pbind pick]. rewrite Hk, (name_read_name _ Hn). reflexivity.
  - pose proof (plain_facts _ (num_plain _ Hm)) as F. rewrite !eqb_str by apply F.
    rewrite (read_num n Hm). cbn [pbind pick]. rewrite Hk, (name_read_name _ Hn). reflexivity.
  - rewrite !eqb_str by apply Fn. rewrite (read_nam nm Hn). cbn [pbind pick]. rewrite Hk, (name_read_name _ Hn). reflexivity.
Qed.
Lemma read_constant s r : signed_ok dn s -> is_keyword (tk r 0) = true \/ starts_with_name (tk r 0) = false ->
  read_function_element dn (tk (signed_tokens s ++ r) 0) (tk (signed_tokens s ++ r) 1) (tk (signed_tokens s ++ r) 2) =
    P_ok (Some (signed_value dn s, [], length (signed_tokens s))).
Proof.
  intros H Hr. unfold read_function_element. rewrite (read_signed s r H). cbn [pbind].
  assert (Hp : pick (length (signed_tokens s)) (tk (signed_tokens s ++ r) 0) (tk (signed_tokens s ++ r) 1) (tk (signed_tokens s ++ r) 2) = tk r 0).
  { destruct s as [[[]|] n]; reflexivity. }
  rewrite Hp. replace (negb (is_keyword (tk r 0)) && starts_with_name (tk r 0)) with false; [ reflexivity |].
  destruct Hr as [->| ->]; [ reflexivity | symmetry; apply andb_false_r ].
Qed.
Lemma read_op op sp s r : signed_ok dn s ->
  read_operator (tk (op_tokens op sp ++ signed_tokens s ++ r) 0) (tk (op_tokens op sp ++ signed_tokens s ++ r) 1) = Some (op, length (op_tokens op sp)).
Proof.
  intros H. pose proof (plain_facts _ (num_plain _ H)) as F.
  destruct op, sp; unfold tk; cbn [op_tokens app nth length]; unfold read_operator;
    destruct s as [[[]|] n]; cbn [signed_tokens sign_tokens s_sign s_num app nth] in *; try reflexivity;
    rewrite ?(eqb_str n "=") by apply F; rewrite ?(eqb_str n "<") by apply F; rewrite ?(eqb_str n ">") by apply F; reflexivity.
Qed.

(** ** The buffer *)
Definition at_ (b : sbuf) (toks : list text) : Prop := repr b toks.
Lemma repr_first b toks : repr b toks -> first b = tk toks 0. Proof. intros H. apply token_at_ok; [ exact H | lia ]. Qed.
Lemma repr_second b toks : repr b toks -> second b = tk toks 1. Proof. intros H. apply token_at_ok; [ exact H | lia ]. Qed.
Lemma repr_third b toks : repr b toks -> third b = tk toks 2. Proof. intros H. apply token_at_ok; [ exact H | lia ]. Qed.
Lemma pop_app l r b : repr b (l ++ r) -> 1 <= length l < 10 -> exists b', pop (length l) b = Some b' /\ repr b' r.
Proof.
  intros H Hl. destruct (pop_ok _ _ _ H Hl) as [b' [E R]]. exists b'. split; [ exact E |].
  rewrite skipn_app, skipn_all, Nat.sub_diag in R. exact R.
Qed.
Lemma term_len t : 1 <= length (term_tokens t) < 10.
Proof. destruct t as [[[]|] [?|] ?]; cbn; lia. Qed.
Lemma signed_len s : 1 <= length (signed_tokens s) < 10.
Proof. destruct s as [[[]|] ?]; cbn; lia. Qed.
Lemma op_len op sp : 1 <= length (op_tokens op sp) < 10.
Proof. destruct op, sp; cbn; lia. Qed.

(** First token of an element *)
Definition head_ok (l : list text) : Prop := exists x y, l = x :: y /\
  (plain x \/ ((x = str "+" \/ x = str "-") /\ exists z w, y = z :: w /\ plain z)) /\
  is_keyword x = false /\ starts_with_operator x = false /\ x <> [].
Lemma head_plain x y : plain x -> is_keyword x = false -> head_ok (x :: y).
Proof. intros H Hk. pose proof (plain_facts _ H) as F. exists x, y. split; [ reflexivity |]. split; [ auto |]. split; [ exact Hk |]. split; apply F. Qed.
Lemma head_sign s z w : plain z -> head_ok (sign_tokens (Some s) ++ z :: w).
Proof.
  intros H. destruct s; cbn [sign_tokens app]; eexists _, _; (split; [ reflexivity |]); (split; [ right; split; [ auto | eauto ] |]);
    (split; [ reflexivity | split; [ reflexivity | discriminate ]]).
Qed.
Lemma term_head t r : term_ok dn t -> head_ok (term_tokens t ++ r).
Proof.
  intros [Hn Hm]. destruct t as [s m nm]; cbn [t_sign t_num t_var] in *. unfold term_tokens; cbn [t_sign t_num t_var].
  rewrite <- !app_assoc. destruct s as [s|], m as [n|]; cbn [num_tokens app].
  - apply head_sign, num_plain, Hm.
  - apply head_sign, (name_plain _ Hn).
  - apply head_plain; [ apply num_plain, Hm | apply num_not_keyword, Hm ].
  - apply head_plain; [ apply (name_plain _ Hn) | apply (name_not_keyword _ Hn) ].
Qed.
Lemma signed_head s r : signed_ok dn s -> head_ok (signed_tokens s ++ r).
Proof.
  intros Hm. destruct s as [s n]; unfold signed_ok in Hm; cbn [s_sign s_num] in *. unfold signed_tokens; cbn [s_sign s_num].
  rewrite <- !app_assoc. destruct s as [s|]; cbn [app].
  - apply head_sign, num_plain, Hm.
  - apply head_plain; [ apply num_plain, Hm | apply num_not_keyword, Hm ].
Qed.
Lemma not_quadratic x y : (plain x \/ ((x = str "+" \/ x = str "-") /\ exists z w, y = z :: w /\ plain z)) ->
  starts_with_quadratic x (tk y 0) = false.
Proof.
  intros [H|[[->| ->] [z [w [-> H]]]]]; unfold starts_with_quadratic, tk; pose proof (plain_facts _ H) as F.
  - rewrite (eqb_str x "["), (eqb_str x "+"), (eqb_str x "-") by apply F. reflexivity.
  - cbn [nth]. rewrite (eqb_str z) by apply F. reflexivity.
  - cbn [nth]. rewrite (eqb_str z) by apply F. reflexivity.
Qed.
End Read.
