(** The bounds, the binary and general variables, and the whole file. *)
From Coq Require Import Ascii String Lia.
From Verif Require Import Base Problem_model ResultIO_model Chars_spec Lexer_model Lexer_spec Lexer_proofs Parser_model Parser_spec
  Parser_proofs Parser_proofs2 Parser_proofs3 Parser_proofs4 Parser_proofs5 Accept_spec Accept_proofs.
Open Scope string_scope.
Open Scope list_scope.
Open Scope nat_scope.

Section Sound.
Context {D : Type} (dn : dops D).
Local Notation raw_problem := (raw_problem (D := D)).
Local Notation number := (number dn).

(** ** Bounds *)
Lemma left_sound t v n : read_left_bound dn (t 0) (t 1) (t 2) (t 3) = P_ok (Some (v, n)) ->
  exists s op sp, v = line_number dn s /\ is_num dn (s_num s) /\ n = length (signed_tokens s ++ op_tokens op sp) /\ n <= 4 /\ signed_tokens s ++ op_tokens op sp = map t (seq 0 n).
Proof.
  unfold read_left_bound. intros H.
  assert (Hs : forall s : sign, t 0 = match s with Plus => str "+" | Minus => str "-" end ->
    (let? v0 := read_real1 dn (t 1) in P_ok (do v1 <- v0; do (_, read) <- read_operator (t 2) (t 3); Some (match s with Plus => v1 | Minus => d_neg dn v1 end, read + 2))) = P_ok (Some (v, n)) ->
    exists s op sp, v = line_number dn s /\ is_num dn (s_num s) /\ n = length (signed_tokens s ++ op_tokens op sp) /\ n <= 4 /\ signed_tokens s ++ op_tokens op sp = map t (seq 0 n)).
  { intros s E0 K. destruct (read_real1 dn (t 1)) as [o| | |] eqn:E; cbn [pbind] in K; try discriminate. apply read_real1_sound in E.
    destruct o as [d|]; cbn [bind] in K; [|discriminate]. destruct (read_operator (t 2) (t 3)) as [[op r]|] eqn:Eo; cbn [bind] in K; [|discriminate].
    apply read_operator_sound in Eo. destruct Eo as (sp & En & Et). injection K as <- <-. exists (mk_signed (Some s) (t 1)), op, sp.
    unfold line_number, signed_tokens, is_num. cbn [s_sign s_num number_of with_sign]. rewrite <- E. split; [destruct s; reflexivity|]. split; [discriminate|].
    assert (L : r <= 2) by (rewrite En; destruct op, sp; cbn; lia).
    split; [rewrite !app_length, <- En; destruct s; cbn; lia|]. split; [lia|]. rewrite Et.
    replace (sign_tokens (Some s)) with [t 0] by (rewrite E0; destruct s; reflexivity). destruct r as [|[|[|r]]]; try reflexivity; lia. }
  destruct (text_eqb_spec (t 0) (str "+")) as [E0|N0]; cbn [orb] in H.
  - apply (Hs Plus E0). rewrite E0 in H. exact H.
  - destruct (text_eqb_spec (t 0) (str "-")) as [E1|N1].
    + apply (Hs Minus E1). exact H.
    + destruct (read_real1 dn (t 0)) as [o| | |] eqn:E; cbn [pbind] in H; try discriminate. apply read_real1_sound in E.
      destruct o as [d|]; cbn [bind] in H; [|discriminate]. destruct (read_operator (t 1) (t 2)) as [[op r]|] eqn:Eo; cbn [bind] in H; [|discriminate].
      apply read_operator_sound in Eo. destruct Eo as (sp & En & Et). injection H as <- <-. exists (mk_signed None (t 0)), op, sp.
      unfold line_number, signed_tokens, is_num. cbn [s_sign s_num number_of with_sign]. rewrite <- E. split; [reflexivity|]. split; [discriminate|].
      assert (L : r <= 2) by (rewrite En; destruct op, sp; cbn; lia).
      split; [rewrite !app_length, <- En; cbn; lia|]. split; [lia|]. rewrite Et. destruct r as [|[|[|r]]]; try reflexivity; lia.
Qed.
Lemma right_sound (t : nat -> text) k v n : read_right_bound dn (t k) (t (k + 1)) (t (k + 2)) (t (k + 3)) = P_ok (Some (v, n)) ->
  exists op sp s, v = line_number dn s /\ is_num dn (s_num s) /\ n = length (op_tokens op sp ++ signed_tokens s) /\ n <= 4 /\ op_tokens op sp ++ signed_tokens s = map t (seq k n).
Proof.
  unfold read_right_bound. intros H. destruct (read_operator (t k) (t (k + 1))) as [[op r]|] eqn:Eo; [|discriminate].
  apply read_operator_sound in Eo. destruct Eo as (sp & En & Et).
  assert (L : r = 1 \/ r = 2) by (rewrite En; destruct op, sp; cbn; lia).
  replace (if Nat.eqb r 1 then (t (k + 1), t (k + 2)) else (t (k + 2), t (k + 3))) with (t (k + r), t (k + r + 1)) in H
    by (destruct L as [-> | ->]; cbn [Nat.eqb]; [replace (k + 1 + 1) with (k + 2) by lia|replace (k + 2 + 1) with (k + 3) by lia]; reflexivity).
  assert (Q : op_tokens op sp = map t (seq k r)) by (rewrite Et; destruct L as [->| ->]; cbn; rewrite ?Nat.add_1_r; reflexivity).
  destruct (text_eqb (t (k + r)) (str "+") || text_eqb (t (k + r)) (str "-")) eqn:Es.
  - assert (Hsg : exists sg : sign, t (k + r) = match sg with Plus => str "+" | Minus => str "-" end /\ forall d, (if text_eqb (t (k + r)) (str "-") then d_neg dn d else d) = with_sign dn (Some sg) d).
    { destruct (text_eqb_spec (t (k + r)) (str "-")) as [Em|Nm]; [exists Minus; split; [exact Em|reflexivity]|]. exists Plus. split; [|reflexivity].
      rewrite orb_false_r in Es. destruct (text_eqb_spec (t (k + r)) (str "+")) as [Ep|]; [exact Ep|discriminate]. }
    destruct Hsg as (sg & Eg & Hg).
    destruct (read_real1 dn (t (k + r + 1))) as [o| | |] eqn:E; cbn [pbind] in H; try discriminate. apply read_real1_sound in E.
    destruct o as [d|]; cbn [bind] in H; [|discriminate]. rewrite Hg in H. injection H as <- <-.
    exists op, sp, (mk_signed (Some sg) (t (k + r + 1))). unfold line_number, is_num, signed_tokens.
    cbn [s_sign s_num number_of]. rewrite <- E. split; [reflexivity|]. split; [discriminate|].
    split; [rewrite !app_length, <- En; destruct sg; cbn; lia|]. split; [lia|]. rewrite seq_app, map_app, <- Q. f_equal. cbn [seq map].
    replace (S (k + r)) with (k + r + 1) by lia. rewrite Eg. destruct sg; reflexivity.
  - destruct (read_real1 dn (t (k + r))) as [o| | |] eqn:E; cbn [pbind] in H; try discriminate. apply read_real1_sound in E.
    destruct o as [d|]; cbn [bind] in H; [|discriminate]. injection H as <- <-.
    exists op, sp, (mk_signed None (t (k + r))). unfold line_number, is_num, signed_tokens. cbn [s_sign s_num number_of with_sign sign_tokens app]. rewrite <- E.
    split; [reflexivity|]. split; [discriminate|]. split; [rewrite !app_length, <- En; cbn; lia|]. split; [lia|]. rewrite seq_app, map_app, <- Q. reflexivity.
Qed.
(** What does not depend on the names of the problem. *)
Definition line_shape (l : bound_line) : Prop :=
  forallb char_name (line_name l) = true /\
  match l with
  | L_free nm => number_like nm = false
  | L_right nm _ _ v => number_like nm = false /\ is_num dn (s_num v)
  | L_left v _ _ _ skipped => signed_start v /\ is_num dn (s_num v) /\ operator_like skipped = false
  | L_both v1 _ _ _ _ _ v2 => signed_start v1 /\ is_num dn (s_num v1) /\ is_num dn (s_num v2) /\ d_gt dn (line_number dn v1) (line_number dn v2) = false
  end.
Lemma read_bound_sound t bd : read_bound dn t = P_ok (Some bd) ->
  exists l, bd_name bd = line_name l /\ bd_min bd = line_low dn l /\ bd_max bd = line_high dn l /\ bd_read bd = length (line_tokens l) /\ bd_read bd < 10 /\
    line_tokens l = map t (seq 0 (bd_read bd)) /\ line_shape l.
Proof.
  unfold read_bound. intros H. destruct (starts_with_number (t 0)) eqn:Sn.
  - destruct (read_left_bound dn (t 0) (t 1) (t 2) (t 3)) as [[[lv r]|]| | |] eqn:E1; cbn [pbind] in H; try discriminate.
    apply left_sound in E1. destruct E1 as (s & op & sp & Hv & Hs & En & L & Et).
    assert (Hst : signed_start s).
    { intros E0. unfold signed_tokens in Et, En. rewrite E0 in Et, En. cbn [sign_tokens app length] in En, Et. rewrite En in Et. cbn [seq map] in Et. injection Et as Et _. rewrite Et. exact Sn. }
    unfold read_name in H. destruct (forallb is_char_name (t r)) eqn:F; [|discriminate].
    destruct (starts_with_operator (t (S r))) eqn:So; cbn [negb] in H.
    + destruct (read_right_bound dn (t (S r)) (t (S r + 1)) (t (S r + 2)) (t (S r + 3))) as [[[rv r2]|]| | |] eqn:E2; cbn [pbind] in H; try discriminate.
      destruct (d_gt dn lv rv) eqn:G; [discriminate|]. injection H as <-. apply right_sound in E2. destruct E2 as (op2 & sp2 & s2 & Hv2 & Hs2 & En2 & L2 & Et2).
      exists (L_both s op sp (t r) op2 sp2 s2). cbn [bd_name bd_min bd_max bd_read line_name line_low line_high line_tokens]. split; [reflexivity|]. split; [exact Hv|]. split; [exact Hv2|].
      split; [rewrite app_assoc, app_length, <- En; cbn [length]; rewrite <- En2; lia|]. split; [lia|].
      split; [|split; [exact F|split; [exact Hst|split; [exact Hs|split; [exact Hs2|rewrite <- Hv, <- Hv2; exact G]]]]].
      rewrite app_assoc, Et, Et2. change (S r + r2) with (S (r + r2)). replace (S (r + r2)) with (r + S r2) by lia. rewrite seq_app, map_app. reflexivity.
    + injection H as <-. exists (L_left s op sp (t r) (t (S r))). cbn [bd_name bd_min bd_max bd_read line_name line_low line_high line_tokens].
      split; [reflexivity|]. split; [exact Hv|]. split; [reflexivity|]. split; [rewrite app_assoc, app_length, <- En; cbn [length]; lia|]. split; [lia|].
      split; [|split; [exact F|split; [exact Hst|split; [exact Hs|exact So]]]]. rewrite app_assoc, Et. change (S r + 1) with (S (r + 1)). replace (S (r + 1)) with (r + 2) by lia. rewrite seq_app, map_app. reflexivity.
  - destruct (starts_with_name (t 0)) eqn:Sm; [|discriminate]. unfold read_name in H. destruct (forallb is_char_name (t 0)) eqn:F; [|discriminate].
    destruct (starts_with_operator (t 1)) eqn:So.
    + destruct (read_right_bound dn (t 1) (t 2) (t 3) (t 4)) as [[[rv r2]|]| | |] eqn:E2; cbn [pbind] in H; try discriminate. injection H as <-.
      apply (right_sound t 1) in E2. destruct E2 as (op2 & sp2 & s2 & Hv2 & Hs2 & En2 & L2 & Et2).
      exists (L_right (t 0) op2 sp2 s2). cbn [bd_name bd_min bd_max bd_read line_name line_low line_high line_tokens length]. split; [reflexivity|]. split; [reflexivity|].
      split; [exact Hv2|]. split; [rewrite <- En2; lia|]. split; [lia|]. split; [rewrite Et2; reflexivity|]. split; [exact F|]. split; [exact Sn|exact Hs2].
    + injection H as <-. exists (L_free (t 0)). cbn [bd_name bd_min bd_max bd_read line_name line_low line_high line_tokens length].
      split; [reflexivity|]. split; [reflexivity|]. split; [reflexivity|]. split; [reflexivity|]. split; [lia|]. split; [reflexivity|]. split; [exact F|exact Sn].
Qed.
Definition set_line (l : bound_line) (v : variable_value) : variable_value := mk_variable_value (low_of dn (line_low dn l)) (high_of dn (line_high dn l)) (v_type v).
Lemma name_index_some nm N i : name_index nm N = Some i -> In nm N /\ i = position nm N.
Proof.
  intros H. destruct (in_dec (list_eq_dec ascii_dec) nm N) as [K|K]; [|rewrite (name_index_notin _ _ K) in H; discriminate].
  rewrite (name_index_in _ _ K) in H. split; [exact K|congruence].
Qed.
Lemma set_line_sound N h bd l vs : NoDup N -> set_bound_variable dn bd (vars_of N h) = P_ok vs ->
  bd_name bd = line_name l -> bd_min bd = line_low dn l -> bd_max bd = line_high dn l -> line_shape l ->
  line_ok dn N l /\ vs = vars_of N (fun x => if text_eqb x (line_name l) then set_line l (h x) else h x).
Proof.
  intros Hd H E1 E2 E3 Hl. unfold set_bound_variable, get_variable in H. cbn [vars_of v_names] in H.
  destruct (name_index (bd_name bd) N) as [id|] eqn:Ei; cbn [or_error pbind] in H; [|discriminate].
  destruct (bound_min dn (bd_min bd)) as [mn| | |] eqn:Em; cbn [pbind] in H; try discriminate.
  destruct (bound_max dn (bd_max bd)) as [mx| | |] eqn:Ex; cbn [pbind] in H; try discriminate.
  apply name_index_some in Ei. destruct Ei as [Hin ->]. change (mk_variables N (map h N)) with (vars_of N h) in H. rewrite (set_value_ok N h _ _ Hd Hin) in H. injection H as <-.
  rewrite E1 in *. unfold bound_min in Em. unfold bound_max in Ex. rewrite E2 in Em. rewrite E3 in Ex. destruct Hl as [F Hl].
  assert (Lm : mn = low_of dn (line_low dn l) /\ (d_is_ninf dn (line_low dn l) = true \/ int_ok dn (line_low dn l))).
  { unfold low_of, int_ok, int_of. destruct (d_is_ninf dn (line_low dn l)); [injection Em as <-; auto|]. destruct (d_int dn (line_low dn l)); cbn [or_abort] in Em; [|discriminate]. injection Em as <-. split; [reflexivity|right; discriminate]. }
  assert (Lx : mx = high_of dn (line_high dn l) /\ (d_is_pinf dn (line_high dn l) = true \/ int_ok dn (line_high dn l))).
  { unfold high_of, int_ok, int_of. destruct (d_is_pinf dn (line_high dn l)); [injection Ex as <-; auto|]. destruct (d_int dn (line_high dn l)); cbn [or_abort] in Ex; [|discriminate]. injection Ex as <-. split; [reflexivity|right; discriminate]. }
  destruct Lm as [-> Lm], Lx as [-> Lx]. split; [|reflexivity]. unfold line_ok. split; [exact Hin|]. split; [exact F|]. split; [exact Lm|]. split; [exact Lx|]. exact Hl.
Qed.
Definition line_step (h : text -> variable_value) (l : bound_line) : text -> variable_value := fun x => if text_eqb x (line_name l) then set_line l (h x) else h x.
Lemma bounds_sound : forall fuel b N h b' vs' toks, NoDup N -> bounds_loop dn fuel b (vars_of N h) = P_ok (b', vs') -> repr b toks ->
  exists ls rest, toks = flat_map line_tokens ls ++ rest /\ Forall (line_ok dn N) ls /\ repr b' rest /\ is_keyword (tk rest 0) = true /\ vs' = vars_of N (fold_left line_step ls h).
Proof.
  assert (Hstop : forall b N h b' vs' toks, P_ok (b, vars_of N h) = P_ok (b', vs') -> repr b toks -> is_keyword (first b) = true ->
    exists ls rest, toks = flat_map line_tokens ls ++ rest /\ Forall (line_ok dn N) ls /\ repr b' rest /\ is_keyword (tk rest 0) = true /\ vs' = vars_of N (fold_left line_step ls h)).
  { intros b N h b' vs' toks H HR K. injection H as <- <-. exists [], toks. rewrite (repr_first _ _ HR) in K. split; [reflexivity|]. split; [constructor|]. split; [exact HR|]. split; [exact K|reflexivity]. }
  induction fuel as [|fuel IH]; intros b N h b' vs' toks Hd H HR; cbn [bounds_loop] in H; (destruct (is_keyword (first b)) eqn:K; [eapply Hstop; eassumption|]); [discriminate|].
  destruct (read_bound dn (token_at b)) as [[bd|]| | |] eqn:E1; cbn [pbind or_error] in H; try discriminate.
  destruct (set_bound_variable dn bd (vars_of N h)) as [vs1| | |] eqn:E2; cbn [pbind] in H; try discriminate.
  destruct (pop (bd_read bd) b) as [b1|] eqn:E3; cbn [or_abort pbind] in H; [|discriminate].
  apply read_bound_sound in E1. destruct E1 as (l & Q1 & Q2 & Q3 & Q4 & Q5 & Q6 & Q7).
  destruct (set_line_sound N h bd l vs1 Hd E2 Q1 Q2 Q3 Q7) as [Hl ->]. destruct (pop_sound _ _ _ _ HR E3) as [_ R1].
  change (vars_of N (fun x => if text_eqb x (line_name l) then set_line l (h x) else h x)) with (vars_of N (line_step h l)) in H.
  destruct (IH _ _ _ _ _ _ Hd H R1) as (ls & rest & T & Hls & R' & K' & V').
  assert (Hlen : bd_read bd < length toks).
  { apply skipn_more. rewrite T. intros E0. apply app_eq_nil in E0. destruct E0 as [_ E0]. exact (keyword_nonempty _ K' E0). }
  exists (l :: ls), rest. split; [|split; [constructor; assumption|split; [exact R'|split; [exact K'|exact V']]]].
  cbn [flat_map]. rewrite <- app_assoc, <- T, Q6. rewrite (tk_seq (bd_read bd) toks) at 1 by lia. f_equal. apply map_ext_in. intros i Hi. apply in_seq in Hi.
  symmetry. apply token_at_ok; [exact HR|lia].
Qed.
(** ** Lists of names *)
Lemma names_sound (set : text -> variables -> pres variables) (f : variable_value -> variable_value) N :
  (forall nm h vs, set nm (vars_of N h) = P_ok vs -> In nm N /\ vs = vars_of N (fun x => if text_eqb x nm then f (h x) else h x)) ->
  forall fuel b h b' vs' toks, names_loop set fuel b (vars_of N h) = P_ok (b', vs') -> repr b toks ->
  exists l rest, toks = flat_map (fun nm => [nm]) l ++ rest /\ Forall (fun nm => In nm N) l /\ repr b' rest /\ is_keyword (tk rest 0) = true /\
    vs' = vars_of N (fold_left (fun h nm x => if text_eqb x nm then f (h x) else h x) l h).
Proof.
  intros Hset. assert (Hstop : forall b h b' vs' toks, P_ok (b, vars_of N h) = P_ok (b', vs') -> repr b toks -> is_keyword (first b) = true ->
    exists l rest, toks = flat_map (fun nm => [nm]) l ++ rest /\ Forall (fun nm => In nm N) l /\ repr b' rest /\ is_keyword (tk rest 0) = true /\
    vs' = vars_of N (fold_left (fun h nm x => if text_eqb x nm then f (h x) else h x) l h)).
  { intros b h b' vs' toks H HR K. injection H as <- <-. exists [], toks. rewrite (repr_first _ _ HR) in K. split; [reflexivity|]. split; [constructor|]. split; [exact HR|]. split; [exact K|reflexivity]. }
  induction fuel as [|fuel IH]; intros b h b' vs' toks H HR; cbn [names_loop] in H; (destruct (is_keyword (first b)) eqn:K; [eapply Hstop; eassumption|]); [discriminate|].
  destruct (set (first b) (vars_of N h)) as [vs1| | |] eqn:E1; cbn [pbind] in H; try discriminate. apply Hset in E1. destruct E1 as [Hin ->].
  destruct (pop_front_ok _ _ HR) as [b1 [E2 R1]]. rewrite E2 in H. cbn [or_abort pbind] in H.
  destruct (IH _ _ _ _ _ H R1) as (l & rest & T & Hl & R' & K' & V'). exists (first b :: l), rest.
  split; [|split; [constructor; assumption|split; [exact R'|split; [exact K'|exact V']]]].
  rewrite (repr_first _ _ HR). destruct toks as [|x toks]; [|cbn [tl] in T; cbn [flat_map app tk nth]; f_equal; exact T].
  cbn [tl] in T. symmetry in T. apply app_eq_nil in T. destruct T as [_ T]. destruct (keyword_nonempty _ K' T).
Qed.
Lemma set_boolean_sound N nm h vs : NoDup N -> set_boolean_variable nm (vars_of N h) = P_ok vs ->
  In nm N /\ vs = vars_of N (fun x => if text_eqb x nm then mk_variable_value 0 1 vt_binary else h x).
Proof.
  intros Hd H. unfold set_boolean_variable, get_variable in H. cbn [vars_of v_names] in H. destruct (name_index nm N) as [id|] eqn:Ei; cbn [or_error pbind] in H; [|discriminate].
  apply name_index_some in Ei. destruct Ei as [Hin ->]. split; [exact Hin|]. change (mk_variables N (map h N)) with (vars_of N h) in H. rewrite (set_value_ok N h _ _ Hd Hin) in H. congruence.
Qed.
Lemma set_integer_sound N nm h vs : NoDup N -> set_integer_variable nm (vars_of N h) = P_ok vs ->
  In nm N /\ vs = vars_of N (fun x => if text_eqb x nm then mk_variable_value (v_min (h x)) (v_max (h x)) vt_general else h x).
Proof.
  intros Hd H. unfold set_integer_variable, get_variable in H. cbn [vars_of v_names] in H. destruct (name_index nm N) as [id|] eqn:Ei; cbn [or_error pbind] in H; [|discriminate].
  apply name_index_some in Ei. destruct Ei as [Hin ->]. split; [exact Hin|]. change (mk_variables N (map h N)) with (vars_of N h) in H. rewrite (set_value_ok N h _ _ Hd Hin) in H. congruence.
Qed.
(** ** Sections *)
Lemma header_sound kws b toks n b' : repr b toks -> read_section kws (first b) (second b) = S n -> pop (S n) b = Some b' ->
  exists h toks', (exists w, h_words h = [w] /\ any_of w kws = true) /\ repr b' toks' /\ (toks' <> [] -> toks = header_tokens h ++ toks').
Proof.
  intros HR H E. destruct (pop_sound _ _ _ _ HR E) as [_ R]. rewrite (repr_first _ _ HR), (repr_second _ _ HR) in H. unfold read_section, colon in H.
  destruct (any_of (tk toks 0) kws) eqn:A; [|discriminate]. destruct (are_equal (tk toks 1) (str ":")) eqn:C; cbn in H; injection H as <-.
  - exists (mk_header [tk toks 0] true), (skipn 2 toks). split; [exists (tk toks 0); split; [reflexivity|exact A]|]. split; [exact R|]. intros Nz. apply skipn_more in Nz.
    rewrite (tk_seq 2 toks) at 1 by lia. unfold header_tokens. cbn [h_words h_colon seq map]. replace (tk toks 1) with (str ":"); [reflexivity|].
    destruct (tk toks 1) as [|c [|c2 r]]; try discriminate C. cbn in C. rewrite andb_true_r in C. apply Ascii.eqb_eq in C.
    assert (Hc : forall c, (if Ascii.eqb (tolower c) ":"%char then Ascii.eqb c ":"%char else true) = true) by (apply all_chars; vm_compute; reflexivity).
    specialize (Hc c). change (tolower ":"%char) with ":"%char in C. rewrite C in Hc. apply Ascii.eqb_eq in Hc. rewrite Hc. reflexivity. cbn in C. rewrite andb_false_r in C. discriminate.
  - exists (mk_header [tk toks 0] false), (skipn 1 toks). split; [exists (tk toks 0); split; [reflexivity|exact A]|]. split; [exact R|]. intros Nz. apply skipn_more in Nz.
    rewrite (tk_seq 1 toks) at 1 by lia. reflexivity.
Qed.
Lemma section_sound {A} kws (f : A -> list text) (P : A -> Prop) (step : (text -> variable_value) -> A -> text -> variable_value) N loop :
  (forall b h b' vs' toks, loop b (vars_of N h) = P_ok (b', vs') -> repr b toks ->
     exists l rest, toks = flat_map f l ++ rest /\ Forall P l /\ repr b' rest /\ is_keyword (tk rest 0) = true /\ vs' = vars_of N (fold_left step l h)) ->
  forall b p h b' p' toks, rw_vars p = vars_of N h -> section_ (read_section kws (first b) (second b)) loop b p = P_ok (b', p') -> repr b toks ->
  exists s rest, toks = section_tokens f s ++ rest /\ part_ok kws P s /\ repr b' rest /\ (is_keyword (tk toks 0) = true -> is_keyword (tk rest 0) = true) /\
    p' = with_vars (D := D) p (vars_of N (fold_left step (section_list s) h)).
Proof.
  intros Hloop b p h b' p' toks Hv H HR. unfold section_ in H. destruct (read_section kws (first b) (second b)) as [|n] eqn:E.
  - injection H as <- <-. exists None, toks. split; [reflexivity|]. split; [exact I|]. split; [exact HR|]. split; [auto|]. cbn [section_list fold_left]. rewrite <- Hv. destruct p; reflexivity.
  - destruct (pop (S n) b) as [b1|] eqn:E1; cbn [or_abort pbind] in H; [|discriminate].
    destruct (header_sound _ _ _ _ _ HR E E1) as (hd & toks1 & Hw & R1 & T1). rewrite Hv in H.
    destruct (loop b1 (vars_of N h)) as [[b2 vs2]| | |] eqn:E2; cbn [pbind] in H; try discriminate. injection H as <- <-.
    destruct (Hloop _ _ _ _ _ E2 R1) as (l & rest & T2 & Hl & R2 & K2 & ->).
    exists (Some (hd, l)), rest. split; [cbn [section_tokens]; rewrite <- app_assoc, <- T2; apply T1; rewrite T2; intros E0; apply app_eq_nil in E0; destruct E0 as [_ E0]; exact (keyword_nonempty _ K2 E0)|].
    split; [split; [exact Hw|exact Hl]|]. split; [exact R2|]. split; [auto|reflexivity].
Qed.
End Sound.
