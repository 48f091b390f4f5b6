(** The token buffer shows the tokens of the file. *)
From Coq Require Import Ascii String Lia.
From Verif Require Import Base Problem_model ResultIO_model Chars_spec Lexer_model Lexer_spec.
Open Scope list_scope.
Open Scope nat_scope.

(** The characters of the specification are those of the code. *)
Ltac chars :=
  change char_blank with isspace in *; change char_end_of_line with nl in *; change char_comment with backslash in *;
    change char_separator with is_separator in *; change char_number_start with starts_with_a_number in *;
    change char_number with is_number in *; change char_digit with is_digit in *; change char_name with is_char_name in *;
    change keyword with is_keyword in *; change same_word with are_equal in *;
    change name_like with starts_with_name in *; change number_like with starts_with_number in *.


(** ** The words the buffer reads *)
Inductive mode := Skip | Comment | Inside.
(** [last]: the last comment read since the last word. *)
Fixpoint cw (md : mode) (last : text) (l : text) : list text :=
  match l with
  | [] => match md, last with Inside, _ => [] | _, [] => [] | _, _ => [last] end
  | c :: l' =>
    match md with
    | Comment => cw (if Ascii.eqb c nl then Skip else Comment) last l'
    | Inside => if isspace c then cw Skip [] l' else cw Inside [] l'
    | Skip =>
      if isspace c then cw Skip last l'
      else if Ascii.eqb c backslash then cw Comment (word_of l) l'
      else word_of l :: cw Inside [] l'
    end
  end.
(** The words that are copied in an array are short. *)
Fixpoint short (md : mode) (l : text) : Prop :=
  match l with
  | [] => True
  | c :: l' =>
    match md with
    | Comment => short (if Ascii.eqb c nl then Skip else Comment) l'
    | Inside => if isspace c then short Skip l' else short Inside l'
    | Skip => if isspace c then short Skip l'
              else length (word_of l) < slot_size /\ short (if Ascii.eqb c backslash then Comment else Inside) l'
    end
  end.

Definition stream_words (st : stream) : list text := match st with Live t => cw Skip [] t | _ => [] end.
Definition no_nul (l : text) : Prop := Forall (fun c => is_nul c = false) l.
Definition stream_ok (st : stream) : Prop := match st with Live t => no_nul t /\ short Skip t | _ => True end.

Lemma word_of_no_nul l : no_nul l -> no_nul (word_of l).
Proof.
  induction 1; cbn; [ constructor |]. destruct (isspace x); constructor; auto.
Qed.
Lemma after_word_no_nul l : no_nul l -> no_nul (after_word l).
Proof. induction 1; cbn; [ constructor |]. destruct (isspace x); [ constructor; auto | auto ]. Qed.
Lemma cw_after_word l : cw Inside [] l = stream_words (stream_of (after_word l)).
Proof.
  induction l as [ |c l IH ]; [ reflexivity |]. cbn. destruct (isspace c) eqn:E; [ | exact IH ].
  cbn. rewrite E. reflexivity.
Qed.
Lemma short_after_word l : no_nul l -> short Inside l -> stream_ok (stream_of (after_word l)).
Proof.
  induction l as [ |c l IH ]; [ cbn; auto |]. intros Hn H. cbn in *. inversion Hn; subst.
  destruct (isspace c) eqn:E; [ | auto ]. cbn. rewrite E. auto.
Qed.

(** Array [m] holds the word [w]. *)
Definition holds (w m : text) : Prop := no_nul w /\ length m = slot_size /\ exists r, m = w ++ nul :: r.
Lemma store_ok w m : no_nul w -> length w < slot_size -> length m = slot_size ->
  exists m', store w m = Some m' /\ holds w m'.
Proof.
  intros Hn Hw Hm. unfold store. apply Nat.ltb_lt in Hw. rewrite Hw. eexists. split; [ reflexivity |].
  apply Nat.ltb_lt in Hw. split; [ exact Hn |]. split; [ | eauto ].
  rewrite app_length. cbn [length]. rewrite skipn_length. lia.
Qed.

Lemma fetch_ok : forall l comment m last,
  holds last m -> (comment = true -> last <> []) -> no_nul l -> short (if comment then Comment else Skip) l ->
  exists m' st w, fetch comment m l = Some (m', st) /\ holds w m' /\ stream_ok st /\
    cw (if comment then Comment else Skip) last l =
      match w with [] => [] | _ => [w] end ++ stream_words st.
Proof.
  induction l as [ |c l IH ]; intros comment m last Hm Hc Hn Hs.
  { exists m, Failed, last. split; [ reflexivity |]. split; [ exact Hm |]. split; [ exact I |].
    destruct comment, last; cbn; try reflexivity; exfalso; apply Hc; reflexivity. }
  inversion Hn; subst. destruct comment.
  - cbn [short fetch cw] in Hs |- *. destruct (Ascii.eqb c nl); cbn [negb].
    + apply (IH false); auto.
    + apply (IH true); auto.
  - cbn [fetch short cw] in *. destruct (isspace c) eqn:E; [ apply IH; auto |].
    destruct Hs as [Hlen Hs]. destruct (store_ok (word_of (c :: l)) m) as [m' [Em Hm']];
      [ apply word_of_no_nul; assumption | assumption | apply Hm |].
    rewrite Em. cbn [bind].
    assert (Hne : word_of (c :: l) <> []) by (cbn; rewrite E; discriminate).
    destruct (Ascii.eqb c backslash) eqn:Eb.
    + apply (IH true m' (word_of (c :: l))); auto.
    + exists m', (stream_of (after_word (c :: l))), (word_of (c :: l)). split; [ reflexivity |].
      split; [ assumption |]. split.
      * cbn. rewrite E. apply short_after_word; assumption.
      * destruct (word_of (c :: l)) eqn:Ew; [ congruence |]. rewrite cw_after_word.
        cbn [after_word]. rewrite E. reflexivity.
Qed.

(** ** Tokens of a word *)
Lemma token_run_ok : forall l cur r num, no_nul l -> cur <> [] ->
  num = match cur with d :: _ => starts_with_a_number d | [] => false end ->
  exists n, token_run num (l ++ nul :: r) = Some n /\ n <= length l /\
    split cur l = (cur ++ firstn n l) :: split [] (skipn n l).
Proof.
  induction l as [ |c l IH ]; intros cur r num Hn Hcur Hnum.
  { exists 0. cbn. repeat split; auto. rewrite app_nil_r. destruct cur; [ congruence | reflexivity ]. }
  inversion Hn; subst. (cbn [token_run app split]; chars). rewrite H1. cbn [orb].
  destruct cur as [ |d cur ]; [ congruence |].
  destruct (is_separator c) eqn:Es.
  { exists 0. cbn [flush firstn skipn length app]. split; [ reflexivity |]. split; [ lia |]. rewrite app_nil_r. f_equal. (cbn [split flush app]; chars). rewrite Es. reflexivity. }
  (cbn [orb extends]; chars). destruct (starts_with_a_number d) eqn:Ed; cbn [andb].
  - destruct (is_number c) eqn:Ec; cbn [negb].
    + destruct (IH ((d :: cur) ++ [c]) r true) as [n [E1 [E2 E3]]]; auto; [ destruct cur; discriminate |].
      exists (S n). rewrite E1. cbn [option_map firstn skipn length]. repeat split; [ lia |].
      rewrite E3, <- app_assoc. reflexivity.
    + exists 0. cbn [firstn skipn]. repeat split; auto; try lia. rewrite app_nil_r. f_equal.
      (cbn [split flush app extends]; chars). rewrite Es. reflexivity.
  - destruct (IH ((d :: cur) ++ [c]) r false) as [n [E1 [E2 E3]]]; auto; [ destruct cur; discriminate |].
    exists (S n). rewrite E1. cbn [option_map firstn skipn length]. repeat split; [ lia |].
    rewrite E3, <- app_assoc. reflexivity.
Qed.
Lemma flush_nonempty cur : Forall (fun t => t <> []) (flush cur).
Proof. destruct cur; cbn; [ constructor | constructor; [ discriminate | constructor ]]. Qed.
Lemma split_nonempty : forall l cur, Forall (fun t => t <> []) (split cur l).
Proof.
  induction l as [ |c l IH ]; intros cur; (cbn [split]; chars); [ apply flush_nonempty |].
  destruct (is_separator c).
  { apply Forall_app. split; [ apply flush_nonempty |]. constructor; [ discriminate | apply IH ]. }
  destruct (extends cur c) eqn:E; [ apply IH |]. constructor; [ | apply IH ].
  destruct cur; [ discriminate | discriminate ].
Qed.

(** ** next_token *)
Definition toks_of (ws : list text) : list text := flat_map (split []) ws.
(** [rest]: the tokens not read yet. *)
Record lex_inv (lx : lexer) (rest : list text) : Prop := {
  li_mem : length (lx_mem lx) = 10;
  li_slots : forall s m, nth_error (lx_mem lx) s = Some m -> length m = slot_size;
  li_pos : length (lx_pos lx) = 10;
  li_cur : lx_cur lx < 10;
  li_in : stream_ok (lx_in lx);
  li_done : forall s, s < 10 -> s <> lx_cur lx -> exists w m, nth_error (lx_mem lx) s = Some m /\
              nth_error (lx_pos lx) s = Some (length w) /\ holds w m;
  li_word : exists w m p, nth_error (lx_mem lx) (lx_cur lx) = Some m /\ nth_error (lx_pos lx) (lx_cur lx) = Some p /\
              holds w m /\ p <= length w /\ rest = split [] (skipn p w) ++ toks_of (stream_words (lx_in lx))
}.


Lemma nth_error_app_len {A} (l : list A) a r : nth_error (l ++ a :: r) (length l) = Some a.
Proof. induction l; cbn; auto. Qed.
Lemma is_nul_true c : is_nul c = true -> c = nul.
Proof. unfold is_nul, nul. intros H. apply Nat.eqb_eq in H. rewrite <- H. symmetry. apply ascii_nat_embedding. Qed.

(** The token is taken in the current word. *)
Lemma take_token_ok lx rest w m p :
  lex_inv lx rest -> nth_error (lx_mem lx) (lx_cur lx) = Some m -> nth_error (lx_pos lx) (lx_cur lx) = Some p ->
  holds w m -> p < length w -> rest = split [] (skipn p w) ++ toks_of (stream_words (lx_in lx)) ->
  exists v lx', take_token lx = Some (Some v, lx') /\ lex_inv lx' (tl rest) /\ lx_mem lx' = lx_mem lx /\
    lx_cur lx' = lx_cur lx /\ resolve (lx_mem lx') (Some v) = hd [] rest /\ fst (fst v) = lx_cur lx.
Proof.
  intros HI Em Ep [Hn [Hlen [r Er]]] Hp Hrest.
  unfold take_token. rewrite Em, Ep. cbn [bind].
  destruct (skipn p w) as [ |c w' ] eqn:Esk.
  { assert (length (skipn p w) = 0) by (rewrite Esk; reflexivity). rewrite skipn_length in H. lia. }
  assert (Ew : w = firstn p w ++ c :: w') by (rewrite <- Esk; symmetry; apply firstn_skipn).
  assert (Hc : nth_error m p = Some c).
  { rewrite Er, Ew, <- app_assoc. cbn [app].
    assert (Hl : length (firstn p w) = p) by (apply firstn_length_le; lia). rewrite <- Hl at 2. apply nth_error_app_len. }
  rewrite Hc. cbn [bind].
  assert (Hn' : no_nul (c :: w')).
  { rewrite Ew in Hn. apply Forall_app in Hn. apply Hn. }
  inversion Hn' as [ |? ? Hnc Hnw ]; subst x l.
  assert (Hskm : skipn (S p) m = w' ++ nul :: r).
  { rewrite Er, Ew. assert (Hl : length (firstn p w) = p) by (apply firstn_length_le; lia).
    rewrite <- app_assoc. cbn [app]. rewrite skipn_app, Hl.
    replace (S p - p) with 1 by lia. rewrite skipn_all2 by lia. reflexivity. }
  assert (Hrun : exists n, (if is_separator c then Some 0 else token_run (starts_with_a_number c) (skipn (S p) m)) = Some n /\
            n <= length w' /\ split [] (c :: w') = (c :: firstn n w') :: split [] (skipn n w')).
  { destruct (is_separator c) eqn:Es.
    - exists 0. repeat split; [ lia |]. (cbn [split flush app]; chars). rewrite Es. reflexivity.
    - rewrite Hskm. destruct (token_run_ok w' [c] r (starts_with_a_number c)) as [n [E1 [E2 E3]]]; auto; [ discriminate |].
      exists n. split; [ exact E1 |]. split; [ exact E2 |]. (cbn [split]; chars). rewrite Es. (cbn [extends app]; chars). exact E3. }
  destruct Hrun as [n [En [Hnl Hsplit]]]. rewrite En. cbn [bind].
  destruct (list_upd_some (lx_pos lx) (lx_cur lx) (p + S n)) as [pos Epos];
    [ rewrite (li_pos _ _ HI); apply HI |].
  rewrite Epos. cbn [bind]. eexists _, _. split; [ reflexivity |]. cbn [lx_mem lx_cur fst].
  assert (Hlw : length w' = length w - S p).
  { assert (length (skipn p w) = length (c :: w')) by (rewrite Esk; reflexivity).
    rewrite skipn_length in H. cbn in H. lia. }
  split; [ | split; [ reflexivity | split; [ reflexivity | split; [ | reflexivity ]]]].
  - constructor; cbn [lx_mem lx_pos lx_cur lx_in]; try apply HI.
    + rewrite (list_upd_length _ _ _ _ Epos). apply HI.
    + intros s Hs Hne. destruct (li_done _ _ HI s Hs Hne) as [w2 [m' [E1 [E2 E3]]]].
      exists w2, m'. split; [ exact E1 |]. split; [ | exact E3 ].
      rewrite (list_upd_nth _ _ _ _ s Epos). destruct (Nat.eqb_spec s (lx_cur lx)); [ congruence | exact E2 ].
    + exists w, m, (p + S n). split; [ exact Em |]. split.
      { rewrite (list_upd_nth _ _ _ _ _ Epos), Nat.eqb_refl. reflexivity. }
      split; [ split; [ assumption | split; [ assumption | eauto ]]|]. split; [ lia |].
      rewrite Hrest, Hsplit. cbn [tl app]. f_equal. f_equal.
      assert (Hl : length (firstn p w) = p) by (apply firstn_length_le; lia).
      transitivity (skipn (p + S n) (firstn p w ++ c :: w')); [ | rewrite <- Ew; reflexivity ].
      rewrite skipn_app, Hl. replace (p + S n - p) with (S n) by lia.
      rewrite (skipn_all2 (firstn p w)) by lia. reflexivity.
  - rewrite Hrest, Hsplit. cbn [hd app resolve].
    rewrite (nth_error_nth _ _ _ Em).
    assert (Hm2 : skipn p m = c :: w' ++ nul :: r).
    { rewrite Er, Ew. assert (Hl : length (firstn p w) = p) by (apply firstn_length_le; lia).
      rewrite <- app_assoc. cbn [app]. rewrite skipn_app, Hl.
      replace (p - p) with 0 by lia. rewrite skipn_all2 by lia. reflexivity. }
    rewrite Hm2. cbn [firstn]. f_equal. rewrite firstn_app. replace (n - length w') with 0 by lia. cbn. apply app_nil_r.
Qed.

(** What next_token does to the arrays: at most, it writes the next one. *)
Definition moved (lx lx' : lexer) : Prop :=
  (lx_cur lx' = lx_cur lx /\ lx_mem lx' = lx_mem lx) \/
  (lx_cur lx' = (lx_cur lx + 1) mod 10 /\ forall s, s <> lx_cur lx' -> nth s (lx_mem lx') [] = nth s (lx_mem lx) []).
Lemma next_token_ok lx rest : lex_inv lx rest ->
  exists v lx', next_token lx = Some (v, lx') /\ lex_inv lx' (tl rest) /\ moved lx lx' /\
    resolve (lx_mem lx') v = hd [] rest /\ (match v with Some x => fst (fst x) = lx_cur lx' | None => True end).
Proof.
  intros HI. pose proof HI as HI0. destruct HI0 as [Hmem Hslots Hpos Hcur Hin Hdone [w [m [p [Em [Ep [Hh [Hp Hrest]]]]]]]].
  unfold next_token. rewrite Em, Ep. cbn [bind].
  pose proof Hh as [Hn [Hlen [r Er]]].
  destruct (Nat.lt_ge_cases p (length w)) as [Hlt|Hge].
  { assert (Hc : exists c, nth_error m p = Some c /\ is_nul c = false).
    { rewrite Er. rewrite nth_error_app1 by assumption. destruct (nth_error w p) eqn:E.
      - exists a. split; auto. apply nth_error_In in E. unfold no_nul in Hn. rewrite Forall_forall in Hn. auto.
      - apply nth_error_None in E. lia. }
    destruct Hc as [c [Ec Hc]]. rewrite Ec. cbn [bind]. rewrite Hc.
    destruct (take_token_ok lx rest w m p HI Em Ep Hh Hlt Hrest) as [v [lx' [E1 [E2 [E3 [E4 [E5 E6]]]]]]].
    exists (Some v), lx'. split; [ exact E1 |]. split; [ exact E2 |]. split; [ left; auto |].
    split; [ exact E5 |]. rewrite E4. exact E6. }
  assert (p = length w) by lia. subst p.
  assert (Ec : nth_error m (length w) = Some nul) by (rewrite Er; apply nth_error_app_len).
  rewrite Ec. cbn [bind]. change (is_nul nul) with true. cbv iota.
  rewrite skipn_all2 in Hrest by lia. (cbn [split flush app] in Hrest; chars).
  set (cur := (lx_cur lx + 1) mod 10).
  assert (Hc10 : cur < 10) by (apply Nat.mod_upper_bound; discriminate).
  assert (Hne : lx_cur lx <> cur).
  { unfold cur. intros H. destruct (Nat.eq_dec (lx_cur lx) 9) as [E9|E9].
    - rewrite E9 in H. discriminate.
    - rewrite Nat.mod_small in H; lia. }
  assert (Hd : forall s, s < 10 -> exists w0 m0, nth_error (lx_mem lx) s = Some m0 /\ nth_error (lx_pos lx) s = Some (length w0) /\ holds w0 m0).
  { intros s Hs. destruct (Nat.eq_dec s (lx_cur lx)); [ subst; eauto 6 | auto ]. }
  destruct (lx_in lx) as [t | |] eqn:Ein.
  - destruct Hin as [Hnt Hst].
    destruct (Hd cur Hc10) as [w0 [m0 [Em0 [Ep0 _]]]]. rewrite Em0. cbn [bind].
    pose proof (Hslots _ _ Em0) as Hl0.
    destruct (fetch_ok t false (nul :: tl m0) []) as [m' [st [w' [Ef [Hh' [Hst' Hcw]]]]]]; auto.
    { split; [ constructor |]. split; [ | exists (tl m0); reflexivity ].
      destruct m0; [ cbn in Hl0; unfold slot_size in Hl0; lia | exact Hl0 ]. }
    { discriminate. }
    rewrite Ef. cbn [bind].
    destruct (list_upd_some (lx_mem lx) cur m') as [mem Emem]; [ lia |].
    destruct (list_upd_some (lx_pos lx) cur 0) as [pos Epos]; [ lia |].
    rewrite Emem, Epos. cbn [bind].
    pose proof (list_upd_nth _ _ _ _ cur Emem) as Emc. rewrite Nat.eqb_refl in Emc.
    pose proof (list_upd_nth _ _ _ _ cur Epos) as Epc. rewrite Nat.eqb_refl in Epc.
    set (lx1 := mk_lexer mem pos cur st).
    assert (HI1 : lex_inv lx1 rest).
    { constructor; cbn [lx1 lx_mem lx_pos lx_cur lx_in].
      - rewrite (list_upd_length _ _ _ _ Emem). exact Hmem.
      - intros s m1 H. rewrite (list_upd_nth _ _ _ _ s Emem) in H. destruct (Nat.eqb_spec s cur).
        + injection H as <-. apply Hh'.
        + eapply Hslots; eassumption.
      - rewrite (list_upd_length _ _ _ _ Epos). exact Hpos.
      - exact Hc10.
      - exact Hst'.
      - intros s Hs Hsc. destruct (Hd s Hs) as [w1 [m1 [A1 [A2 A3]]]]. exists w1, m1.
        rewrite (list_upd_nth _ _ _ _ s Emem), (list_upd_nth _ _ _ _ s Epos).
        destruct (Nat.eqb_spec s cur); [ congruence | auto ].
      - exists w', m', 0. split; [ exact Emc |]. split; [ exact Epc |]. split; [ exact Hh' |]. split; [ lia |].
        cbn [skipn]. rewrite Hrest. unfold stream_words at 1. rewrite Hcw. unfold toks_of. rewrite flat_map_app. f_equal.
        destruct w'; [ reflexivity |]. cbn [flat_map]. apply app_nil_r. }
    assert (Hmv : lx_cur lx1 = (lx_cur lx + 1) mod 10 /\ forall s, s <> lx_cur lx1 -> nth s (lx_mem lx1) [] = nth s (lx_mem lx) []).
    { split; [ reflexivity |]. intros s Hs. cbn [lx1 lx_mem lx_cur] in *.
      pose proof (list_upd_nth _ _ _ _ s Emem) as E. destruct (Nat.eqb_spec s cur); [ congruence |].
      destruct (nth_error (lx_mem lx) s) eqn:E2.
      - rewrite (nth_error_nth _ _ _ E), (nth_error_nth _ _ _ E2). reflexivity.
      - apply nth_error_None in E, E2. rewrite !nth_overflow by lia. reflexivity. }
    pose proof Hh' as [Hnw' [Hlm' [r' Er']]].
    destruct w' as [ |c w' ].
    + assert (E0 : nth_error m' 0 = Some nul) by (rewrite Er'; reflexivity).
      rewrite E0. cbn [bind]. change (is_nul nul) with true. cbv iota.
      exists None, lx1. split; [ reflexivity |].
      assert (Hst0 : rest = []).
      { cbn [app] in Hcw. pose proof Ef as Ef2. rewrite Hrest. unfold stream_words in Hcw |- *. rewrite Hcw.
        destruct st as [t' | |]; [ | reflexivity | reflexivity ]. exfalso.
        clear - Ef Hh' Hnt. assert (G : forall l b m0 m1 s1, no_nul l -> fetch b m0 l = Some (m1, s1) -> (exists t1, s1 = Live t1) -> nth_error m1 0 <> Some nul).
        { clear. induction l as [ |c l IH ]; intros b m0 m1 s1 Hn H [t1 ->]; [ discriminate |].
          inversion Hn; subst. cbn [fetch] in H. destruct b; [ eapply IH; eauto |].
          destruct (isspace c) eqn:E; [ eapply IH; eauto |].
          destruct (store (word_of (c :: l)) m0) as [m2|] eqn:Es; [ | discriminate ]. cbn [bind] in H.
          destruct (Ascii.eqb c backslash); [ eapply IH; eauto |].
          injection H as <- _. unfold store in Es. destruct (Nat.ltb _ _); [ | discriminate ]. injection Es as <-.
          cbn. rewrite E. cbn. intros A. injection A as ->. discriminate. }
        eapply G; eauto. destruct Hh' as [_ [_ [r E]]]. rewrite E. reflexivity. }
      subst rest. rewrite Hst0 in *. split; [ exact HI1 |]. split; [ right; exact Hmv |]. split; [ reflexivity | exact I ].
    + assert (E0 : nth_error m' 0 = Some c) by (rewrite Er'; reflexivity).
      rewrite E0. cbn [bind]. inversion Hnw'; subst x l. rewrite H1.
      destruct (take_token_ok lx1 rest (c :: w') m' 0 HI1 Emc Epc Hh') as [v [lx' [E1 [E2 [E3 [E4 [E5 E6]]]]]]].
      { cbn; lia. }
      { destruct (li_word _ _ HI1) as [w2 [m2 [p2 [A1 [A2 [A3 [A4 A5]]]]]]].
        cbn [lx1 lx_mem lx_cur lx_pos] in A1, A2. rewrite Emc in A1. injection A1 as <-. rewrite Epc in A2. injection A2 as <-.
        cbn [skipn] in *. rewrite Hrest. unfold stream_words at 1. rewrite Hcw. unfold toks_of. rewrite flat_map_app. cbn [flat_map]. rewrite app_nil_r. reflexivity. }
      exists (Some v), lx'. split; [ exact E1 |]. split; [ exact E2 |]. split.
      * right. rewrite E4, E3. exact Hmv.
      * split; [ exact E5 |]. rewrite E4. exact E6.
  - cbn [stream_words toks_of flat_map] in Hrest. subst rest.
    exists None. eexists. split; [ reflexivity |]. cbn [tl hd lx_mem lx_cur].
    split; [ | split; [ right; auto | split; [ reflexivity | exact I ]]].
    constructor; cbn [lx_mem lx_pos lx_cur lx_in]; auto.
    destruct (Hd cur Hc10) as [w1 [m1 [A1 [A2 A3]]]]. exists w1, m1, (length w1).
    rewrite skipn_all2 by lia. cbn. auto 6.
  - cbn [stream_words toks_of flat_map] in Hrest. subst rest.
    exists None. eexists. split; [ reflexivity |]. cbn [tl hd lx_mem lx_cur].
    split; [ | split; [ right; auto | split; [ reflexivity | exact I ]]].
    constructor; cbn [lx_mem lx_pos lx_cur lx_in]; auto.
    destruct (Hd cur Hc10) as [w1 [m1 [A1 [A2 A3]]]]. exists w1, m1, (length w1).
    rewrite skipn_all2 by lia. cbn. auto 6.
Qed.

(** ** The window *)
(** View [v] shows [tok]; at most [j] words were started after its word. *)
Definition view_ok (lx : lexer) (j : nat) (v : view) (tok : text) : Prop :=
  resolve (lx_mem lx) v = tok /\
  match v with None => True | Some x => exists d, d <= j /\ fst (fst x) = (lx_cur lx + 10 - d) mod 10 end.
Record repr (b : sbuf) (toks : list text) : Prop := {
  rp_lex : lex_inv (sb_lx b) (skipn 10 toks);
  rp_win : length (sb_win b) = 10;
  rp_view : forall i, i < 10 -> view_ok (sb_lx b) (9 - i) (nth i (sb_win b) None) (nth i toks []);
  rp_toks : Forall (fun t => t <> []) toks
}.

Lemma mod_small10 a b d : a = (b + 1) mod 10 -> b < 10 -> d <= 8 ->
  (b + 10 - d) mod 10 <> a /\ (b + 10 - d) mod 10 = (a + 10 - S d) mod 10.
Proof.
  intros Ha Hb Hd.
  assert (Hc : a = b + 1 \/ (b = 9 /\ a = 0)).
  { destruct (Nat.eq_dec b 9); [ right; subst b; auto |]. left. rewrite Nat.mod_small in Ha; lia. }
  assert (Hx : (b + 10 - d) mod 10 = if Nat.leb d b then b - d else b + 10 - d).
  { destruct (Nat.leb_spec d b).
    - replace (b + 10 - d) with (b - d + 1 * 10) by lia. rewrite Nat.mod_add by discriminate. apply Nat.mod_small. lia.
    - apply Nat.mod_small. lia. }
  rewrite Hx. destruct Hc as [Hc|[Hb9 Hc]].
  - split; [ destruct (Nat.leb_spec d b); lia |].
    rewrite Hc. replace (b + 1 + 10 - S d) with (b + 10 - d) by lia. symmetry; exact Hx.
  - subst b a. replace (Nat.leb d 9) with true by (symmetry; apply Nat.leb_le; lia). split; [ lia |].
    rewrite Nat.mod_small by lia. lia.
Qed.
Lemma view_moved lx lx' j v tok : moved lx lx' -> lx_cur lx < 10 -> j <= 8 -> view_ok lx j v tok -> view_ok lx' (S j) v tok.
Proof.
  intros Hm Hc Hj [Hr Hv]. destruct v as [[[s p] n]|]; [ | split; [ exact Hr | exact I ]].
  destruct Hv as [d [Hd Hs]]. cbn [fst] in Hs. destruct Hm as [[E1 E2]|[E1 E2]].
  - split; [ rewrite E2; exact Hr |]. exists d. rewrite E1. split; [ lia | exact Hs ].
  - destruct (mod_small10 _ _ d E1 Hc) as [H1 H2]; [ lia |]. split.
    + cbn [resolve] in *. rewrite E2; [ exact Hr |]. rewrite Hs. exact H1.
    + exists (S d). split; [ lia |]. cbn [fst]. rewrite Hs. exact H2.
Qed.

Lemma tl_skipn {A} n (l : list A) : tl (skipn n l) = skipn (S n) l.
Proof. revert l. induction n; intros [ |a l ]; cbn; auto. rewrite IHn. destruct l; auto. Qed.
Lemma hd_skipn {A} (d : A) n l : hd d (skipn n l) = nth n l d.
Proof. revert l. induction n; intros [ |a l ]; cbn; auto. Qed.
Lemma nth_upd {A} (l : list A) i a l' k d : list_upd l i a = Some l' -> nth k l' d = if Nat.eqb k i then a else nth k l d.
Proof.
  intros H. pose proof (list_upd_nth _ _ _ _ k H) as E. destruct (Nat.eqb k i).
  - apply nth_error_nth. exact E.
  - destruct (nth_error l k) eqn:E2.
    + rewrite (nth_error_nth _ _ _ E), (nth_error_nth _ _ _ E2). reflexivity.
    + apply nth_error_None in E, E2. rewrite !nth_overflow by lia. reflexivity.
Qed.

Lemma push_back_ok : forall k i (win : list view) lx toks, i + k = 10 -> length win = 10 -> lex_inv lx (skipn i toks) ->
  (forall x, x < i -> view_ok lx (i - 1 - x) (nth x win None) (nth x toks [])) -> Forall (fun t => t <> []) toks ->
  exists b, push_back k i win lx = Some b /\ repr b toks.
Proof.
  induction k as [ |k IH ]; intros i win lx toks Hik Hw HI Hv Hne.
  - exists (mk_sbuf win lx). split; [ reflexivity |]. assert (i = 10) by lia. subst i. constructor; auto.
  - cbn [push_back]. destruct (next_token_ok _ _ HI) as [v [lx' [E1 [E2 [E3 [E4 E5]]]]]].
    rewrite E1. cbn [bind]. destruct (@list_upd_some view win i v) as [win' Ew]; [ lia |]. rewrite Ew. cbn [bind].
    apply IH; auto; try lia.
    + rewrite (list_upd_length _ _ _ _ Ew). exact Hw.
    + rewrite <- tl_skipn. exact E2.
    + intros x Hx. rewrite (@nth_upd view _ _ _ _ x None Ew). destruct (Nat.eqb_spec x i) as [->|Hxi].
      * split; [ rewrite E4; apply hd_skipn |]. destruct v as [x|]; [ | exact I ]. exists 0. split; [ lia |].
        rewrite E5, Nat.sub_0_r. pose proof (li_cur _ _ E2).
        replace (lx_cur lx' + 10) with (lx_cur lx' + 1 * 10) by lia. rewrite Nat.mod_add by discriminate.
        symmetry. apply Nat.mod_small. assumption.
      * replace (S i - 1 - x) with (S (i - 1 - x)) by lia. eapply view_moved; eauto; try lia.
        { apply HI. } apply Hv. lia.
Qed.

Lemma ten {A} (l : list A) : length l = 10 -> exists a b c d e f g h i j, l = [a; b; c; d; e; f; g; h; i; j].
Proof.
  intros H. do 10 (destruct l as [ |? l ]; [ discriminate |]). destruct l; [ | discriminate ]. repeat eexists.
Qed.
Lemma shift_ok size (win : list view) v0 : 1 <= size < 10 -> length win = 10 -> nth_error win 0 = Some v0 ->
  exists win1 win2, shift 9 0 size win = Some win1 /\ list_upd win1 9 v0 = Some win2 /\ length win2 = 10 /\
    forall x, x < 10 - size -> nth x win2 None = nth (size + x) win None.
Proof.
  intros Hs Hl H0. destruct (ten win Hl) as [a [b [c [d [e [f [g [h [i [j ->]]]]]]]]]]. injection H0 as <-.
  do 10 (destruct size as [ |size ];
    [ first [ lia | do 2 eexists; split; [ reflexivity |]; split; [ reflexivity |]; split; [ reflexivity |];
      intros x Hx; do 10 (destruct x as [ |x ]; [ first [ reflexivity | lia ] |]); lia ] |]).
  lia.
Qed.
Lemma nth_skipn {A} k (l : list A) x d : nth x (skipn k l) d = nth (k + x) l d.
Proof. revert l. induction k; intros l; [ reflexivity |]. destruct l; [ destruct x; reflexivity |]. cbn. apply IHk. Qed.
Lemma skipn_plus {A} a b (l : list A) : skipn a (skipn b l) = skipn (b + a) l.
Proof. revert l. induction b; intros l; [ reflexivity |]. destruct l; [ rewrite skipn_nil; reflexivity | cbn; apply IHb ]. Qed.
Lemma Forall_skipn {A} (P : A -> Prop) k l : Forall P l -> Forall P (skipn k l).
Proof. revert l. induction k; intros l H; [ exact H |]. destruct H; cbn; [ constructor | auto ]. Qed.

Theorem pop_ok size b toks : repr b toks -> 1 <= size < 10 -> exists b', pop size b = Some b' /\ repr b' (skipn size toks).
Proof.
  intros HR Hs. unfold pop. replace (Nat.leb 1 size && Nat.ltb size 10) with true.
  2:{ symmetry. apply andb_true_iff. split; [ apply Nat.leb_le | apply Nat.ltb_lt ]; lia. }
  pose proof (rp_win _ _ HR) as Hw. destruct (nth_error (sb_win b) 0) as [v|] eqn:E0.
  2:{ apply nth_error_None in E0. lia. }
  cbn [bind]. destruct (shift_ok size (sb_win b) v Hs Hw E0) as [w1 [w2 [E1 [E2 [E3 E4]]]]].
  rewrite E1. cbn [bind]. rewrite E2. cbn [bind].
  apply push_back_ok; auto; try lia.
  - rewrite skipn_plus. replace (size + (10 - size)) with 10 by lia. apply HR.
  - intros x Hx. rewrite E4 by assumption. rewrite nth_skipn.
    replace (10 - size - 1 - x) with (9 - (size + x)) by lia. apply HR. lia.
  - apply Forall_skipn, HR.
Qed.
Theorem pop_front_ok b toks : repr b toks -> exists b', pop_front b = Some b' /\ repr b' (tl toks).
Proof.
  intros HR. unfold pop_front. destruct (ten _ (rp_win _ _ HR)) as [v0 [v1 [v2 [v3 [v4 [v5 [v6 [v7 [v8 [v9 E]]]]]]]]]].
  pose proof (rp_view _ _ HR) as Hv. rewrite E in *. cbn [app].
  apply push_back_ok; auto.
  - pose proof (rp_lex _ _ HR) as H. destruct toks; [ rewrite skipn_nil in * |]; exact H.
  - intros x Hx. specialize (Hv (S x)). replace (9 - 1 - x) with (9 - S x) by lia.
    assert (Hn : nth x (tl toks) [] = nth (S x) toks []) by (destruct toks; [ destruct x |]; reflexivity).
    rewrite Hn. replace (nth x [v1; v2; v3; v4; v5; v6; v7; v8; v9; v0] None)
      with (nth (S x) [v0; v1; v2; v3; v4; v5; v6; v7; v8; v9] None).
    + apply Hv. lia.
    + do 9 (destruct x as [ |x ]; [ reflexivity |]). lia.
  - destruct (rp_toks _ _ HR); cbn; [ constructor | assumption ].
Qed.

Lemma no_nul_all_toks ws : Forall (fun t => t <> []) (toks_of ws).
Proof. unfold toks_of. induction ws; cbn; [ constructor |]. apply Forall_app. split; [ apply split_nonempty | assumption ]. Qed.
Lemma nth_error_repeat_lt {A} (a : A) n i : i < n -> nth_error (repeat a n) i = Some a.
Proof. revert i. induction n; intros i H; [ lia |]. destruct i; cbn; [ reflexivity | apply IHn; lia ]. Qed.
Theorem make_buffer_ok t : no_nul t -> short Skip t -> exists b, make_buffer t = Some b /\ repr b (toks_of (cw Skip [] t)).
Proof.
  intros Hn Hs. unfold make_buffer. apply push_back_ok; auto.
  2:{ intros; lia. }
  2:{ apply no_nul_all_toks. }
  assert (Hh : holds [] (repeat nul slot_size)).
  { split; [ constructor |]. split; [ apply repeat_length |]. exists (repeat nul 511). reflexivity. }
  constructor; cbn [lx_mem lx_pos lx_cur lx_in]; auto; try lia.
  - intros s m H. apply nth_error_In, repeat_spec in H. subst. apply repeat_length.
  - split; assumption.
  - intros s Hs0 _. exists [], (repeat nul slot_size). rewrite !nth_error_repeat_lt by assumption. auto.
  - exists [], (repeat nul slot_size), 0. split; [ reflexivity |]. split; [ reflexivity |]. split; [ exact Hh |]. split; [ apply le_n |]. reflexivity.
Qed.
Theorem token_at_ok b toks i : repr b toks -> i < 10 -> token_at b i = nth i toks [].
Proof. intros HR Hi. apply (rp_view _ _ HR i Hi). Qed.

(** ** The words read and the words of the lines *)
(** The comment left in the array at the end of the file. *)
Fixpoint leftover (md : mode) (last : text) (l : text) : text :=
  match l with
  | [] => match md with Inside => [] | _ => last end
  | c :: l' =>
    match md with
    | Comment => leftover (if Ascii.eqb c nl then Skip else Comment) last l'
    | Inside => if isspace c then leftover Skip [] l' else leftover Inside [] l'
    | Skip =>
      if isspace c then leftover Skip last l'
      else if Ascii.eqb c backslash then leftover Comment (word_of l) l'
      else leftover Inside [] l'
    end
  end.
Lemma words_from_spec : forall h cur, words_from cur h = flush (cur ++ word_of h) ++ words (after_word h).
Proof.
  induction h as [ |c h IH ]; intros cur; (cbn [words_from word_of after_word]; chars).
  - rewrite !app_nil_r. reflexivity.
  - destruct (isspace c) eqn:E.
    + rewrite app_nil_r. unfold words at 1. (cbn [words_from]; chars). rewrite E. reflexivity.
    + rewrite IH, <- app_assoc. reflexivity.
Qed.
Lemma words_space c h : isspace c = true -> words (c :: h) = words h.
Proof. intros E. unfold words. (cbn [words_from]; chars). rewrite E. reflexivity. Qed.
Lemma words_word c h : isspace c = false -> words (c :: h) = word_of (c :: h) :: words (after_word h).
Proof.
  intros E. unfold words at 1. (cbn [words_from]; chars). rewrite E. rewrite words_from_spec. cbn [word_of]. rewrite E. reflexivity.
Qed.
Lemma lines_cons c l : exists h r, lines l = h :: r /\
  lines (c :: l) = if Ascii.eqb c nl then [] :: h :: r else (c :: h) :: r.
Proof.
  assert (H : exists h r, lines l = h :: r).
  { destruct l as [ |d l ]; (cbn [lines]; chars); [ exists [], []; reflexivity |]. destruct (Ascii.eqb d nl); [ eauto |].
    destruct (lines l); eauto. }
  destruct H as [h [r E]]. exists h, r. split; [ exact E |]. (cbn [lines]; chars). rewrite E. reflexivity.
Qed.
Lemma nl_space : isspace nl = true. Proof. reflexivity. Qed.
Lemma word_of_line : forall l h r, lines l = h :: r -> word_of h = word_of l.
Proof.
  induction l as [ |c l IH ]; intros h r E; [ injection E as <- <-; reflexivity |].
  destruct (lines_cons c l) as [h0 [r0 [E1 E2]]]. rewrite E2 in E. destruct (Ascii.eqb c nl) eqn:En.
  - injection E as <- <-. apply Ascii.eqb_eq in En. subst c. reflexivity.
  - injection E as <- <-. cbn [word_of]. destruct (isspace c); [ reflexivity |]. f_equal. eapply IH; eauto.
Qed.
Definition FW (ls : list text) : list text := flat_map (fun l => uncomment (words l)) ls.

Lemma cw_lines : forall l h r, lines l = h :: r ->
  (forall last, cw Skip last l = uncomment (words h) ++ FW r ++ flush (leftover Skip last l)) /\
  (forall last, last <> [] -> cw Comment last l = FW r ++ flush (leftover Comment last l)) /\
  cw Inside [] l = uncomment (words (after_word h)) ++ FW r ++ flush (leftover Inside [] l).
Proof.
  induction l as [ |c l IH ]; intros h r E.
  { injection E as <- <-. split; [ | split ]; [ intros last; destruct last | intros last _; destruct last |]; reflexivity. }
  destruct (lines_cons c l) as [h0 [r0 [E1 E2]]]. rewrite E2 in E. clear E2. destruct (IH _ _ E1) as [I1 [I2 I3]].
  destruct (Ascii.eqb c nl) eqn:En.
  - injection E as <- <-. apply Ascii.eqb_eq in En. subst c.
    (cbn [cw leftover FW flat_map words words_from uncomment after_word flush app]; chars).
    rewrite nl_space, Ascii.eqb_refl. repeat split; intros; rewrite I1, <- app_assoc; reflexivity.
  - injection E as <- <-. cbn [cw leftover]. rewrite En. repeat split; intros.
    + destruct (isspace c) eqn:Es; [ rewrite words_space by exact Es; apply I1 |].
      rewrite words_word by exact Es. cbn [uncomment].
      assert (Hw : word_of (c :: h0) = word_of (c :: l)) by (cbn [word_of]; rewrite Es; f_equal; eapply word_of_line; eauto).
      rewrite Hw. assert (Hc : comment_word (word_of (c :: l)) = Ascii.eqb c backslash) by (cbn [word_of]; rewrite Es; reflexivity).
      rewrite Hc. destruct (Ascii.eqb c backslash).
      * cbn [app]. rewrite <- I2; [ reflexivity |]. cbn [word_of]. rewrite Es. discriminate.
      * rewrite I3. reflexivity.
    + apply I2. assumption.
    + destruct (isspace c) eqn:Es.
      * cbn [after_word]. rewrite Es. rewrite words_space by exact Es. apply I1.
      * cbn [after_word]. rewrite Es. apply I3.
Qed.

Definition nonblank (ws : list text) : bool := match ws with [] => false | _ => true end.
Definition plain_end (l0 : text) (wss : list (list text)) : Prop :=
  match filter nonblank wss with
  | [] => l0 = []
  | f => existsb comment_word (last f []) = false
  end.
Lemma plain_end_skip l0 ws wss : (ws <> [] -> forall l1, plain_end l1 (ws :: wss)) -> (ws = [] -> plain_end l0 wss) -> plain_end l0 (ws :: wss).
Proof. intros H1 H2. destruct ws; [ apply H2; reflexivity | apply H1; discriminate ]. Qed.
Lemma plain_end_word l0 w ws wss : comment_word w = false -> plain_end l0 ((w :: ws) :: wss) -> plain_end [] (ws :: wss).
Proof.
  intros Hw H. unfold plain_end in *. cbn [filter nonblank] in *. destruct ws as [ |w2 ws ]; cbn [nonblank].
  - destruct (filter nonblank wss); [ reflexivity |]. exact H.
  - destruct (filter nonblank wss); cbn [last existsb] in *; [ rewrite Hw in H; exact H | exact H ].
Qed.
Lemma plain_end_comment l0 w ws wss : comment_word w = true -> plain_end l0 ((w :: ws) :: wss) -> forall l1, plain_end l1 wss.
Proof.
  intros Hw H l1. unfold plain_end in *. cbn [filter nonblank] in *.
  destruct (filter nonblank wss); [ cbn [last existsb] in H; rewrite Hw in H; discriminate |]. exact H.
Qed.
Lemma leftover_nil : forall l h r, lines l = h :: r ->
  (forall l0, plain_end l0 (words h :: map words r) -> leftover Skip l0 l = []) /\
  (forall l0, plain_end l0 (map words r) -> leftover Comment l0 l = []) /\
  (plain_end [] (words (after_word h) :: map words r) -> leftover Inside [] l = []).
Proof.
  induction l as [ |c l IH ]; intros h r E.
  { injection E as <- <-. repeat split; cbn; auto. }
  destruct (lines_cons c l) as [h0 [r0 [E1 E2]]]. rewrite E2 in E. clear E2. destruct (IH _ _ E1) as [I1 [I2 I3]].
  destruct (Ascii.eqb c nl) eqn:En.
  - injection E as <- <-. apply Ascii.eqb_eq in En. subst c.
    cbn [leftover after_word]. rewrite nl_space, Ascii.eqb_refl. repeat split; intros; apply I1; exact H.
  - injection E as <- <-. cbn [leftover]. rewrite En. repeat split; intros.
    + destruct (isspace c) eqn:Es; [ rewrite words_space in H by exact Es; apply I1; exact H |].
      rewrite words_word in H by exact Es.
      assert (Hc : comment_word (word_of (c :: h0)) = Ascii.eqb c backslash) by (cbn [word_of]; rewrite Es; reflexivity).
      destruct (Ascii.eqb c backslash).
      * apply I2. eapply plain_end_comment; eassumption.
      * apply I3. eapply plain_end_word; eassumption.
    + apply I2. exact H.
    + cbn [after_word] in H. destruct (isspace c) eqn:Es; [ rewrite words_space in H by exact Es; apply I1; exact H | apply I3; exact H ].
Qed.

Definition short_words (ws : list text) : Prop := Forall (fun w => length w < slot_size) ws.
Lemma short_lines : forall l h r, lines l = h :: r -> short_words (flat_map words r) ->
  (short_words (words h) -> short Skip l) /\ short Comment l /\ (short_words (words (after_word h)) -> short Inside l).
Proof.
  induction l as [ |c l IH ]; intros h r E Hr; [ repeat split; cbn; auto |].
  destruct (lines_cons c l) as [h0 [r0 [E1 E2]]]. rewrite E2 in E. clear E2.
  destruct (Ascii.eqb c nl) eqn:En.
  - injection E as <- <-. cbn [flat_map] in Hr. apply Forall_app in Hr. destruct Hr as [Hh Hr].
    destruct (IH _ _ E1 Hr) as [I1 [I2 I3]]. apply Ascii.eqb_eq in En. subst c.
    cbn [short]. rewrite nl_space, Ascii.eqb_refl. repeat split; intros; apply I1; exact Hh.
  - injection E as <- <-. destruct (IH _ _ E1 Hr) as [I1 [I2 I3]]. cbn [short]. rewrite En. repeat split; intros.
    + destruct (isspace c) eqn:Es; [ rewrite words_space in H by exact Es; apply I1; exact H |].
      rewrite words_word in H by exact Es. inversion H; subst.
      assert (Hw : word_of (c :: h0) = word_of (c :: l)) by (cbn [word_of]; rewrite Es; f_equal; eapply word_of_line; eauto).
      rewrite <- Hw. split; [ assumption |]. destruct (Ascii.eqb c backslash); [ apply I2 | apply I3; assumption ].
    + apply I2.
    + cbn [after_word] in H. destruct (isspace c) eqn:Es; [ rewrite words_space in H by exact Es; apply I1; exact H | apply I3; exact H ].
Qed.

(** The tokens read: those of the file and, when it ends with a comment, those of the first
    word of the last comment. *)
Theorem code_tokens t : toks_of (cw Skip [] t) = file_tokens t ++ toks_of (flush (leftover Skip [] t)).
Proof.
  destruct (lines t) as [ |h r ] eqn:E.
  { destruct t as [ |c t ]; [ discriminate |]. destruct (lines_cons c t) as [h [r [_ E2]]]. rewrite E in E2. destruct (Ascii.eqb c nl); discriminate. }
  rewrite (proj1 (cw_lines _ _ _ E)). unfold file_tokens, file_words, toks_of. rewrite E. cbn [flat_map].
  rewrite !flat_map_app, <- app_assoc. reflexivity.
Qed.
Theorem readable_short t : readable t -> no_nul t /\ short Skip t.
Proof.
  intros [H1 H2]. split; [ exact H1 |]. destruct (lines t) as [ |h r ] eqn:E.
  { destruct t as [ |c t ]; [ discriminate |]. destruct (lines_cons c t) as [h [r [_ E2]]]. rewrite E in E2. destruct (Ascii.eqb c nl); discriminate. }
  cbn [flat_map] in H2. apply Forall_app in H2. destruct H2. apply (proj1 (short_lines _ _ _ E H0)). exact H.
Qed.
Theorem plain_tokens t : ends_plain t -> toks_of (cw Skip [] t) = file_tokens t.
Proof.
  intros H. rewrite code_tokens. destruct (lines t) as [ |h r ] eqn:E.
  { destruct t as [ |c t ]; [ discriminate |]. destruct (lines_cons c t) as [h [r [_ E2]]]. rewrite E in E2. destruct (Ascii.eqb c nl); discriminate. }
  rewrite (proj1 (leftover_nil _ _ _ E)); [ apply app_nil_r |].
  unfold ends_plain in H. rewrite E in H. cbn [map] in H. unfold plain_end. fold nonblank in H.
  destruct (filter nonblank (words h :: map words r)); [ reflexivity | exact H ].
Qed.
Theorem buffer_tokens t : readable t -> ends_plain t -> exists b, make_buffer t = Some b /\ repr b (file_tokens t).
Proof.
  intros H1 H2. destruct (readable_short t H1) as [Hn Hs]. destruct (make_buffer_ok t Hn Hs) as [b [E R]].
  exists b. rewrite plain_tokens in R by assumption. auto.
Qed.
