(** The whole document. *)
From Coq Require Import Ascii String Lia.
From Verif Require Import Base Problem_model ResultIO_model Chars_spec Lexer_model Lexer_spec Lexer_proofs Parser_model Parser_spec Parser_proofs Parser_proofs2 Parser_proofs3 Parser_proofs4.
Open Scope string_scope.
Open Scope list_scope.
Open Scope nat_scope.

Definition not_colon (t : text) : Prop := are_equal t (str ":") = false.
Lemma head_not_colon l : head_ok l -> not_colon (tk l 0).
Proof.
  intros [x [y [-> [[H|[[->| ->] _]] _]]]]; cbn [tk nth]; [ apply (plain_facts _ H) | reflexivity | reflexivity ].
Qed.
Lemma name_start_not_colon l : starts_with_name l = true -> not_colon l.
Proof.
  unfold not_colon. intros H. destruct (are_equal l (str ":")) eqn:E; [ | reflexivity ]. exfalso. destruct l as [ |c [ |c2 l]]; [ discriminate E | |].
  - assert (Hc : forall c, (if starts_with_name [c] then negb (are_equal [c] (str ":")) else true) = true)
      by (apply all_chars; vm_compute; reflexivity).
    specialize (Hc c). rewrite H, E in Hc. discriminate.
  - apply are_equal_iff in E. discriminate.
Qed.
Lemma keyword_not_colon' w : is_keyword w = true -> not_colon w.
Proof. apply keyword_not_colon. Qed.

Lemma read_section_ok kws h r w : h_words h = [w] -> any_of w kws = true -> not_colon (tk r 0) ->
  read_section kws (tk (header_tokens h ++ r) 0) (tk (header_tokens h ++ r) 1) = length (header_tokens h).
Proof.
  intros Hw Ha Hr. unfold header_tokens. rewrite Hw. destruct (h_colon h); cbn [app tk nth length]; unfold read_section; rewrite Ha; unfold colon; [ reflexivity |].
  unfold not_colon, tk in Hr. cbn [app]. change (nth 1 (w :: r) []) with (nth 0 r []). rewrite Hr. reflexivity.
Qed.
Lemma header_len h w : h_words h = [w] -> 1 <= length (header_tokens h) < 10.
Proof. intros H. unfold header_tokens. rewrite H. destruct (h_colon h); cbn; lia. Qed.

Section Doc.
Context {D : Type} (dn : dops D).
Local Notation raw_problem := (raw_problem (D := D)).

Lemma section_run {A} (kws kws' : list text) (P : A -> Prop) (f : A -> list text) s loop b (p : raw_problem) V r :
  section_ok kws P s -> any_of (tk r 0) kws' = true ->
  (forall k k', In k kws' -> In k' kws -> are_equal k k' = false) ->
  repr b (section_tokens f s ++ r) ->
  (forall h l, s = Some (h, l) -> not_colon (tk (flat_map f l ++ r) 0)) ->
  (forall h l b1, s = Some (h, l) -> Forall P l -> repr b1 (flat_map f l ++ r) -> exists b', loop b1 (rw_vars p) = P_ok (b', V) /\ repr b' r) ->
  (s = None -> V = rw_vars p) ->
  exists b', section_ (read_section kws (first b) (second b)) loop b p = P_ok (b', with_vars p V) /\ repr b' r.
Proof.
  intros Hok Hr Hdis HR Hcol Hloop Hnone. unfold first, second. rewrite !(token_at_ok _ _ _ HR) by lia. fold (tk (section_tokens f s ++ r) 0). fold (tk (section_tokens f s ++ r) 1).
  destruct s as [[h l]|]; cbn [section_tokens section_ok] in *.
  - destruct Hok as [[w [Hw Ha]] HP]. words. rewrite <- app_assoc in *.
    rewrite (read_section_ok kws h _ w Hw Ha (Hcol h l eq_refl)).
    destruct (pop_app _ _ _ HR (header_len h w Hw)) as [b1 [E1 R1]].
    destruct (Hloop h l b1 eq_refl HP R1) as [b2 [E2 R2]]. exists b2. split; [ | exact R2 ].
    unfold section_. destruct (length (header_tokens h)) eqn:E; [ pose proof (header_len h w Hw); lia |].
    rewrite E1. cbn [or_abort pbind]. rewrite E2. reflexivity.
  - exists b. split; [ | exact HR ]. cbn [app]. unfold read_section. rewrite (kw_not_other _ _ _ Hr Hdis). cbn [section_].
    rewrite (Hnone eq_refl). destruct p; reflexivity.
Qed.
Lemma section_first {A} kws kws' (P : A -> Prop) (f : A -> list text) s r :
  section_ok kws P s -> any_of (tk r 0) kws' = true -> any_of (tk (section_tokens f s ++ r) 0) (kws ++ kws') = true.
Proof.
  intros Hok Hr. unfold any_of in *. rewrite existsb_app. destruct s as [[h l]|]; cbn [section_tokens section_ok] in *.
  - destruct Hok as [[w [Hw Ha]] _]. words. unfold header_tokens. rewrite Hw. cbn [app tk nth]. unfold any_of in Ha. rewrite Ha. reflexivity.
  - cbn [app]. rewrite Hr. apply orb_true_r.
Qed.

Definition kw_bounds := [str "bounds"; str "bound"].
Definition kw_binary := [str "binary"; str "binaries"; str "bin"].
Definition kw_general := [str "general"; str "generals"; str "gen"].
Definition kw_end := [str "end"].
Lemma disjoint_kw (l1 l2 : list text) : forallb (fun k => forallb (fun k' => negb (are_equal k k')) l2) l1 = true ->
  forall k k', In k l1 -> In k' l2 -> are_equal k k' = false.
Proof.
  intros H k k' H1 H2. rewrite forallb_forall in H. specialize (H k H1). rewrite forallb_forall in H. specialize (H k' H2).
  destruct (are_equal k k'); [ discriminate | reflexivity ].
Qed.
Lemma all_kw (l : list text) : forallb is_keyword l = true -> forall k, In k l -> is_keyword k = true.
Proof. intros H k. rewrite forallb_forall in H. apply H. Qed.

(** subject to *)
Lemma subject_run h r b : subject_ok h -> not_colon (tk r 0) -> repr b (header_tokens h ++ r) ->
  is_keyword (tk (header_tokens h ++ r) 0) = true /\
  exists b', repr b' r /\ read_subject_to (first b) (second b) (third b) = length (header_tokens h) /\
    or_abort (pop (length (header_tokens h)) b) = P_ok b' /\ 1 <= length (header_tokens h).
Proof.
  intros Hok Hr HR. unfold first, second, third. rewrite !(token_at_ok _ _ _ HR) by lia.
  assert (Hlen : 1 <= length (header_tokens h) < 10).
  { unfold header_tokens. destruct Hok as [[w [-> _]]|[w1 [w2 [-> _]]]]; destruct (h_colon h); cbn; lia. }
  destruct (pop_app _ _ _ HR Hlen) as [b1 [E1 R1]]. rewrite E1. cbn [or_abort].
  assert (Hk : is_keyword (tk (header_tokens h ++ r) 0) = true /\
     read_subject_to (nth 0 (header_tokens h ++ r) []) (nth 1 (header_tokens h ++ r) []) (nth 2 (header_tokens h ++ r) []) = length (header_tokens h)).
  2: { destruct Hk as [Hk1 Hk2]. split; [ exact Hk1 |]. exists b1. split; [ exact R1 |]. split; [ exact Hk2 |]. split; [ reflexivity | apply Hlen ]. }
  unfold header_tokens. destruct Hok as [[w [-> Ha]]|[w1 [w2 [-> Ha]]]]; words.
  - split.
    + destruct (h_colon h); cbn [app tk nth]; (eapply any_keyword; [ exact Ha | apply all_kw; reflexivity ]).
    + unfold read_subject_to.
      assert (Ha' : any_of w [str "st"; str "st."; str "s.t"; str "s.t."] = true).
      { unfold any_of in *. cbn [existsb] in *. destruct (are_equal w (str "st")), (are_equal w (str "st.")), (are_equal w (str "s.t")), (are_equal w (str "s.t.")); auto. }
      destruct (h_colon h); cbn [app tk nth length]; rewrite Ha'; unfold colon; [ reflexivity |].
      cbn [app]. unfold not_colon, tk in Hr. rewrite Hr. reflexivity.
  - assert (Hno : forall kw, (kw = str "subject" \/ kw = str "sush") -> are_equal w1 kw = true -> any_of w1 [str "st"; str "st."; str "s.t"; str "s.t."] = false).
    { intros kw Hkw H. apply kw_not_other with (kws := [kw]); [ unfold any_of; cbn [existsb]; rewrite H; reflexivity |].
      destruct Hkw as [->| ->]; apply disjoint_kw; reflexivity. }
    destruct Ha as [[H1 H2]|[H1 H2]].
    + split; [ destruct (h_colon h); cbn [app tk nth]; (eapply (any_keyword w1 [str "subject"]); [ unfold any_of; cbn [existsb]; rewrite H1; reflexivity | apply all_kw; reflexivity ]) |].
      unfold read_subject_to. destruct (h_colon h); cbn [app tk nth length]; rewrite (Hno _ (or_introl eq_refl) H1), H1, H2; cbn [andb]; unfold colon; [ reflexivity |].
      cbn [app]. unfold not_colon, tk in Hr. rewrite Hr. reflexivity.
    + assert (Hns : are_equal w1 (str "subject") = false).
      { destruct (are_equal w1 (str "subject")) eqn:E; [ | reflexivity ]. apply are_equal_iff in E, H1. rewrite E in H1. discriminate. }
      split; [ destruct (h_colon h); cbn [app tk nth]; (eapply (any_keyword w1 [str "sush"]); [ unfold any_of; cbn [existsb]; rewrite H1; reflexivity | apply all_kw; reflexivity ]) |].
      unfold read_subject_to. destruct (h_colon h); cbn [app tk nth length]; rewrite (Hno _ (or_intror eq_refl) H1), Hns, H1, H2; cbn [andb]; unfold colon; [ reflexivity |].
      cbn [app]. unfold not_colon, tk in Hr. rewrite Hr. reflexivity.
Qed.

(** names are fine *)
Lemma oterm_names_ok l : objective_ok dn l -> Forall (name_ok dn) (flat_map oterm_names l).
Proof.
  induction l as [ |[t|s] l IH ]; cbn [objective_ok flat_map oterm_names app]; intros H; [ constructor | constructor; [ apply H | apply IH, H ] | apply IH, H ].
Qed.
Lemma cst_names_ok l : Forall (cst_ok dn) l -> Forall (name_ok dn) (flat_map cst_names l).
Proof.
  induction 1 as [ |k l Hk _ IH ]; cbn [flat_map]; [ constructor |]. apply Forall_app. split; [ | exact IH ].
  unfold cst_names. apply Forall_forall. intros x Hx. apply in_map_iff in Hx. destruct Hx as [t [<- Ht]].
  destruct Hk as [_ [Hk _]]. rewrite Forall_forall in Hk. apply (Hk t Ht).
Qed.
Lemma document_names_ok ty d : document_ok dn ty d -> Forall (name_ok dn) (document_names d) /\ NoDup (document_names d).
Proof.
  intros Hd. split; [ | apply firsts_NoDup ]. apply Forall_forall. intros x Hx. unfold document_names in Hx. apply (proj1 (firsts_In _ _)) in Hx. apply in_app_or in Hx.
  pose proof (oterm_names_ok _ (ok_objective _ _ _ Hd)) as H1. pose proof (cst_names_ok _ (ok_constraints _ _ _ Hd)) as H2. rewrite Forall_forall in H1, H2.
  destruct Hx; auto.
Qed.

(** label of the objective *)
Lemma objective_second l r : objective_ok dn l -> is_keyword (tk r 0) = true -> l <> [] -> not_colon (tk (flat_map oterm_tokens l ++ r) 1).
Proof.
  intros Hok Hr Hl. destruct l as [ |t l ]; [ congruence |]. cbn [flat_map]. rewrite <- app_assoc.
  assert (Hnext : not_colon (tk (flat_map oterm_tokens l ++ r) 0)).
  { destruct l as [ |t2 l ]; [ apply keyword_not_colon; exact Hr |]. cbn [flat_map]. rewrite <- app_assoc. apply head_not_colon.
    apply (oterm_head dn t2 l). destruct t; apply Hok. }
  destruct t as [[s n v]|[s n]]; cbn [objective_ok] in Hok; cbn [oterm_tokens].
  - destruct Hok as [[Hv Hn] _]. cbn [t_var t_num] in *. pose proof (plain_facts _ (name_plain dn _ Hv)) as Fv.
    destruct s as [[]|], n as [n|]; unfold term_tokens; cbn [t_sign t_num t_var sign_tokens num_tokens app tk nth];
      try (exact (proj2 (proj2 (proj2 (proj2 (proj2 (proj2 (proj2 (proj2 (proj2 Fv))))))))));
      try (pose proof (plain_facts _ (num_plain dn _ Hn)) as Fn; exact (proj2 (proj2 (proj2 (proj2 (proj2 (proj2 (proj2 (proj2 (proj2 Fn)))))))))).
    exact Hnext.
  - destruct Hok as [Hn _]. unfold signed_ok in Hn. cbn [s_num] in Hn. pose proof (plain_facts _ (num_plain dn _ Hn)) as Fn.
    destruct s as [[]|]; unfold signed_tokens; cbn [s_sign s_num sign_tokens app tk nth];
      try (exact (proj2 (proj2 (proj2 (proj2 (proj2 (proj2 (proj2 (proj2 (proj2 Fn)))))))))). exact Hnext.
Qed.
Lemma label_run lb l r b : match lb with Some x => is_keyword x = false /\ x <> [] | None => True end ->
  objective_ok dn l -> is_keyword (tk r 0) = true -> repr b (label_tokens lb ++ flat_map oterm_tokens l ++ r) ->
  exists b', pop_read (try_read_objective_label (first b) (second b)) b = P_ok b' /\ repr b' (flat_map oterm_tokens l ++ r).
Proof.
  intros Hlb Hl Hr HR. unfold first, second. rewrite !(token_at_ok _ _ _ HR) by lia. unfold try_read_objective_label. destruct lb as [x|]; cbn [label_tokens app nth] in *.
  - rewrite (proj1 Hlb). change (are_equal (str ":") (str ":")) with true. cbv iota.
    destruct (pop_app [x; str ":"] (flat_map oterm_tokens l ++ r) b HR) as [b1 [E1 R1]]; [ cbn; lia |].
    exists b1. split; [ | exact R1 ]. unfold pop_read. cbn [length] in E1. rewrite E1. reflexivity.
  - exists b. split; [ | exact HR ]. destruct l as [ |t l ].
    + cbn [flat_map app]. unfold tk in Hr. rewrite Hr. reflexivity.
    + destruct (is_keyword (nth 0 (flat_map oterm_tokens (t :: l) ++ r) [])); [ reflexivity |].
      pose proof (objective_second (t :: l) r Hl Hr ltac:(discriminate)) as H. unfold not_colon, tk in H. rewrite H. reflexivity.
Qed.

Lemma bounds_head N l r : Forall (bline_ok dn N) l -> Forall (name_ok dn) N -> is_keyword (tk r 0) = true -> not_colon (tk (flat_map bline_tokens l ++ r) 0).
Proof.
  intros Hl HN Hr. destruct l as [ |k l ]; [ apply keyword_not_colon; exact Hr |]. inversion Hl; subst. cbn [flat_map]. rewrite <- app_assoc.
  rewrite Forall_forall in HN. destruct H1 as [Hin Hb]. pose proof (HN _ Hin) as Hn. pose proof (plain_facts _ (name_plain dn _ Hn)) as Fn.
  destruct k as [nm sp v|lo sp1 nm sp2 hi]; cbn [bline_tokens bline_name] in *.
  - cbn [app tk nth]. apply Fn.
  - rewrite <- app_assoc. apply head_not_colon, (signed_head dn), Hb.
Qed.
Lemma names_head N l r : Forall (fun nm => In nm N) l -> Forall (name_ok dn) N -> is_keyword (tk r 0) = true -> not_colon (tk (flat_map (fun nm => [nm]) l ++ r) 0).
Proof.
  intros Hl HN Hr. destruct l as [ |k l ]; [ apply keyword_not_colon; exact Hr |]. inversion Hl; subst. cbn [flat_map app tk nth].
  rewrite Forall_forall in HN. apply (plain_facts _ (name_plain dn _ (HN _ H1))).
Qed.

Hypothesis Hdn : dops_ok dn.
Theorem parse_document d ty b fuel : document_ok dn ty d -> repr b (document_tokens d) -> length (document_tokens d) <= fuel ->
  parse dn fuel b (empty_problem dn) = P_ok (meaning dn ty d).
Proof.
  intros Hok HR Hfuel. destruct (document_names_ok ty d Hok) as [HNok HNd]. destruct Hok as [Hty Hlb Hobj Hsub Hcst Hbd Hbd1 Hbin Hgen Hend]. destruct Hend as [we [Hwe Hae]]. words.
  unfold document_tokens in *. set (N := document_names d) in *.
  set (Te := header_tokens (dc_end d)) in *. set (Tg := section_tokens (fun nm => [nm]) (dc_general d) ++ Te) in *.
  set (Tb := section_tokens (fun nm => [nm]) (dc_binary d) ++ Tg) in *.
  set (Tbd := section_tokens bline_tokens (dc_bounds d) ++ Tb) in *.
  assert (Hke : any_of (tk Te 0) kw_end = true).
  { unfold Te, header_tokens. rewrite Hwe. cbn [app tk nth]. unfold any_of, kw_end. cbn [existsb]. rewrite Hae. reflexivity. }
  assert (Hkg : any_of (tk Tg 0) (kw_general ++ kw_end) = true) by (eapply section_first; eassumption).
  assert (Hkb : any_of (tk Tb 0) (kw_binary ++ kw_general ++ kw_end) = true) by (eapply section_first; eassumption).
  assert (Hkbd : any_of (tk Tbd 0) (kw_bounds ++ kw_binary ++ kw_general ++ kw_end) = true) by (eapply section_first; eassumption).
  assert (Ke : is_keyword (tk Te 0) = true) by (eapply any_keyword; [ eassumption | apply all_kw; reflexivity ]).
  assert (Kg : is_keyword (tk Tg 0) = true) by (eapply any_keyword; [ eassumption | apply all_kw; reflexivity ]).
  assert (Kb : is_keyword (tk Tb 0) = true) by (eapply any_keyword; [ eassumption | apply all_kw; reflexivity ]).
  assert (Kbd : is_keyword (tk Tbd 0) = true) by (eapply any_keyword; [ eassumption | apply all_kw; reflexivity ]).
  set (Tc := flat_map cst_tokens (dc_constraints d) ++ Tbd) in *.
  assert (Hcc : not_colon (tk Tc 0)).
  { unfold Tc. destruct (dc_constraints d) as [ |k l ] eqn:E; [ apply keyword_not_colon; exact Kbd |]. cbn [flat_map]. rewrite <- app_assoc.
    inversion Hcst; subst. destruct H1 as [Hl [Ht _]]. unfold cst_tokens. destruct (k_label k) as [x|]; cbn [label_tokens app].
    - cbn [tk nth]. apply name_start_not_colon, Hl.
    - rewrite <- app_assoc. apply head_not_colon, (term_head dn). inversion Ht; subst. apply H1. }
  (* lengths *)
  assert (Lo : length (dc_objective d) <= length (flat_map oterm_tokens (dc_objective d))).
  { apply flat_map_len. intros [t|s]; cbn [oterm_tokens]; unfold term_tokens, signed_tokens; rewrite !app_length; cbn [length]; lia. }
  assert (Lbd : forall h l, dc_bounds d = Some (h, l) -> length l <= length Tbd).
  { intros h l E. unfold Tbd. rewrite E. cbn [section_tokens]. rewrite !app_length. pose proof (flat_map_len bline_tokens l (fun b => proj1 (bline_len b))). lia. }
  assert (Lbin : forall h l, dc_binary d = Some (h, l) -> length l <= length Tb).
  { intros h l E. unfold Tb. rewrite E. cbn [section_tokens]. rewrite !app_length. pose proof (flat_map_len (fun nm : text => [nm]) l (fun _ => le_n 1)). lia. }
  assert (Lgen : forall h l, dc_general d = Some (h, l) -> length l <= length Tg).
  { intros h l E. unfold Tg. rewrite E. cbn [section_tokens]. rewrite !app_length. pose proof (flat_map_len (fun nm : text => [nm]) l (fun _ => le_n 1)). lia. }
  assert (L1 : length Tg <= length Tb) by (unfold Tb; rewrite app_length; lia).
  assert (L2 : length Tb <= length Tbd) by (unfold Tbd; rewrite app_length; lia).
  assert (L3 : length (flat_map cst_tokens (dc_constraints d)) + length Tbd = length Tc) by (unfold Tc; rewrite app_length; lia).
  cbn [length] in Hfuel. rewrite !app_length in Hfuel.
  (* run *)
  unfold parse. unfold first at 1. rewrite (token_at_ok _ _ _ HR) by lia. cbn [nth]. rewrite Hty. cbn [or_error pbind].
  destruct (pop_front_ok _ _ HR) as [b1 [E1 R1]]. cbn [tl] in R1. rewrite E1. cbn [or_abort pbind].
  destruct (label_run (dc_label d) (dc_objective d) (header_tokens (dc_subject d) ++ Tc) b1 Hlb Hobj) as [b2 [E2 R2]].
  { assert (Hs : forall b, repr b (header_tokens (dc_subject d) ++ Tc) -> is_keyword (tk (header_tokens (dc_subject d) ++ Tc) 0) = true) by (intros b' R'; apply (subject_run _ _ _ Hsub Hcc R')).
    unfold header_tokens. destruct Hsub as [[w [-> Ha]]|[w1 [w2 [-> Ha]]]]; words; cbn [app tk nth].
    - eapply any_keyword; [ exact Ha | apply all_kw; reflexivity ].
    - apply (any_keyword w1 [str "subject"; str "sush"]); [ unfold any_of; cbn [existsb]; destruct Ha as [[-> _]|[-> _]]; rewrite ?orb_true_r; reflexivity | apply all_kw; reflexivity ]. }
  { exact R1. }
  rewrite E2. cbn [pbind].
  assert (Ksub : is_keyword (tk (header_tokens (dc_subject d) ++ Tc) 0) = true).
  { unfold header_tokens. destruct Hsub as [[w [-> Ha]]|[w1 [w2 [-> Ha]]]]; words; cbn [app tk nth].
    - eapply any_keyword; [ exact Ha | apply all_kw; reflexivity ].
    - apply (any_keyword w1 [str "subject"; str "sush"]); [ unfold any_of; cbn [existsb]; destruct Ha as [[-> _]|[-> _]]; rewrite ?orb_true_r; reflexivity | apply all_kw; reflexivity ]. }
  destruct (objective_loop_ok dn (dc_objective d) [] fuel b2 (set_type ty (empty_problem dn)) N (flat_map cst_names (dc_constraints d)) (header_tokens (dc_subject d) ++ Tc))
    as [b3 [E3 R3]]; auto; [ lia |].
  rewrite E3. cbn [pbind]. clear E3.
  destruct (subject_run _ _ _ Hsub Hcc R3) as [_ [b4 [R4 [Er [E4 Hlen]]]]]. rewrite Er.
  destruct (length (header_tokens (dc_subject d))) as [ |ns ] eqn:Ens; [ lia |]. rewrite E4. cbn [pbind].
  match goal with |- context [ constraints_loop dn fuel 0 b4 ?p ] => set (p4 := p) end.
  destruct (constraints_loop_ok dn (dc_constraints d) 0 fuel b4 p4 (flat_map oterm_names (dc_objective d)) N [] Tbd) as [b5 [E5 R5]]; auto.
  { lia. }
  { rewrite app_nil_r. reflexivity. }
  rewrite E5. cbn [pbind]. clear E5.
  match goal with |- context [ with_constraints p4 ?e ?g ?l ?v ] => set (p5 := with_constraints p4 e g l v) end.
  assert (Hv5 : rw_vars p5 = vars_of N (fun _ => fresh)) by reflexivity.
  (* bounds *)
  set (h1 := fun x => match find (fun k => text_eqb (bline_name k) x) (section_list (dc_bounds d)) with Some k => set_bline dn k fresh | None => fresh end).
  destruct (section_run kw_bounds (kw_binary ++ kw_general ++ kw_end) (bline_ok dn N) bline_tokens (dc_bounds d) (bounds_loop dn fuel) b5 p5 (vars_of N h1) Tb) as [b6 [E6 R6]]; auto.
  { apply disjoint_kw. reflexivity. }
  { intros h l E. apply (bounds_head N); auto. rewrite E in Hbd. apply Hbd. }
  { intros h l b' E HP R'. rewrite Hv5. destruct (bounds_loop_ok dn Hdn l fuel b' (fun _ => fresh) N Tb) as [b'' [E' R'']]; auto.
    - rewrite E in Hbd1. exact Hbd1.
    - specialize (Lbd h l E). lia.
    - exists b''. split; [ | exact R'' ]. rewrite E'. unfold h1. rewrite E. reflexivity. }
  { intros E. rewrite Hv5. unfold h1. rewrite E. reflexivity. }
  unfold read_bounds. fold kw_bounds. rewrite E6. cbn [pbind]. clear E6.
  (* binary *)
  set (h2 := fun x => if mem x (section_list (dc_binary d)) then mk_variable_value 0 1 vt_binary else h1 x).
  destruct (section_run kw_binary (kw_general ++ kw_end) (fun nm => In nm N) (fun nm => [nm]) (dc_binary d) (names_loop set_boolean_variable fuel) b6 (with_vars p5 (vars_of N h1)) (vars_of N h2) Tg) as [b7 [E7 R7]]; auto.
  { apply disjoint_kw. reflexivity. }
  { intros h l E. apply (names_head N); auto. rewrite E in Hbin. apply Hbin. }
  { intros h l b' E HP R'. cbn [rw_vars with_vars].
    destruct (names_loop_ok dn set_boolean_variable (fun _ => mk_variable_value 0 1 vt_binary) N) with (l := l) (fuel := fuel) (b := b') (h := h1) (r := Tg) as [b'' [E' R'']]; auto.
    - intros nm h0 Hin. apply set_boolean_ok; assumption.
    - specialize (Lbin h l E). lia.
    - exists b''. split; [ | exact R'' ]. rewrite E'. unfold h2. rewrite E. reflexivity. }
  { intros E. cbn [rw_vars with_vars]. unfold h2. rewrite E. reflexivity. }
  unfold read_binary. fold kw_binary. rewrite E7. cbn [pbind]. clear E7.
  (* general *)
  set (h3 := fun x => if mem x (section_list (dc_general d)) then mk_variable_value (v_min (h2 x)) (v_max (h2 x)) vt_general else h2 x).
  destruct (section_run kw_general kw_end (fun nm => In nm N) (fun nm => [nm]) (dc_general d) (names_loop set_integer_variable fuel) b7 (with_vars (with_vars p5 (vars_of N h1)) (vars_of N h2)) (vars_of N h3) Te) as [b8 [E8 R8]]; auto.
  { apply disjoint_kw. reflexivity. }
  { intros h l E. apply (names_head N); auto. rewrite E in Hgen. apply Hgen. }
  { intros h l b' E HP R'. cbn [rw_vars with_vars].
    destruct (names_loop_ok dn set_integer_variable (fun v => mk_variable_value (v_min v) (v_max v) vt_general) N) with (l := l) (fuel := fuel) (b := b') (h := h2) (r := Te) as [b'' [E' R'']]; auto.
    - intros nm h0 Hin. apply set_integer_ok; assumption.
    - specialize (Lgen h l E). lia.
    - exists b''. split; [ | exact R'' ]. rewrite E'. unfold h3. rewrite E. reflexivity. }
  { intros E. cbn [rw_vars with_vars]. unfold h3. rewrite E. reflexivity. }
  unfold read_general. fold kw_general. rewrite E8. cbn [pbind]. clear E8.
  (* end *)
  unfold first at 1, second. rewrite !(token_at_ok _ _ _ R8) by lia.
  assert (Ee : read_end (nth 0 Te []) (nth 1 Te []) = length Te).
  { unfold read_end. pose proof (read_section_ok kw_end (dc_end d) [] we Hwe) as H. rewrite app_nil_r in H. fold Te in H. apply H; [ | reflexivity ].
    unfold any_of, kw_end. cbn [existsb]. rewrite Hae. reflexivity. }
  rewrite Ee. assert (Hle : 1 <= length Te < 10) by (apply (header_len _ we Hwe)).
  rewrite <- (app_nil_r Te) in R8. destruct (pop_app _ _ _ R8 Hle) as [b9 [E9 R9]].
  destruct (length Te) as [ |ne ] eqn:Ene; [ lia |]. rewrite E9. cbn [or_abort pbind].
  unfold first. rewrite (token_at_ok _ _ _ R9) by lia. cbn [nth].
  assert (Hmap : map h3 N = map (variable_of dn d) N).
  { apply map_ext_in. intros x _. unfold h3, h2, h1, variable_of, set_bline, fresh.
    destruct (find _ _) as [k|], (mem x (section_list (dc_binary d))), (mem x (section_list (dc_general d))); reflexivity. }
  f_equal. unfold meaning. fold N. rewrite <- Hmap. reflexivity.
Qed.
Theorem make_problem_document t d ty fuel : readable t -> ends_plain t -> file_tokens t = document_tokens d -> document_ok dn ty d ->
  length (file_tokens t) <= fuel -> make_problem dn fuel t = P_ok (meaning dn ty d).
Proof.
  intros H1 H2 H3 H4 H5. destruct (buffer_tokens t H1 H2) as [b [E R]]. unfold make_problem. rewrite E. cbn [or_abort pbind].
  rewrite H3 in *. apply parse_document; assumption.
Qed.
End Doc.
