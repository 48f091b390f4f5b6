(** Property theorems C162 and C163: the LP files that get no answer, and the outcome of reading any LP file. *)
From Coq Require Import Ascii String QArith Lia.
From Verif Require Import Base Problem_model ResultIO_model Chars_spec Lexer_model Lexer_spec Lexer_proofs Lexer_props Parser_model Parser_spec
  Parser_proofs Parser_proofs2 Parser_concrete Accept_spec Accept_proofs3 Accept_proofs6 Accept_props Refused_spec Refused_props Stops_spec Stops_proofs Stops_proofs2.
Open Scope string_scope.
Open Scope list_scope.
Open Scope nat_scope.

(** C162. Reading a file does not always give an answer (C21, refuted in Parser_props.v). Here: the files without square brackets for which it gives none. The program stops in the objective, in a constraint or in a bound, at a word that [program_stops] describes. *)
Theorem C162_where_it_stops : forall {D : Type} (dn : dops D) (t : text) (fuel : nat),
  d_scan dn [] = None -> readable t -> ends_plain t -> ~ In (str "[") (file_tokens t) -> Forall (fun w => length w <> 320) (file_tokens t) ->
  length (file_tokens t) < fuel -> make_problem dn fuel t = P_abort -> program_stops dn (file_tokens t).
Proof. intros D dn t fuel H0 H1 H2 H3 H4 H5 H. exact (make_problem_bad dn H0 true fuel t H1 H2 H3 H4 H5 H). Qed.
Print Assumptions C162_where_it_stops.
(** It reads for ever only when the file ends inside the names of the binary or general variables, and a constraint has a constant. *)
Theorem C162_when_it_loops : forall {D : Type} (dn : dops D) (t : text) (fuel : nat),
  d_scan dn [] = None -> readable t -> ends_plain t -> ~ In (str "[") (file_tokens t) -> Forall (fun w => length w <> 320) (file_tokens t) ->
  length (file_tokens t) < fuel -> make_problem dn fuel t = P_running ->
  reads_for_ever dn (file_tokens t) /\
  exists l h ks rest, to_constraints dn (file_tokens t) l rest /\ (exists after, constraints_section dn (Some (h, ks)) rest after) /\
    exists k s n, In k ks /\ In (I_const s n) (w_items k).
Proof.
  intros D dn t fuel H0 H1 H2 H3 H4 H5 H. pose proof (make_problem_bad dn H0 false fuel t H1 H2 H3 H4 H5 H) as R. cbn beta iota in R. split; [exact R|].
  assert (B : exists N r, to_bounds dn (file_tokens t) N r /\ In [] N).
  { inversion R as [toks N t4 more (s & t3 & B & _) _ _ Hin|toks N t5 more (s' & t4 & (s & t3 & B & _) & _) _ _ Hin]; subst; eauto. }
  destruct B as (N & r & (l & s & t2 & Hc & Hs & ->) & Hin). unfold names_in in Hin. rewrite firsts_In in Hin. apply in_app_iff in Hin. destruct Hin as [Hin|Hin].
  - exfalso. destruct Hc as (t1 & _ & _ & Hl & _). apply in_map_iff in Hin. destruct Hin as (x & Ex & Hx). unfold item_vars in Hx. apply in_flat_map in Hx. destruct Hx as (i & Hi & Hx).
    pose proof (items_named dn _ _ Hl) as F. rewrite Forall_forall in F. specialize (F i Hi). destruct i as [y|]; [|destruct Hx]. destruct Hx as [->|[]]. exact (F Ex).
  - destruct s as [[h ks]|]; [|destruct Hin]. exists l, h, ks, t2. split; [exact Hc|]. split; [exists r; exact Hs|]. apply in_flat_map in Hin. destruct Hin as (k & Hk & Hin).
    apply in_map_iff in Hin. destruct Hin as (x & Ex & Hx). unfold row_terms in Hx. apply in_map_iff in Hx. destruct Hx as (i & Ei & Hi).
    destruct Hs as (_ & m & _ & _ & _ & Hr & _).
    assert (Hk' : exists next, items_ok dn (w_items k) next).
    { clear - Hr Hk. cbn [section_list] in Hk. induction ks as [|k0 ks IH]; [destruct Hk|]. destruct Hr as [Hr Hrs]. destruct Hk as [->|Hk]; [|exact (IH Hrs Hk)]. destruct Hr as (_ & _ & Hr & _). eauto. }
    destruct Hk' as [next Hk']. pose proof (items_named dn _ _ Hk') as F. rewrite Forall_forall in F. specialize (F i Hi). destruct i as [y|s n]; [|exists k, s, n; split; [exact Hk|exact Hi]].
    cbn [item_term] in Ei. subst x. destruct (F Ex).
Qed.
Print Assumptions C162_when_it_loops.

(** For the files without unusual words (see [usual_word] in Accept_spec.v) these descriptions are exact: at such a place the program always stops, whatever follows in the file, and
    it reads such a file for ever. *)
Theorem C162_exactly : forall {D : Type} (dn : dops D) (t : text) (fuel : nat),
  d_scan dn [] = None -> d_is_ninf dn (d_neg dn (d_inf dn)) = true -> d_is_pinf dn (d_inf dn) = true ->
  readable t -> ends_plain t -> ~ In (str "[") (file_tokens t) -> Forall (usual_word dn) (file_tokens t) -> length (file_tokens t) < fuel ->
  (make_problem dn fuel t = P_abort <-> program_stops dn (file_tokens t)) /\ (make_problem dn fuel t = P_running <-> reads_for_ever dn (file_tokens t)).
Proof.
  intros D dn t fuel H0 Hn Hp H1 H2 H3 H4 H5. destruct (make_problem_stops dn Hn Hp H0 fuel t H1 H2 H3 H4 H5) as [A B].
  assert (S : Forall (fun w => length w <> 320) (file_tokens t)) by (eapply Forall_impl; [|exact H4]; intros w K; apply K).
  split; (split; [|assumption]).
  - exact (C162_where_it_stops dn t fuel H0 H1 H2 H3 S H5).
  - intros H. apply (C162_when_it_loops dn t fuel H0 H1 H2 H3 S H5 H).
Qed.
Print Assumptions C162_exactly.

(** Files that meet the hypotheses. The program stops: in an objective that ends, and one with a sign before a keyword; in a constraint that has no operator, or no value, or a
    coefficient or a value that is not an int; in a bound that is not an int. It reads for ever in the last file. *)
Definition sx_stops : list text := [
  text_of ["min"];
  text_of ["min x +"];
  text_of ["min"; "x"; "st"; "x"; "end"];
  text_of ["min"; "x"; "st"; "x >= end"];
  text_of ["min"; "x"; "st"; "3000000000 x >= 1"; "end"];
  text_of ["min"; "x"; "st"; "x >= 3000000000"; "end"];
  text_of ["min"; "x"; "st"; "x >= 1"; "bounds"; "x <= 3000000000"; "end"] ].
Definition sx_loops : text := text_of ["min"; "x"; "st"; "x + 5 >= 2"; "binary"; "x"].
Example C162_ex : d_scan xdops [] = None /\
  Forall (fun t => readable t /\ ends_plain t /\ ~ In (str "[") (file_tokens t) /\ Forall (fun w => length w <> 320) (file_tokens t) /\ length (file_tokens t) < 100 /\
    make_problem xdops 100 t = P_abort) sx_stops /\
  (readable sx_loops /\ ends_plain sx_loops /\ ~ In (str "[") (file_tokens sx_loops) /\ Forall (fun w => length w <> 320) (file_tokens sx_loops) /\
    length (file_tokens sx_loops) < 100 /\ make_problem xdops 100 sx_loops = P_running).
Proof.
  split; [reflexivity|]. split.
  - unfold sx_stops. repeat match goal with |- Forall _ (_ :: _) => apply Forall_cons | |- Forall _ [] => apply Forall_nil end; cbv beta;
    (split; [apply readable_check; vm_compute; reflexivity|]; split; [vm_compute; reflexivity|]; split; [vm_compute; intuition discriminate|];
     split; [vm_compute; repeat (apply Forall_cons; [discriminate|]); apply Forall_nil|]; split; [vm_compute; lia|vm_compute; reflexivity]).
  - split; [apply readable_check; vm_compute; reflexivity|]; split; [vm_compute; reflexivity|]; split; [vm_compute; intuition discriminate|];
     split; [vm_compute; repeat (apply Forall_cons; [discriminate|]); apply Forall_nil|]; split; [vm_compute; lia|vm_compute; reflexivity].
Qed.
(** The same files meet the hypotheses of [C162_exactly]. *)
Example C162_exactly_ex : d_is_ninf xdops (d_neg xdops (d_inf xdops)) = true /\ d_is_pinf xdops (d_inf xdops) = true /\
  Forall (fun t => Forall (usual_word xdops) (file_tokens t) /\ program_stops xdops (file_tokens t)) sx_stops /\
  Forall (usual_word xdops) (file_tokens sx_loops) /\ reads_for_ever xdops (file_tokens sx_loops).
Proof.
  destruct C162_ex as (H0 & Ha & H1 & H2 & H3 & H4 & H5 & Hl). split; [vm_compute; reflexivity|]. split; [vm_compute; reflexivity|]. split; [|split].
  - assert (U : Forall (fun t => Forall (usual_word xdops) (file_tokens t)) sx_stops).
    { unfold sx_stops. repeat match goal with |- Forall _ (_ :: _) => apply Forall_cons | |- Forall _ [] => apply Forall_nil end; (apply usual_checked; vm_compute; reflexivity). }
    rewrite Forall_forall in *. intros t Ht. split; [exact (U t Ht)|]. destruct (Ha t Ht) as (K1 & K2 & K3 & K4 & K5 & K6). exact (C162_where_it_stops xdops t 100 H0 K1 K2 K3 K4 K5 K6).
  - apply usual_checked. vm_compute. reflexivity.
  - apply (C162_when_it_loops xdops sx_loops 100 H0 H1 H2 H3 H4 H5 Hl).
Qed.

(** C163. The words of a file decide the outcome of reading it. The error is the one of the first section that cannot be read (C161), unless the program stops there or reads for ever (C162). *)
Theorem C163_errors_exactly : forall {D : Type} (dn : dops D) (t : text) (fuel : nat) (e : tag),
  d_scan dn [] = None -> d_is_ninf dn (d_neg dn (d_inf dn)) = true -> d_is_pinf dn (d_inf dn) = true ->
  readable t -> ends_plain t -> ~ In (str "[") (file_tokens t) -> Forall (usual_word dn) (file_tokens t) -> length (file_tokens t) < fuel ->
  (make_problem dn fuel t = P_error e <-> first_fault dn e (file_tokens t) /\ ~ program_stops dn (file_tokens t) /\ ~ reads_for_ever dn (file_tokens t)).
Proof.
  intros D dn t fuel e H0 Hn Hp H1 H2 H3 H4 H5. destruct (C162_exactly dn t fuel H0 Hn Hp H1 H2 H3 H4 H5) as [A B]. split.
  - intros H. split; [exact (C161_error_names_the_section dn t fuel e H0 H1 H2 H3 H4 (Nat.lt_le_incl _ _ H5) H)|]. split; intros Q; [apply A in Q|apply B in Q]; congruence.
  - intros (F & Na & Nr). pose proof (make_problem_faults dn H0 e fuel t H1 H2 H3 H4 H5 F) as M. destruct (make_problem dn fuel t) as [p|e'| |] eqn:E; cbn [at_most] in M;
      [destruct M|congruence|destruct (Na (proj1 A eq_refl))|destruct (Nr (proj1 B eq_refl))].
Qed.
Print Assumptions C163_errors_exactly.
(** So every such file is in exactly one of four classes, that speak only of its words; and no file has two first faults with different errors. *)
Theorem C163_four_outcomes : forall {D : Type} (dn : dops D) (t : text),
  d_scan dn [] = None -> d_is_ninf dn (d_neg dn (d_inf dn)) = true -> d_is_pinf dn (d_inf dn) = true ->
  readable t -> ends_plain t -> ~ In (str "[") (file_tokens t) -> Forall (usual_word dn) (file_tokens t) ->
  let toks := file_tokens t in
  let accepted := exists ty r, toks = reading_tokens r /\ reading_ok dn ty r in
  let faulty := exists e, first_fault dn e toks in
  (accepted /\ ~ faulty /\ ~ program_stops dn toks /\ ~ reads_for_ever dn toks) \/
  (~ accepted /\ faulty /\ ~ program_stops dn toks /\ ~ reads_for_ever dn toks /\ forall e e', first_fault dn e toks -> first_fault dn e' toks -> e = e') \/
  (~ accepted /\ program_stops dn toks /\ ~ reads_for_ever dn toks) \/
  (~ accepted /\ ~ program_stops dn toks /\ reads_for_ever dn toks).
Proof.
  intros D dn t H0 Hn Hp H1 H2 H3 H4 toks accepted faulty. set (fuel := S (length (file_tokens t))). assert (H5 : length (file_tokens t) < fuel) by (unfold fuel; lia).
  destruct (C162_exactly dn t fuel H0 Hn Hp H1 H2 H3 H4 H5) as [A B].
  assert (Acc : accepted <-> exists p, make_problem dn fuel t = P_ok p).
  { split.
    - intros (ty & r & E & O). exists (the_problem dn ty r). apply (C159_accepted_files dn t fuel _ H1 H2 H3 H4 (Nat.lt_le_incl _ _ H5)). eauto.
    - intros [p Q]. apply (C159_accepted_files dn t fuel _ H1 H2 H3 H4 (Nat.lt_le_incl _ _ H5)) in Q. destruct Q as (ty & r & E & O & _). exists ty, r. auto. }
  assert (F : forall e, first_fault dn e toks -> at_most e (make_problem dn fuel t)) by (intros e; exact (make_problem_faults dn H0 e fuel t H1 H2 H3 H4 H5)).
  unfold toks. destruct (make_problem dn fuel t) as [p|e| |] eqn:E; cbn [at_most] in F.
  - left. split; [apply Acc; eauto|]. split; [intros [e Fe]; exact (F e Fe)|]. split; intros Q; [apply A in Q|apply B in Q]; discriminate.
  - right. left. apply (C163_errors_exactly dn t fuel e H0 Hn Hp H1 H2 H3 H4 H5) in E. destruct E as (Fe & Na & Nr). split; [intros Q; apply Acc in Q; destruct Q; discriminate|].
    split; [exists e; exact Fe|]. split; [exact Na|]. split; [exact Nr|]. intros e1 e2 F1 F2. rewrite <- (F e1 F1). exact (F e2 F2).
  - right. right. left. split; [intros Q; apply Acc in Q; destruct Q; discriminate|]. split; [apply A; reflexivity|]. intros Q. apply B in Q. discriminate.
  - right. right. right. split; [intros Q; apply Acc in Q; destruct Q; discriminate|]. split; [|apply B; reflexivity]. intros Q. apply A in Q. discriminate.
Qed.
Print Assumptions C163_four_outcomes.

(** The files of [C161_ex] have a first fault and meet the hypotheses; the ones of [C162_ex] are in the last two classes, and [ax_lp] of Accept_props.v is in the first one. *)
Example C163_ex : Forall (fun q => let toks := file_tokens (fst q) in first_fault xdops (snd q) toks /\ ~ program_stops xdops toks /\ ~ reads_for_ever xdops toks) rx_files.
Proof.
  destruct C161_ex as [H0 H]. rewrite Forall_forall in *. intros q Hq. destruct (H q Hq) as (H1 & H2 & H3 & H4 & H5 & E). clear H.
  assert (K : make_problem xdops 101 (fst q) = P_error (snd q) /\ length (file_tokens (fst q)) < 101).
  { clear - Hq. assert (Q : Forall (fun q => make_problem xdops 101 (fst q) = P_error (snd q) /\ length (file_tokens (fst q)) < 101) rx_files).
    { unfold rx_files. repeat match goal with |- Forall _ (_ :: _) => apply Forall_cons | |- Forall _ [] => apply Forall_nil end; cbn [fst snd]; (split; [vm_compute; reflexivity|vm_compute; lia]). }
    rewrite Forall_forall in Q. exact (Q q Hq). }
  destruct K as [K L]. cbv zeta. destruct C162_exactly_ex as (Hn & Hp & _). exact (proj1 (C163_errors_exactly xdops (fst q) 101 (snd q) H0 Hn Hp H1 H2 H3 H4 L) K).
Qed.
