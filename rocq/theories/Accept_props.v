(** Property theorems C159 and C160: the files that are accepted. *)
From Coq Require Import Ascii String QArith Lia.
From Verif Require Import Base Problem_model ResultIO_model Chars_spec Lexer_model Lexer_spec Lexer_proofs Lexer_props Parser_model Parser_spec
  Parser_proofs Parser_proofs2 Parser_concrete Accept_spec Accept_proofs3 Accept_proofs6.
Open Scope string_scope.
Open Scope list_scope.
Open Scope nat_scope.

(** ** C159 *)
(** The files without square brackets that make_problem accepts are those whose words are the ones of a reading (Accept_spec.v): a direction, an objective, constraints,
    bounds, binary and general variables, end. The problem is the one that the reading describes. *)
Theorem C159_accepted_files : forall {D : Type} (dn : dops D) (t : text) (fuel : nat) (p : raw_problem),
  readable t -> ends_plain t -> ~ In (str "[") (file_tokens t) -> Forall (usual_word dn) (file_tokens t) -> length (file_tokens t) <= fuel ->
  (make_problem dn fuel t = P_ok p <-> exists ty r, file_tokens t = reading_tokens r /\ reading_ok dn ty r /\ p = the_problem dn ty r).
Proof.
  intros D dn t fuel p H1 H2 H3 H4 H5. split.
  - apply make_problem_sound; assumption.
  - intros (ty & r & E & Hok & ->). apply make_problem_complete; assumption.
Qed.
Print Assumptions C159_accepted_files.
(** Two readings of the same file describe the same problem. *)
Theorem C159_one_meaning : forall {D : Type} (dn : dops D) (t : text) ty1 r1 ty2 r2,
  readable t -> ends_plain t -> ~ In (str "[") (file_tokens t) -> Forall (usual_word dn) (file_tokens t) ->
  file_tokens t = reading_tokens r1 -> reading_ok dn ty1 r1 -> file_tokens t = reading_tokens r2 -> reading_ok dn ty2 r2 ->
  the_problem dn ty1 r1 = the_problem dn ty2 r2.
Proof.
  intros D dn t ty1 r1 ty2 r2 H1 H2 H3 H4 E1 O1 E2 O2.
  pose proof (make_problem_complete dn _ t ty1 r1 H1 H2 H3 H4 (le_n _) E1 O1) as Q1. pose proof (make_problem_complete dn _ t ty2 r2 H1 H2 H3 H4 (le_n _) E2 O2) as Q2. congruence.
Qed.
Print Assumptions C159_one_meaning.

Definition usual_check (toks : list text) : bool :=
  forallb (fun w => negb (Nat.eqb (length w) 320) && match d_scan xdops w with Some _ => name_like w && negb (keyword w) | None => true end) toks.
Lemma usual_checked toks : usual_check toks = true -> Forall (usual_word xdops) toks.
Proof.
  unfold usual_check. rewrite forallb_forall, Forall_forall. intros H w Hw. specialize (H w Hw). apply andb_prop in H. destruct H as [H1 H2]. split.
  - destruct (Nat.eqb_spec (length w) 320); [discriminate|assumption].
  - intros Hs. destruct (d_scan xdops w); [|congruence]. apply andb_prop in H2. destruct H2 as [H2 H3]. split; [exact H2|]. destruct (keyword w); [discriminate|reflexivity].
Qed.
(** A sign alone counts for a constant 1; after a number, a number is a name; a constant in a constraint is a variable without name. *)
Definition ax_lp : text := text_of ["max x + + y - 3 4 st"; "c: x + y - 2 <= 5"; "- z + y > +"; "bounds: x >= 2"; "-1 <= y <= 3 z"; "gen z end"].
Definition ax_reading : reading :=
  mk_reading (str "max") None
    [I_var (mk_term None None (str "x")); I_const (Some Plus) None; I_var (mk_term (Some Plus) None (str "y")); I_var (mk_term (Some Minus) (Some (str "3")) (str "4"))]
    (Some (mk_header [str "st"] false,
       [mk_row (Some (str "c")) [I_var (mk_term None None (str "x")); I_var (mk_term (Some Plus) None (str "y")); I_const (Some Minus) (Some (str "2"))] op_less Sp2 None (Some (str "5"));
        mk_row None [I_var (mk_term (Some Minus) None (str "z")); I_var (mk_term (Some Plus) None (str "y"))] op_greater Sp1 (Some Plus) None]))
    (Some (mk_header [str "bounds"] true,
       [L_right (str "x") op_greater Sp2 (mk_signed None (str "2")); L_both (mk_signed (Some Minus) (str "1")) op_less Sp2 (str "y") op_less Sp2 (mk_signed None (str "3")); L_free (str "z")]))
    None (Some (mk_header [str "gen"] false, [str "z"])) (mk_header [str "end"] false).
Ltac leaf := first [exact I|reflexivity|intros; discriminate|vm_compute; reflexivity|vm_compute; discriminate|intros _; vm_compute; reflexivity].
Ltac parts := cbn [items_ok rows_ok row_ok item_ok opt w_label w_items w_op w_spell w_sign w_num t_sign t_num t_var]; unfold row_ok, item_ok, is_name; cbn [items_ok opt w_label w_items w_op w_spell w_sign w_num t_sign t_num t_var row_terms map item_term];
  repeat match goal with
  | |- _ /\ _ => split
  | |- Forall _ (_ :: _) => constructor
  | |- Forall _ [] => constructor
  | |- items_ok _ _ _ => cbn [items_ok item_ok t_var t_num t_sign opt]
  | |- item_ok _ _ _ => cbn [item_ok t_var t_num t_sign opt]
  | |- is_name _ => split
  | |- (Some _ <> None) \/ _ => left; discriminate
  | |- _ \/ (Some _ <> None) => right; discriminate
  | |- _ = true \/ _ => first [left; vm_compute; reflexivity|right; vm_compute; reflexivity]
  | |- _ => leaf
  end.
Ltac lines := unfold line_ok, signed_start; cbn [line_name line_low line_high s_sign s_num];
  repeat match goal with
  | |- _ /\ _ => split
  | |- In _ _ => vm_compute; auto 10
  | |- _ = true \/ _ => first [left; vm_compute; reflexivity|right; vm_compute; discriminate]
  | |- _ => leaf
  end.
Example C159_ex : readable ax_lp /\ ends_plain ax_lp /\ ~ In (str "[") (file_tokens ax_lp) /\ Forall (usual_word xdops) (file_tokens ax_lp) /\ length (file_tokens ax_lp) <= 100 /\
  file_tokens ax_lp = reading_tokens ax_reading /\ reading_ok xdops maximize ax_reading /\ make_problem xdops 100 ax_lp = P_ok (the_problem xdops maximize ax_reading) /\
  reading_names ax_reading = [str "x"; str "y"; str "4"; []; str "z"] /\
  v_values (rw_vars (the_problem xdops maximize ax_reading)) =
    [mk_variable_value 0 2 vt_real; mk_variable_value (-1) 3 vt_real; mk_variable_value 0 int_max vt_real; mk_variable_value 0 int_max vt_real; mk_variable_value int_min int_max vt_general].
Proof.
  assert (H1 : readable ax_lp) by (apply readable_check; vm_compute; reflexivity).
  assert (H2 : ends_plain ax_lp) by (vm_compute; reflexivity).
  assert (H3 : ~ In (str "[") (file_tokens ax_lp)) by (vm_compute; intuition discriminate).
  assert (H4 : Forall (usual_word xdops) (file_tokens ax_lp)) by (apply usual_checked; vm_compute; reflexivity).
  assert (H5 : length (file_tokens ax_lp) <= 100) by (vm_compute; lia).
  assert (H6 : file_tokens ax_lp = reading_tokens ax_reading) by (vm_compute; reflexivity).
  assert (H7 : reading_ok xdops maximize ax_reading).
  { constructor; cbn [ax_reading rd_type rd_label rd_objective rd_rows rd_bounds rd_binary rd_general rd_end opt part_ok fst snd].
    - vm_compute. reflexivity.
    - exact I.
    - exists (str "st"). split; [vm_compute; reflexivity|]. parts.
    - split; [left; exists (str "st"); split; [reflexivity|vm_compute; reflexivity]|]. exists (str "bounds"). split; [vm_compute; reflexivity|]. parts.
    - split; [exists (str "bounds"); split; [reflexivity|vm_compute; reflexivity]|]. constructor; [|constructor; [|constructor; [|constructor]]]; lines.
    - exact I.
    - split; [exists (str "gen"); split; [reflexivity|vm_compute; reflexivity]|]. constructor; [|constructor]. vm_compute. auto 10.
    - exists (str "end"). split; [reflexivity|vm_compute; reflexivity]. }
  split; [exact H1|]. split; [exact H2|]. split; [exact H3|]. split; [exact H4|]. split; [exact H5|]. split; [exact H6|]. split; [exact H7|].
  split; [apply make_problem_complete; assumption|]. split; [vm_compute; reflexivity|vm_compute; reflexivity].
Qed.

(** ** C160 *)
(** A file without bounds is accepted with a reading in which each word has a part. *)
Theorem C160_every_word_partial : forall {D : Type} (dn : dops D) (t : text) (fuel : nat) (p : raw_problem),
  readable t -> ends_plain t -> ~ In (str "[") (file_tokens t) -> Forall (fun w => is_one_of w [str "bounds"; str "bound"] = false) (file_tokens t) ->
  make_problem dn fuel t = P_ok p ->
  exists ty r, file_tokens t = reading_tokens r /\ reading_ok dn ty r /\ rd_bounds r = None /\ p = the_problem dn ty r.
Proof.
  intros D dn t fuel p H1 H2 H3 H4 H. destruct (make_problem_sound dn fuel t p H1 H2 H3 H) as (ty & r & E & Hok & Ep). exists ty, r. split; [exact E|]. split; [exact Hok|]. split; [|exact Ep].
  destruct (rd_bounds r) as [[h l]|] eqn:Eb; [|reflexivity]. exfalso. pose proof (rk_bounds _ _ _ Hok) as Hb. rewrite Eb in Hb. destruct Hb as [[w [Hw Ha]] _].
  rewrite E in H4. rewrite Forall_forall in H4. assert (Hin : In w (reading_tokens r)).
  { unfold reading_tokens. right. rewrite !in_app_iff. right. right. right. left. rewrite Eb. cbn [section_tokens]. apply in_or_app. left. unfold header_tokens. cbn [fst] in Hw. rewrite Hw. apply in_or_app. left. left. reflexivity. }
  specialize (H4 w Hin). congruence.
Qed.
Print Assumptions C160_every_word_partial.
(** The word after [a <= x] is never looked at: one can write anything there. *)
Theorem C160_skipped_word : forall {D : Type} (dn : dops D) (t t' : text) (fuel : nat) ty r h l1 v op sp nm w w' l2,
  readable t -> ends_plain t -> ~ In (str "[") (file_tokens t) -> Forall (usual_word dn) (file_tokens t) -> length (file_tokens t) <= fuel ->
  readable t' -> ends_plain t' -> ~ In (str "[") (file_tokens t') -> Forall (usual_word dn) (file_tokens t') -> length (file_tokens t') <= fuel ->
  file_tokens t = reading_tokens r -> reading_ok dn ty r -> rd_bounds r = Some (h, l1 ++ L_left v op sp nm w :: l2) -> operator_like w' = false ->
  file_tokens t' = reading_tokens (mk_reading (rd_type r) (rd_label r) (rd_objective r) (rd_rows r) (Some (h, l1 ++ L_left v op sp nm w' :: l2)) (rd_binary r) (rd_general r) (rd_end r)) ->
  make_problem dn fuel t = make_problem dn fuel t'.
Proof.
  intros D dn t t' fuel ty r h l1 v op sp nm w w' l2 A1 A2 A3 A4 A5 B1 B2 B3 B4 B5 Et Hok Hb Hw Et'.
  set (r' := mk_reading (rd_type r) (rd_label r) (rd_objective r) (rd_rows r) (Some (h, l1 ++ L_left v op sp nm w' :: l2)) (rd_binary r) (rd_general r) (rd_end r)) in *.
  assert (Hok' : reading_ok dn ty r').
  { destruct Hok as [K1 K2 K3 K4 K5 K6 K7 K8]. constructor; try assumption. cbn [r' rd_bounds]. rewrite Hb in K5. destruct K5 as [Kh Kl]. split; [exact Kh|]. cbn [snd] in *.
    apply Forall_app in Kl. destruct Kl as [Kl1 Kl2]. inversion Kl2 as [|? ? Kl3 Kl4]; subst. apply Forall_app. split; [exact Kl1|]. constructor; [|exact Kl4].
    destruct Kl3 as (Q1 & Q2 & Q3 & Q4 & Q5 & Q6 & Q7). unfold line_ok. cbn [line_name line_low line_high] in *. change (reading_names r') with (reading_names r). auto 8. }
  rewrite (make_problem_complete dn fuel t ty r A1 A2 A3 A4 A5 Et Hok), (make_problem_complete dn fuel t' ty r' B1 B2 B3 B4 B5 Et' Hok'). f_equal. unfold the_problem. change (reading_names r') with (reading_names r).
  cbn [r' rd_objective rd_rows]. f_equal. f_equal. apply map_ext. intros x. unfold the_variable. cbn [r' rd_bounds rd_binary rd_general]. rewrite Hb. cbn [section_list].
  rewrite !rev_app_distr. cbn [rev]. rewrite <- !app_assoc. cbn [app].
  assert (F : forall a b : list bound_line, match find (fun l => text_eqb (line_name l) x) (a ++ L_left v op sp nm w :: b) with Some l => (low_of dn (line_low dn l), high_of dn (line_high dn l)) | None => (0%Z, int_max) end =
    match find (fun l => text_eqb (line_name l) x) (a ++ L_left v op sp nm w' :: b) with Some l => (low_of dn (line_low dn l), high_of dn (line_high dn l)) | None => (0%Z, int_max) end).
  { induction a as [|y a IH]; intros b; cbn [app find line_name]; [destruct (text_eqb nm x); reflexivity|]. destruct (text_eqb (line_name y) x); [reflexivity|apply IH]. }
  rewrite (F (rev l2) (rev l1)). reflexivity.
Qed.
Print Assumptions C160_skipped_word.
(** The list of binary variables after a lower bound is lost: its keyword is the word that is skipped, and x is then read as a line of bounds, without limits. *)
Definition skip_lp (w : string) : text := text_of ["max x + y st c: x + y <= 1"; "bounds 0 <= x"; w; "x end"].
Theorem C160_no_word_is_skipped_refuted :
  readable (skip_lp "binary") /\ ends_plain (skip_lp "binary") /\ make_problem xdops 100 (skip_lp "binary") = make_problem xdops 100 (skip_lp "]") /\
  exists p, make_problem xdops 100 (skip_lp "binary") = P_ok p /\ v_names (rw_vars p) = [str "x"; str "y"] /\
    v_values (rw_vars p) = [mk_variable_value int_min int_max vt_real; mk_variable_value 0 int_max vt_real].
Proof.
  split; [apply readable_check; vm_compute; reflexivity|]. split; [vm_compute; reflexivity|]. split; [vm_compute; reflexivity|].
  eexists. split; [vm_compute; reflexivity|]. split; vm_compute; reflexivity.
Qed.
Print Assumptions C160_no_word_is_skipped_refuted.
Example C160_ex : let t := text_of ["min x + 2 y st x + y >= 1 binary x y end"] in
  readable t /\ ends_plain t /\ ~ In (str "[") (file_tokens t) /\ Forall (fun w => is_one_of w [str "bounds"; str "bound"] = false) (file_tokens t) /\ exists p, make_problem xdops 100 t = P_ok p.
Proof.
  cbv zeta. split; [apply readable_check; vm_compute; reflexivity|]. split; [vm_compute; reflexivity|]. split; [vm_compute; intuition discriminate|].
  split; [vm_compute; repeat constructor|]. eexists. vm_compute. reflexivity.
Qed.
