(** Property theorems C21, C22, C23, C67 and C69: reading an LP file. *)
From Coq Require Import Ascii String QArith Lia.
From Verif Require Import Base Problem_model ResultIO_model Chars_spec Lexer_model Lexer_spec Lexer_proofs Lexer_props Parser_model Parser_spec
  Parser_proofs Parser_proofs2 Parser_proofs5 Parser_proofs6 Parser_proofs7 Parser_concrete.
Open Scope string_scope.
Open Scope list_scope.
Open Scope nat_scope.

(** ** C21 *)
(** A file whose last token is [end] is read in a time linear in the number of its tokens: the
    fuel bounds the number of turns of each loop. *)
Theorem C21_reading_ends_partial : forall {D : Type} (dn : dops D) (t : text) (fuel : nat),
  d_scan dn [] = None -> readable t -> ends_plain t -> length (file_tokens t) < fuel ->
  are_equal (last (file_tokens t) []) (str "end") = true ->
  make_problem dn fuel t <> P_running.
Proof. intros D dn t fuel H. apply make_problem_ends. exact H. Qed.
Print Assumptions C21_reading_ends_partial.
Example C21_ex :
  let t := text_of ["max x + nonsense [ / < st"; ": : bounds x binary end"] in
  readable t /\ ends_plain t /\ are_equal (last (file_tokens t) []) (str "end") = true /\ d_scan xdops [] = None /\
  make_problem xdops 40 t = P_error bad_objective_quadratic.
Proof. cbv zeta. split; [ apply readable_check; vm_compute; reflexivity |]. repeat split; vm_compute; reflexivity. Qed.

(** A file cut after its first token stops the program: pop_front(0). *)
Theorem C21_reading_is_safe_refuted : exists t : text, readable t /\ ends_plain t /\
  forall fuel, 0 < fuel -> make_problem xdops fuel t = P_abort.
Proof.
  exists (text_of ["min"]). split; [ apply readable_check; vm_compute; reflexivity |]. split; [ vm_compute; reflexivity |].
  intros [ |fuel ] H; [ lia |]. vm_compute. reflexivity.
Qed.
Print Assumptions C21_reading_is_safe_refuted.

(** The reading of a file without [end] may never end. *)
Definition looping : text := text_of ["min"; "x"; "st"; "x + 5 >= 2"; "binary"; "x"].
(** Nothing left to read: ten empty views, ten arrays at their final 0, no input. *)
Definition dead (b : sbuf) : bool :=
  forallb (fun v : view => match v with None => true | _ => false end) (sb_win b) && Nat.eqb (length (sb_win b)) 10 &&
  Nat.eqb (length (lx_mem (sb_lx b))) 10 && Nat.eqb (length (lx_pos (sb_lx b))) 10 &&
  forallb (fun x => match nth_error (fst x) (snd x) with Some c => is_nul c | None => false end) (combine (lx_mem (sb_lx b)) (lx_pos (sb_lx b))) &&
  Nat.ltb (lx_cur (sb_lx b)) 10 && match lx_in (sb_lx b) with Live _ => false | _ => true end.
Lemma dead_first b : dead b = true -> first b = [].
Proof.
  unfold dead, first, token_at. intros H. repeat (apply andb_prop in H; destruct H as [H _]). destruct (sb_win b) as [ |v w ]; [ reflexivity |]. cbn [nth forallb] in *. apply andb_prop in H. destruct v; [ destruct H; discriminate | reflexivity ].
Qed.
Lemma nth_error_combine_some {A B} : forall (a : list A) (b : list B) i, i < length a -> length a = length b ->
  exists x y, nth_error a i = Some x /\ nth_error b i = Some y /\ In (x, y) (combine a b).
Proof.
  induction a as [ |x a IH ]; intros [ |y b ] i Hi Hl; cbn in *; try lia. destruct i as [ |i ]; [ exists x, y; repeat split; left; reflexivity |]. destruct (IH b i) as [u [v [H1 [H2 H3]]]]; [ lia | lia |]. exists u, v. repeat split; auto.
Qed.
Lemma dead_pop b : dead b = true -> exists b', pop_front b = Some b' /\ dead b' = true.
Proof.
  unfold dead. intros H. apply andb_prop in H. destruct H as [H H7]. apply andb_prop in H. destruct H as [H H6]. apply andb_prop in H. destruct H as [H H5].
  apply andb_prop in H. destruct H as [H H4]. apply andb_prop in H. destruct H as [H H3]. apply andb_prop in H. destruct H as [H1 H2].
  apply Nat.eqb_eq in H2, H3, H4. apply Nat.ltb_lt in H6. destruct b as [win [mem pos cur st]]. cbn [sb_win sb_lx lx_mem lx_pos lx_cur lx_in] in *.
  unfold pop_front. cbn [sb_win]. destruct win as [ |v win ]; [ discriminate |]. cbn [push_back]. unfold next_token. cbn [sb_lx lx_mem lx_pos lx_cur lx_in].
  destruct (nth_error_combine_some mem pos cur) as [m [q [Em [Eq_ Hin]]]]; [ lia | lia |]. rewrite Em. cbn [bind]. rewrite Eq_. cbn [bind].
  rewrite forallb_forall in H5. pose proof (H5 _ Hin) as Hc. cbn [fst snd] in Hc. destruct (nth_error m q) as [c|]; [ | discriminate ]. cbn [bind]. rewrite Hc.
  assert (Hmod : (cur + 1) mod 10 < 10) by (apply Nat.mod_upper_bound; lia).
  assert (Hwin : exists w, list_upd (win ++ [v]) 9 None = Some w /\ forallb (fun v : view => match v with None => true | _ => false end) w = true /\ length w = 10).
  { cbn [length] in H2. destruct win as [ |v1 [ |v2 [ |v3 [ |v4 [ |v5 [ |v6 [ |v7 [ |v8 [ |v9 [ |v10 w ]]]]]]]]]]; try discriminate. cbn [app list_upd bind].
    eexists. split; [ reflexivity |]. split; [ | reflexivity ]. cbn [forallb] in *. rewrite !andb_true_iff in *. tauto. }
  destruct Hwin as [w [Ew [Hw1 Hw2]]].
  destruct st as [t| |]; [ discriminate | |]; cbn [bind]; rewrite Ew; cbn [bind]; eexists; (split; [ reflexivity |]); cbn [sb_win sb_lx lx_mem lx_pos lx_cur lx_in];
    rewrite Hw1, Hw2, H3, H4; cbn [Nat.eqb andb]; (apply andb_true_intro; split; [ apply andb_true_intro; split; [ rewrite forallb_forall; exact H5 | apply Nat.ltb_lt; exact Hmod ] | reflexivity ]).
Qed.
Lemma name_index_in nm names : In nm names -> exists i, name_index nm names = Some i /\ i < length names.
Proof.
  induction names as [ |x l IH ]; [ intros [] |]. intros H. cbn [name_index length]. destruct (text_eqb_spec nm x) as [->|Hne]; [ exists 0; split; [ reflexivity | lia ] |].
  destruct H as [->|H]; [ congruence |]. destruct (IH H) as [i [-> Hi]]. exists (S i). split; [ reflexivity | lia ].
Qed.
Lemma dead_loop : forall fuel b vs, dead b = true -> In [] (v_names vs) -> length (v_values vs) = length (v_names vs) ->
  names_loop set_boolean_variable fuel b vs = P_running.
Proof.
  induction fuel as [ |fuel IH ]; intros b vs Hd Hin Hl; cbn [names_loop]; rewrite (dead_first b Hd); change (is_keyword []) with false; cbv iota; [ reflexivity |].
  unfold set_boolean_variable. unfold get_variable. destruct (name_index_in _ _ Hin) as [i [-> Hi]]. cbn [or_error pbind]. unfold set_value.
  assert (Hm : exists l', list_modify (v_values vs) i (fun _ => mk_variable_value 0 1 vt_binary) = Some l' /\ length l' = length (v_values vs)).
  { rewrite <- Hl in Hi. clear - Hi. revert i Hi. induction (v_values vs) as [ |x l IH ]; intros i Hi; cbn [length] in Hi; [ lia |]. destruct i as [ |i ]; [ eexists; split; reflexivity |].
    destruct (IH i) as [l' [E El]]; [ lia |]. unfold list_modify in *. cbn [nth_error]. cbn [bind] in *. destruct (nth_error l i); cbn [bind] in *; [ | discriminate ]. cbn [list_upd]. rewrite E. cbn [bind]. eexists. split; [ reflexivity | cbn; rewrite El; reflexivity ]. }
  destruct Hm as [l' [-> El]]. cbn [or_abort pbind]. destruct (dead_pop b Hd) as [b' [-> Hd']]. cbn [or_abort pbind]. apply IH; [ exact Hd' | exact Hin | cbn [v_values v_names]; congruence ].
Qed.
(** The path of [looping] through the parser. *)
Definition get {A} (d : A) (r : pres A) : A := match r with P_ok a => a | _ => d end.
Definition some {A} (d : A) (r : option A) : A := match r with Some a => a | _ => d end.
Definition B0 : sbuf := some (mk_sbuf [] (mk_lexer [] [] 0 Failed)) (make_buffer looping).
Definition B1 : sbuf := some B0 (pop_front B0).
Definition BP2 := get (B1, empty_problem xdops) (objective_loop xdops 8 B1 (set_type minimize (empty_problem xdops))).
Definition B3 : sbuf := some B0 (pop 1 (fst BP2)).
Definition BP4 := get BP2 (constraints_loop xdops 8 0 B3 (snd BP2)).
Definition B5 : sbuf := some B0 (pop 1 (fst BP4)).
Definition B6 : sbuf := some B0 (pop_front B5).
Definition VS6 : variables := get (rw_vars (snd BP4)) (set_boolean_variable (first B5) (rw_vars (snd BP4))).
Lemma parse_path {D} (dn : dops D) fuel b p ty b1 b2 p2 b3 b4 p4 b5 : read_objective_type (first b) = Some ty -> pop_front b = Some b1 ->
  try_read_objective_label (first b1) (second b1) = 0 -> objective_loop dn fuel b1 (set_type ty p) = P_ok (b2, p2) ->
  read_subject_to (first b2) (second b2) (third b2) = 1 -> pop 1 b2 = Some b3 -> constraints_loop dn fuel 0 b3 p2 = P_ok (b4, p4) ->
  read_bounds (first b4) (second b4) = 0 -> read_binary (first b4) (second b4) = 1 -> pop 1 b4 = Some b5 ->
  names_loop set_boolean_variable fuel b5 (rw_vars p4) = P_running -> parse dn fuel b p = P_running.
Proof.
  intros H1 H2 H3 H4 H5 H6 H7 H8 H9 H10 H11. unfold parse. rewrite H1. cbn [or_error pbind]. rewrite H2. cbn [or_abort pbind]. rewrite H3. cbn [pop_read pbind]. rewrite H4. cbn [pbind]. rewrite H5, H6. cbn [or_abort pbind]. rewrite H7. cbn [pbind].
  rewrite H8. cbn [section_ pbind]. rewrite H9. cbn [section_]. rewrite H10. cbn [or_abort pbind]. rewrite H11. reflexivity.
Qed.
Lemma looping_runs f : make_problem xdops (8 + f) looping = P_running.
Proof.
  unfold make_problem. replace (make_buffer looping) with (Some B0) by (vm_compute; reflexivity). cbn [or_abort pbind].
  apply (parse_path xdops (8 + f) B0 (empty_problem xdops) minimize B1 (fst BP2) (snd BP2) B3 (fst BP4) (snd BP4) B5).
  - vm_compute; reflexivity.
  - vm_compute; reflexivity.
  - vm_compute; reflexivity.
  - vm_compute; reflexivity.
  - vm_compute; reflexivity.
  - vm_compute; reflexivity.
  - vm_compute; reflexivity.
  - vm_compute; reflexivity.
  - vm_compute; reflexivity.
  - vm_compute; reflexivity.
  - change (8 + f) with (S (7 + f)). cbn [names_loop]. replace (is_keyword (first B5)) with false by (vm_compute; reflexivity).
    replace (set_boolean_variable (first B5) (rw_vars (snd BP4))) with (P_ok VS6) by (vm_compute; reflexivity). cbn [pbind].
    replace (pop_front B5) with (Some B6) by (vm_compute; reflexivity). cbn [or_abort pbind]. apply dead_loop; vm_compute; auto.
Qed.
Theorem C21_reading_terminates_refuted : exists t : text, readable t /\ ends_plain t /\ forall fuel, make_problem xdops fuel t = P_running.
Proof.
  exists looping. split; [ apply readable_check; vm_compute; reflexivity |]. split; [ vm_compute; reflexivity |].
  intros fuel. destruct (Nat.le_gt_cases 8 fuel) as [H|H]; [ replace fuel with (8 + (fuel - 8)) by lia; apply looping_runs |].
  assert (E : fuel = 0 \/ fuel = 1 \/ fuel = 2 \/ fuel = 3 \/ fuel = 4 \/ fuel = 5 \/ fuel = 6 \/ fuel = 7) by lia.
  destruct E as [->|[->|[->|[->|[->|[->|[->| ->]]]]]]]; vm_compute; reflexivity.
Qed.
Print Assumptions C21_reading_terminates_refuted.

(** ** C22 *)
(** Every well-formed document is read as the problem it describes: see [meaning] in
    Parser_spec.v (names numbered in the order of their first occurrences, each use of a name
    refers to its number, repeated terms are added). *)
Theorem C22_documents_are_read : forall {D : Type} (dn : dops D) (t : text) (d : document) (ty : objective_type) (fuel : nat),
  dops_ok dn -> readable t -> ends_plain t -> file_tokens t = document_tokens d -> document_ok dn ty d ->
  length (file_tokens t) <= fuel -> make_problem dn fuel t = P_ok (meaning dn ty d).
Proof. intros D dn t d ty fuel H. apply make_problem_document. exact H. Qed.
Print Assumptions C22_documents_are_read.
(** Whatever the text, a problem that is returned is well formed: distinct names, every index is
    that of a name, no variable twice in a sum. *)
Theorem C22_every_problem_is_well_formed : forall {D : Type} (dn : dops D) (t : text) (fuel : nat) p,
  make_problem dn fuel t = P_ok p -> well_formed p.
Proof. intros D dn t fuel p. apply make_problem_well_formed. Qed.
Print Assumptions C22_every_problem_is_well_formed.

Definition ex_lp : text := text_of
  ["Maximize"; "obj: 2 x + y - 3.5 z + 4 x + 7"; "Subject To"; "c1: x + 2 y + 3 x <= 10"; "-z + w >= -2"; "x = 1";
   "Bounds"; "y <= 4"; "-1 <= w <= 3"; "Binary"; "x"; "General"; "w"; "End"].
Definition pl (n nm : string) := mk_term (Some Plus) (Some (str n)) (str nm).
Definition un (nm : string) := mk_term None None (str nm).
Definition ex_doc : document := mk_document (str "Maximize") (Some (str "obj"))
  [O_var (mk_term None (Some (str "2")) (str "x")); O_var (mk_term (Some Plus) None (str "y")); O_var (mk_term (Some Minus) (Some (str "3.5")) (str "z"));
   O_var (pl "4" "x"); O_const (mk_signed (Some Plus) (str "7"))]
  (mk_header [str "Subject"; str "To"] false)
  [mk_cst (Some (str "c1")) (un "x") [pl "2" "y"; pl "3" "x"] op_less Sp2 (mk_signed None (str "10"));
   mk_cst None (mk_term (Some Minus) None (str "z")) [mk_term (Some Plus) None (str "w")] op_greater Sp2 (mk_signed (Some Minus) (str "2"));
   mk_cst None (un "x") [] op_equal Sp1 (mk_signed None (str "1"))]
  (Some (mk_header [str "Bounds"] false, [B_upper (str "y") Sp2 (mk_signed None (str "4")); B_range (mk_signed (Some Minus) (str "1")) Sp2 (str "w") Sp2 (mk_signed None (str "3"))]))
  (Some (mk_header [str "Binary"] false, [str "x"])) (Some (mk_header [str "General"] false, [str "w"]))
  (mk_header [str "End"] false).
Ltac lp_check :=
  repeat match goal with
  | |- _ /\ _ => split
  | |- True => exact I
  | |- Forall _ _ => constructor
  | |- NoDup _ => constructor
  | |- _ = _ => vm_compute; reflexivity
  | |- name_ok _ _ => unfold name_ok
  | |- num_ok _ _ => unfold num_ok
  | |- signed_ok _ _ => unfold signed_ok
  | |- term_ok _ _ => unfold term_ok
  | |- int_ok _ _ => unfold int_ok
  | |- finite _ _ => unfold finite
  | |- cst_ok _ _ => unfold cst_ok
  | |- bline_ok _ _ _ => unfold bline_ok
  | |- subject_ok _ => right; eexists _, _; split; [ reflexivity | left ]
  | |- section_ok _ _ _ => unfold section_ok, ex_doc
  | |- exists w, _ = [w] /\ _ => eexists; split; [ reflexivity |]
  | |- exists c r, _ = c :: r /\ _ => eexists _, _; split; [ reflexivity |]
  | |- _ <> None => vm_compute; congruence
  | |- _ <> [] => vm_compute; congruence
  | |- _ < _ => vm_compute; lia
  | |- In _ _ => vm_compute; tauto
  | |- ~ In _ _ => vm_compute; intuition congruence
  | |- _ => progress cbn [ex_doc dc_type dc_label dc_objective dc_subject dc_constraints dc_bounds dc_binary dc_general dc_end objective_ok signed_oterm
      k_label k_first k_terms k_op k_spell k_value cst_terms t_sign t_num t_var s_sign s_num un pl bline_name section_list map]
  end.
Lemma ex_ok : document_ok xdops maximize ex_doc.
Proof. constructor; lp_check. Qed.
Example C22_ex : readable ex_lp /\ ends_plain ex_lp /\ file_tokens ex_lp = document_tokens ex_doc /\ document_ok xdops maximize ex_doc /\ dops_ok xdops /\
  map string_of_list_ascii (document_names ex_doc) = ["x"; "y"; "z"; "w"] /\
  rw_objective (meaning xdops maximize ex_doc) = [(X_num 6, 0); (X_num 1, 1); (X_num (-7 # 2), 2)] /\
  rw_less (meaning xdops maximize ex_doc) = [mk_constraint (str "c1") [mk_felem 4 0; mk_felem 2 1] 10 0].
Proof. split; [ apply readable_check; vm_compute; reflexivity |]. do 2 (split; [ vm_compute; reflexivity |]). split; [ apply ex_ok |]. split; [ repeat split |]. repeat split; vm_compute; reflexivity. Qed.

(** ** C23 *)
(** The lines [x <= b] and [a <= x <= b] of a well-formed document set the bounds of [x]; the
    variables that have no line keep 0 and INT_MAX (binary variables have bounds 0 and 1). *)
Theorem C23_bounds_are_set_partial : forall {D : Type} (dn : dops D) (t : text) (d : document) (ty : objective_type) (fuel : nat),
  dops_ok dn -> readable t -> ends_plain t -> file_tokens t = document_tokens d -> document_ok dn ty d ->
  length (file_tokens t) <= fuel ->
  exists p, make_problem dn fuel t = P_ok p /\
  forall nm, In nm (document_names d) -> ~ In nm (section_list (dc_binary d)) ->
  exists i v, nth_error (v_names (rw_vars p)) i = Some nm /\ nth_error (v_values (rw_vars p)) i = Some v /\
    (forall sp b, In (B_upper nm sp b) (section_list (dc_bounds d)) -> v_min v = 0%Z /\ d_int dn (signed_value dn b) = Some (v_max v)) /\
    (forall a sp sp' b, In (B_range a sp nm sp' b) (section_list (dc_bounds d)) ->
       d_int dn (signed_value dn a) = Some (v_min v) /\ d_int dn (signed_value dn b) = Some (v_max v)) /\
    ((forall b, In b (section_list (dc_bounds d)) -> bline_name b <> nm) -> v_min v = 0%Z /\ v_max v = int_max).
Proof.
  intros D dn t d ty fuel H H1 H2 H3 H4 H5. eexists. split; [ apply (make_problem_document dn H t d ty fuel); assumption |]. intros nm Hn Hb.
  exists (position nm (document_names d)), (variable_of dn d nm). cbn [meaning rw_vars v_names v_values].
  split; [ apply position_nth, Hn |]. split; [ apply map_nth_error, position_nth, Hn |].
  assert (Hm : mem nm (section_list (dc_binary d)) = false).
  { unfold mem. destruct (existsb (text_eqb nm) _) eqn:E; [ | reflexivity ]. apply existsb_exists in E. destruct E as [x [Hx E]]. destruct (text_eqb_spec nm x); [ subst; contradiction | discriminate ]. }
  assert (Hf : forall b, In b (section_list (dc_bounds d)) -> bline_name b = nm -> find (fun b => text_eqb (bline_name b) nm) (section_list (dc_bounds d)) = Some b).
  { pose proof (ok_one_bound _ _ _ H4) as Hd. clear - Hd. induction (section_list (dc_bounds d)) as [ |x l IH ]; intros b Hin E; [ destruct Hin |]. cbn [map] in Hd. inversion Hd; subst. cbn [find]. destruct Hin as [->|Hin].
    - rewrite text_eqb_refl. reflexivity.
    - rewrite text_eqb_neq; [ apply IH; auto |]. intros E. apply H1. rewrite E. apply in_map, Hin. }
  assert (Hok : forall b, In b (section_list (dc_bounds d)) -> bline_ok dn (document_names d) b).
  { pose proof (ok_bounds _ _ _ H4) as Ho. intros b Hin. destruct (dc_bounds d) as [[h l]|]; [ | destruct Hin ]. destruct Ho as [_ Ho]. rewrite Forall_forall in Ho. apply Ho, Hin. }
  assert (Hi : forall z, int_ok dn z -> d_int dn z = Some (int_of dn z)). { unfold int_ok, int_of. intros z Hz. destruct (d_int dn z); congruence. }
  assert (Hv : v_min (variable_of dn d nm) = fst (match find (fun b => text_eqb (bline_name b) nm) (section_list (dc_bounds d)) with Some b => (bline_min dn b, bline_max dn b) | None => (0%Z, int_max) end) /\
               v_max (variable_of dn d nm) = snd (match find (fun b => text_eqb (bline_name b) nm) (section_list (dc_bounds d)) with Some b => (bline_min dn b, bline_max dn b) | None => (0%Z, int_max) end)).
  { unfold variable_of. rewrite Hm. destruct (find _ _); split; reflexivity. }
  destruct Hv as [-> ->]. split; [ | split ].
  - intros sp b Hin. rewrite (Hf _ Hin eq_refl). cbn [fst snd bline_min bline_max]. split; [ reflexivity |]. apply Hi. destruct (Hok _ Hin) as [_ [_ [_ [Hz _]]]]. exact Hz.
  - intros a sp sp' b Hin. rewrite (Hf _ Hin eq_refl). cbn [fst snd bline_min bline_max]. destruct (Hok _ Hin) as [_ [_ [_ [[Ha _] [[Hb' _] _]]]]]. split; apply Hi; assumption.
  - intros Hno. assert (E : find (fun b => text_eqb (bline_name b) nm) (section_list (dc_bounds d)) = None).
    { clear - Hno. induction (section_list (dc_bounds d)) as [ |x l IH ]; [ reflexivity |]. cbn [find]. rewrite text_eqb_neq by (apply Hno; left; reflexivity). apply IH. intros b Hb. apply Hno. right. exact Hb. }
    rewrite E. split; reflexivity.
Qed.
Print Assumptions C23_bounds_are_set_partial.
(** Missing: [x >= a], [x = a] and [a <= x] (C23_lower_bounds_refuted), a second line for the
    same variable, infinite bounds. *)
Example C23_ex : readable ex_lp /\ ends_plain ex_lp /\ file_tokens ex_lp = document_tokens ex_doc /\ document_ok xdops maximize ex_doc /\ dops_ok xdops /\
  In (str "w") (document_names ex_doc) /\ ~ In (str "w") (section_list (dc_binary ex_doc)) /\
  match make_problem xdops 100 ex_lp with P_ok p => v_values (rw_vars p) | _ => [] end =
    [mk_variable_value 0 1 vt_binary; mk_variable_value 0 4 vt_real; mk_variable_value 0 int_max vt_real; mk_variable_value (-1) 3 vt_general].
Proof.
  destruct C22_ex as [H1 [H2 [H3 [H4 [H5 _]]]]]. do 5 (split; [ assumption |]). split; [ vm_compute; tauto |]. split; [ vm_compute; intuition congruence |]. vm_compute. reflexivity.
Qed.
Definition one_bound (b : list string) : text := text_of (["min"; "x"; "st"; "x >= 1"; "bounds"] ++ b ++ ["end"]).
(** [x >= 5] sets the upper bound; [x <= 5] after [x >= 2] leaves the lower bound at 0; [2 <= x]
    is rejected. *)
Theorem C23_lower_bounds_refuted :
  (exists p, make_problem xdops 40 (one_bound ["x >= 5"]) = P_ok p /\ v_values (rw_vars p) = [mk_variable_value 0 5 vt_real]) /\
  (exists p, make_problem xdops 40 (one_bound ["x >= 2"; "x <= 5"]) = P_ok p /\ v_values (rw_vars p) = [mk_variable_value 0 5 vt_real]) /\
  make_problem xdops 40 (one_bound ["2 <= x"]) = P_error bad_bound.
Proof. split; [ eexists; split; vm_compute; reflexivity |]. split; [ eexists; split; vm_compute; reflexivity |]. vm_compute. reflexivity. Qed.
Print Assumptions C23_lower_bounds_refuted.

(** ** C67 *)
(** The quadratic terms that are read have distinct pairs of variables, and the variables exist... *)
Theorem C67_quadratic_terms_partial : forall {D : Type} (dn : dops D) (t : text) (fuel : nat) p,
  make_problem dn fuel t = P_ok p ->
  ForallOrdPairs (fun x y => ~ same_unordered x y) (map pair_of (rw_quadratic p)) /\
  Forall (fun x => fst x < length (v_names (rw_vars p)) /\ snd x < length (v_names (rw_vars p))) (map pair_of (rw_quadratic p)).
Proof. intros D dn t fuel p H. apply (wf_quadratic _ (make_problem_well_formed dn t fuel p H)). Qed.
Print Assumptions C67_quadratic_terms_partial.
(** ... but they are not the variables that are written: 3 x * y is read as 3 u * y. The name of
    the first variable is a view of a word that has been overwritten. *)
Definition quad_lp : text := text_of ["min"; "[ 6 x * y ] /2 + z + t + u + v"; "st"; "x + y >= 1"; "end"].
Theorem C67_quadratic_terms_refuted : exists p, make_problem xdops 40 quad_lp = P_ok p /\
  map (fun e => let '(f, a, b) := e in (f, string_of_list_ascii (nth a (v_names (rw_vars p)) []), string_of_list_ascii (nth b (v_names (rw_vars p)) []))) (rw_quadratic p)
  = [(X_num 3, "u", "y")].
Proof. eexists. split; vm_compute; reflexivity. Qed.
Print Assumptions C67_quadratic_terms_refuted.
Example C67_ex : exists p, make_problem xdops 40 (text_of ["min"; "x + y + z + [ 6 x * y 6 z * x ] /2"; "st"; "x + y >= 1"; "end"]) = P_ok p /\
  rw_quadratic p = [(X_num 3, 0, 1); (X_num 3, 2, 0)].
Proof. eexists. split; vm_compute; reflexivity. Qed.
