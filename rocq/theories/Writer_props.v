(** Property theorems C24, C69 and C108: writing a problem and reading it back. *)
From Coq Require Import Ascii String QArith Lia.
From Verif Require Import Base Problem_model ResultIO_model Chars_spec Lexer_model Lexer_spec Lexer_proofs Lexer_props Parser_model Parser_spec
  Parser_proofs Parser_proofs2 Parser_proofs5 Parser_concrete Parser_props Writer_model Writer_spec Writer_proofs Writer_proofs2 Writer_proofs3 Writer_proofs4.
Open Scope string_scope.
Open Scope list_scope.
Open Scope nat_scope.

(** ** C24 *)
(** A problem that meets [writable] is written, and reading the text gives the same problem with
    its variables numbered again ([renumbered]). *)
Theorem C24_round_trip_partial : forall {D : Type} (dn : dops D) (p : raw_problem (D := D)),
  dops_ok dn -> writable dn p ->
  exists t p' s, write_problem dn p = Some t /\ renumbered s p p' /\
    (forall fuel, length (file_tokens t) <= fuel -> make_problem dn fuel t = P_ok p').
Proof. intros D dn p. apply round_trip. Qed.
Print Assumptions C24_round_trip_partial.
(** With exact numbers the conditions on numbers are those on their ranges: integer costs of fewer
    than 20 digits, coefficients and bounds that are ints. *)
Record writable_integers (p : raw_problem (D := xd)) : Prop := {
  wi_wf : well_formed p;
  wi_names : v_names (rw_vars p) <> [] /\ Forall (lp_name xdops) (v_names (rw_vars p));
  wi_objective : Forall (fun e => exists z, fst e = X_num (inject_Z z) /\ (- 10 ^ 20 < z < 10 ^ 20)%Z /\ z <> 0%Z) (rw_objective p);
  wi_quadratic : rw_quadratic p = [];
  wi_value : exists z, rw_value p = X_num (inject_Z z) /\ (- 10 ^ 20 < z < 10 ^ 20)%Z;
  wi_constraints : forall c, In c (rw_equal p ++ rw_greater p ++ rw_less p) ->
    lp_label (c_label c) /\ (int_min <= c_value c <= int_max)%Z /\
    Forall (fun e => f_factor e <> 0%Z /\ (int_min <= f_factor e <= int_max)%Z) (c_elements c);
  wi_bounds : forall i nm v, nth_error (v_names (rw_vars p)) i = Some nm -> nth_error (v_values (rw_vars p)) i = Some v ->
    v_min v = 0%Z /\ (v_max v = int_max \/ (number_like nm = false /\ (int_min <= v_max v <= int_max)%Z)) /\
    (v_type v = vt_binary -> v_max v = 1%Z);
  wi_used : forall i, i < length (v_names (rw_vars p)) ->
    In i (map snd (rw_objective p)) \/
    exists c, In c (rw_equal p ++ rw_greater p ++ rw_less p) /\ In i (map f_var (c_elements c))
}.
Theorem C24_round_trip_integers_partial : forall p, writable_integers p ->
  exists t p' s, write_problem xdops p = Some t /\ renumbered s p p' /\
    (forall fuel, length (file_tokens t) <= fuel -> make_problem xdops fuel t = P_ok p').
Proof.
  intros p H. apply round_trip; [ apply xdops_ok |]. constructor.
  - apply wi_wf, H.
  - apply wi_names, H.
  - eapply Forall_impl; [ | apply (wi_objective p H) ]. intros e [z [-> [Hz Hn]]]. apply printed_all; assumption.
  - apply wi_quadratic, H.
  - destruct (wi_value p H) as [z [-> Hz]]. destruct (Z.eq_dec z 0) as [->|Hn]; [ left; split; reflexivity |]. right. split; [ apply printed_all; assumption |].
    cbn [xdops d_add d_zero x_add]. f_equal. transitivity (Qred (inject_Z z)); [ apply Qred_complete; apply Qplus_0_l | apply Qred_Z ].
  - intros c Hc. destruct (wi_constraints p H c Hc) as [H1 [H2 H3]]. split; [ exact H1 |]. split; [ apply int_printed_all, H2 |]. eapply Forall_impl; [ | exact H3 ]. intros e [He1 He2]. split; [ exact He1 | apply int_printed_all, He2 ].
  - intros i nm v Hn Hv. destruct (wi_bounds p H i nm v Hn Hv) as [H1 [H2 H3]]. split; [ exact H1 |]. split; [ | exact H3 ]. destruct H2 as [H2|[H2 H4]]; [ left; exact H2 | right; split; [ exact H2 | apply bound_printed_all, H4 ] ].
  - apply wi_used, H.
Qed.
Print Assumptions C24_round_trip_integers_partial.
Definition ex_problem : raw_problem (D := xd) :=
  mk_raw maximize [(X_num 6, 3); (X_num (-4), 0)] [] (X_num 5)
    [mk_constraint (str "c1") [mk_felem 1 2; mk_felem (-2) 0] 1 0]
    [] [mk_constraint [] [mk_felem 3 1; mk_felem 1 0] 7 1; mk_constraint (str "last") [mk_felem (-1) 3] (-2) 2]
    (mk_variables [str "x"; str "y_1"; str "e1"; str "w"]
       [mk_variable_value 0 1 vt_binary; mk_variable_value 0 8 vt_general; mk_variable_value 0 int_max vt_real; mk_variable_value 0 int_max vt_general]).
Ltac ids_check := split; [ repeat constructor; cbn; intuition congruence | repeat constructor; cbn; lia ].
Lemma lp_check_name (nm : text) : (forallb is_char_name nm && Nat.ltb (length nm) 320 && match nm with c :: _ => negb (starts_with_a_number c) | [] => false end &&
  negb (keyword nm) && negb (are_equal nm (str "inf")) && match x_scan nm with None => true | _ => false end)%bool = true -> lp_name xdops nm.
Proof.
  intros H. apply andb_prop in H. destruct H as [H H5]. apply andb_prop in H. destruct H as [H H4]. apply andb_prop in H. destruct H as [H H3].
  pose proof (uncut_concrete nm H) as Hu. split; [ exact Hu |]. destruct Hu as [Hu1 [Hu2 Hu3]]. unfold name_ok. split; [ intros ->; destruct Hu3 |]. split; [ exact Hu1 |].
  chars. split; [ destruct (is_keyword nm); [ discriminate | reflexivity ] |]. split; [ exact Hu2 |]. split; [ destruct (are_equal nm (str "inf")); [ discriminate | reflexivity ] |].
  cbn [xdops d_scan]. destruct (x_scan nm); [ discriminate | reflexivity ].
Qed.
Lemma ex_writable : writable_integers ex_problem.
Proof.
  constructor; cbn [ex_problem rw_type rw_objective rw_quadratic rw_value rw_equal rw_greater rw_less rw_vars v_names v_values map snd fst app].
  - constructor; cbn [ex_problem rw_type rw_objective rw_quadratic rw_value rw_equal rw_greater rw_less rw_vars v_names v_values map snd fst app length].
    + repeat constructor; vm_compute; intuition congruence.
    + reflexivity.
    + ids_check.
    + split; constructor.
    + intros c [<-|[<-|[<-|[]]]]; (split; [ discriminate | cbn [c_elements map f_var]; ids_check ]).
    + vm_compute. repeat constructor.
  - split; [ discriminate |]. repeat constructor; apply lp_check_name; vm_compute; reflexivity.
  - repeat constructor; cbn [fst]; [ exists 6%Z | exists (-4)%Z ]; (split; [ reflexivity | split; [ lia | discriminate ] ]).
  - reflexivity.
  - exists 5%Z. split; [ reflexivity | lia ].
  - intros c [<-|[<-|[<-|[]]]]; cbn [c_label c_value c_elements]; unfold int_min, int_max; (split; [ | split; [ lia | repeat constructor; cbn [f_factor]; try discriminate; lia ] ]).
    + right. split; [ apply uncut_concrete; reflexivity | reflexivity ].
    + left. reflexivity.
    + right. split; [ apply uncut_concrete; reflexivity | reflexivity ].
  - unfold int_min, int_max. intros [ |[ |[ |[ |i ] ] ] ] nm v Hn Hv; cbn in Hn, Hv; try (destruct i; discriminate); injection Hn as <-; injection Hv as <-; cbn [v_min v_max v_type]; (split; [ reflexivity | split; [ | try discriminate; try reflexivity ] ]).
    + right. split; [ reflexivity | lia ].
    + right. split; [ reflexivity | lia ].
    + left. reflexivity.
    + left. reflexivity.
  - cbn [length]. intros i Hi. destruct i as [ |[ |[ |[ |i ] ] ] ]; [ left; cbn; tauto | right | right | left; cbn; tauto | lia ].
    + exists (mk_constraint [] [mk_felem 3 1; mk_felem 1 0] 7 1). cbn. tauto.
    + exists (mk_constraint (str "c1") [mk_felem 1 2; mk_felem (-2) 0] 1 0). cbn. tauto.
Qed.
Example C24_ex : writable_integers ex_problem /\
  match write_problem xdops ex_problem with
  | Some t => match make_problem xdops 100 t with P_ok p => map string_of_list_ascii (v_names (rw_vars p)) | _ => [] end
  | None => []
  end = ["w"; "x"; "e1"; "y_1"].
Proof. split; [ apply ex_writable | vm_compute; reflexivity ]. Qed.

(** Without the conditions of [writable]: a lower bound is lost, a bounded variable named e1 makes
    the file unreadable, so does a variable that occurs nowhere; a quadratic term changes its variables. *)
Definition one_var (nm : string) (v : variable_value) : raw_problem (D := xd) :=
  mk_raw minimize [(X_num 1, 0)] [] (X_num 0) [] [] [mk_constraint [] [mk_felem 1 0] 3 0] (mk_variables [str nm] [v]).
Definition unused_var : raw_problem (D := xd) :=
  mk_raw minimize [(X_num 1, 0)] [] (X_num 0) [] [] [mk_constraint [] [mk_felem 1 0] 3 0]
    (mk_variables [str "x"; str "y"] [mk_variable_value 0 5 vt_general; mk_variable_value 0 1 vt_binary]).
Definition quadratic : raw_problem (D := xd) :=
  mk_raw minimize [(X_num 1, 0); (X_num 1, 1); (X_num 1, 2)] [(X_num 3, 0, 1); (X_num 3, 2, 0)] (X_num 0) [] [mk_constraint [] [mk_felem 1 0; mk_felem 1 1] 1 0] []
    (mk_variables [str "x"; str "y"; str "z"] (repeat (mk_variable_value 0 1 vt_binary) 3)).
Theorem C24_round_trip_refuted :
  (exists t p', write_problem xdops (one_var "x" (mk_variable_value 2 5 vt_general)) = Some t /\ make_problem xdops 60 t = P_ok p' /\
     v_values (rw_vars p') = [mk_variable_value 0 5 vt_general]) /\
  (exists t, write_problem xdops (one_var "e1" (mk_variable_value 0 5 vt_general)) = Some t /\ make_problem xdops 60 t = P_error bad_bound) /\
  (exists t, write_problem xdops unused_var = Some t /\ make_problem xdops 60 t = P_error bad_bound) /\
  (exists t p', write_problem xdops quadratic = Some t /\ make_problem xdops 90 t = P_ok p' /\ rw_quadratic p' <> rw_quadratic quadratic).
Proof.
  split; [ eexists _, _; split; [ vm_compute; reflexivity | split; [ vm_compute; reflexivity | vm_compute; reflexivity ] ] |].
  split; [ eexists; split; [ vm_compute; reflexivity | vm_compute; reflexivity ] |]. split; [ eexists; split; [ vm_compute; reflexivity | vm_compute; reflexivity ] |].
  eexists _, _. split; [ vm_compute; reflexivity |]. split; [ vm_compute; reflexivity |]. vm_compute. congruence.
Qed.
Print Assumptions C24_round_trip_refuted.

(** ** C69 *)
(** The file "min nm st end". *)
Definition name_file (nm : text) : text := line "min" ++ (nm ++ [nl]) ++ line "st" ++ line "end".
Definition name_doc (nm : text) : document :=
  mk_document (str "min") None [O_var (mk_term None None nm)] (mk_header [str "st"] false) [] None None None (mk_header [str "end"] false).
Lemma scan_name nm : uncut nm -> starts_as nm "inf" = false -> starts_as nm "nan" = false -> x_scan nm = None /\ are_equal nm (str "inf") = false.
Proof.
  intros [H1 [_ H3]] Hi Hn. destruct nm as [ |c r ]; [ destruct H3 |]. split.
  - unfold x_scan. cbn [forallb] in H1. apply andb_prop in H1. destruct H1 as [H1 _]. chars.
    pose proof (all_chars (fun c => implb (is_char_name c && negb (starts_with_a_number c)) (negb (Ascii.eqb c "-") && negb (Ascii.eqb c "+") && negb (Ascii.eqb c ".") && match digit c with None => true | _ => false end)) ltac:(vm_compute; reflexivity) c) as E.
    cbv beta in E. rewrite H1, H3 in E. cbn [andb negb implb] in E. apply andb_prop in E. destruct E as [E E4]. apply andb_prop in E. destruct E as [E E3]. apply andb_prop in E. destruct E as [E1 E2].
    destruct (Ascii.eqb c "-"); [ discriminate |]. destruct (Ascii.eqb c "+"); [ discriminate |]. unfold scan_unsigned. rewrite Hi, Hn. cbn [take_digits]. destruct (digit c); [ discriminate |].
    destruct (Ascii.eqb c "."); [ discriminate |]. reflexivity.
  - destruct (are_equal (c :: r) (str "inf")) eqn:E; [ | reflexivity ]. unfold starts_as in Hi. destruct r as [ |d [ |e [ |f r ] ] ]; cbn [str list_ascii_of_string length firstn] in *; try congruence; cbn [are_equal] in E; rewrite ?andb_false_r in E; discriminate.
Qed.
(** A name made of name characters, that does not start like a number, is not a keyword and does
    not start with inf or nan is accepted. *)
Theorem C69_names_are_accepted_partial : forall (nm : text) (fuel : nat),
  uncut nm -> keyword nm = false -> starts_as nm "inf" = false -> starts_as nm "nan" = false -> 4 <= fuel ->
  exists p, make_problem xdops fuel (name_file nm) = P_ok p /\ v_names (rw_vars p) = [nm] /\ rw_objective p = [(X_num 1, 0)].
Proof.
  intros nm fuel Hu Hk Hi Hn Hf. destruct (scan_name nm Hu Hi Hn) as [Hs He].
  assert (L : lexes (name_file nm) (document_tokens (name_doc nm))).
  { unfold name_file, line. change (document_tokens (name_doc nm)) with ([str "min"] ++ [nm] ++ [str "st"] ++ [str "end"]).
    repeat (apply lexes_app); apply lexes_uncut; try reflexivity; try exact Hu; apply uncut_concrete; reflexivity. }
  destruct (lexes_file _ _ L) as [R [P F]].
  eexists. split; [ apply (make_problem_document xdops xdops_ok _ (name_doc nm) minimize); auto |].
  - constructor; cbn [name_doc dc_type dc_label dc_objective dc_subject dc_constraints dc_bounds dc_binary dc_general dc_end].
    + reflexivity.
    + exact I.
    + split; [ | exact I ]. split; [ | exact I ]. destruct Hu as [H1 [H2 H3]]. cbn [t_var]. split; [ intros ->; destruct H3 |]. split; [ exact H1 |]. split; [ exact Hk |]. split; [ exact H2 |]. split; [ exact He | exact Hs ].
    + left. exists (str "st"). split; reflexivity.
    + constructor.
    + exact I.
    + constructor.
    + exact I.
    + exact I.
    + exists (str "end"). split; reflexivity.
  - rewrite F. exact Hf.
  - split; [ reflexivity |]. cbn [meaning rw_objective name_doc dc_objective document_names]. unfold objective_of. cbn [var_terms flat_map app map t_var firsts filter].
    unfold terms_of. cbn [filter]. cbn [t_var]. rewrite text_eqb_refl. cbn [map sum_values fold_left]. unfold document_names. cbn [name_doc dc_objective dc_constraints flat_map oterm_names app t_var firsts filter position]. cbn [position]. rewrite text_eqb_refl. reflexivity.
Qed.
Print Assumptions C69_names_are_accepted_partial.
Example C69_ex : uncut (str "x_(1)~") /\ keyword (str "x_(1)~") = false /\ starts_as (str "x_(1)~") "inf" = false /\ starts_as (str "x_(1)~") "nan" = false.
Proof. split; [ apply uncut_concrete; reflexivity |]. repeat split; reflexivity. Qed.
(** sscanf reads a number in "info" or "nano": the name is lost, or the program stops. *)
Theorem C69_names_are_accepted_refuted : exists nm : text, uncut nm /\ keyword nm = false /\
  forall p, make_problem xdops 20 (name_file nm) = P_ok p -> v_names (rw_vars p) <> [nm].
Proof.
  exists (str "info"). split; [ apply uncut_concrete; reflexivity |]. split; [ reflexivity |].
  assert (E : match make_problem xdops 20 (name_file (str "info")) with P_ok p => match v_names (rw_vars p) with [] => true | _ => false end | _ => true end = true) by (vm_compute; reflexivity).
  intros p Hp. rewrite Hp in E. clear Hp. destruct (v_names (rw_vars p)); [ intros X; discriminate X | discriminate E ].
Qed.
Print Assumptions C69_names_are_accepted_refuted.

(** ** C108 *)
(** Every problem the parser gives is written. Its quadratic part is one bracket divided by two
    with one term per quadratic term of the problem ([lp_term]), in order; there is no bracket
    elsewhere, and none at all when the objective is linear. *)
Theorem C108_quadratic_part_written : forall {D : Type} (dn : dops D) (p : raw_problem (D := D)),
  well_formed p -> v_names (rw_vars p) <> [] ->
  (forall f a b, In (f, a, b) (rw_quadratic p) -> d_half dn (d_double dn f) = f) ->
  exists t, write_problem dn p = Some t /\
    (rw_quadratic p = [] -> bracketless dn p -> no_bracket t) /\
    (rw_quadratic p <> [] -> exists pre ts post, t = pre ++ str "+ [" ++ concat ts ++ str " ] /2" ++ post /\
       Forall2 (lp_term dn (v_names (rw_vars p))) (rw_quadratic p) ts /\
       (bracketless dn p -> no_bracket pre /\ no_bracket post)).
Proof.
  intros D dn p W Hn Hh. destruct (well_formed_written dn p W) as [ t Ht ]. exists t. split; [ exact Ht |]. split.
  - intros Hq B. apply (no_quadratic_written dn p t Hq B Ht).
  - intros Hq. apply (quadratic_written dn p t Hh Hn Hq Ht).
Qed.
Print Assumptions C108_quadratic_part_written.
(** minimize x + y + z + 3 x y + 5 z^2 *)
Definition square : raw_problem (D := xd) :=
  mk_raw minimize [(X_num 1, 0); (X_num 1, 1); (X_num 1, 2)] [(X_num 3, 0, 1); (X_num 5, 2, 2)] (X_num 0) [] [mk_constraint [] [mk_felem 1 0; mk_felem 1 1] 1 0] []
    (mk_variables [str "x"; str "y"; str "z"] (repeat (mk_variable_value 0 1 vt_binary) 3)).
Example C108_ex : well_formed square /\ v_names (rw_vars square) <> [] /\
  (forall f a b, In (f, a, b) (rw_quadratic square) -> d_half xdops (d_double xdops f) = f) /\ bracketless xdops square /\
  option_map string_of_list_ascii (write_problem xdops square) =
  Some (String.concat (String nl EmptyString)
    ["minimize"; ""; "+ 1 x + 1 y + 1 z + [ 6 x * y 10 z ^2 ] /2"; "subject to"; "+ 1 x + 1 y  >= 1"; "bounds"; "x <= 1"; "y <= 1"; "z <= 1";
     "binary"; " x"; " y"; " z"; "end"; ""]).
Proof.
  split.
  { constructor; cbn [square rw_type rw_objective rw_quadratic rw_value rw_equal rw_greater rw_less rw_vars v_names v_values map snd fst app length repeat pair_of].
    - repeat constructor; cbn; intuition discriminate.
    - reflexivity.
    - split; repeat constructor; cbn; intuition (discriminate || lia).
    - split; repeat constructor; cbn; try lia. intros [ H | H ]; discriminate.
    - intros c [ <- | [] ]. split; [ discriminate |]. split; repeat constructor; cbn; intuition (discriminate || lia).
    - repeat constructor. }
  split; [ discriminate |]. split.
  { intros f a b [ H | [ H | [] ] ]; injection H as <- <- <-; vm_compute; reflexivity. }
  split; [| vm_compute; reflexivity ].
  split; [| split ].
  - intros [ q | | | ]; [ apply nb_int | apply nb_dec; reflexivity | apply nb_dec; reflexivity | apply nb_dec; reflexivity ].
  - repeat constructor; intros [ H | H ]; discriminate.
  - intros c [ <- | [] ]. constructor.
Qed.
